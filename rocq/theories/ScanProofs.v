(** A search over several frequencies ends with a result when one of them must give one. *)
From Coq Require Import QArith Qabs Lqa Permutation Lia.
From Verif Require Import Float Base FreqcdModel FreqcdSpec FreqcdCliSpec FreqcdCliProofs TimestampsModel TimestampsSpec EpochsModel UtilsModel UtilsSpec UtilsProofs UtilsProofs2 FpfindModel FpfindSpec FpfindProofs FpfindProofs2 FpfindProofs3 FpfindProofs4 FpfindPipe
  MainModel MainProofs MainProofs2 MainProofs3 MainSpec2 MainProofs4 PipeSpec PipeProofs AccuracySpec AccuracyProofs PairSpec SignalSpec RoundedSpec RoundedProofs CdRunModel CdRunSpec WholeSpec WholeProofs WholeProofs2 SwapSpec SwapProofs PrecompSpec PrecompProofs
  ExistSpec ExistProofs ScanSpec.
Local Open Scope Z_scope.

Lemma iterate_reached M p P A e d s0 : rt M = fl p -> 1 <= p -> good_xc M -> good_zs M -> num_bins P = 1 \/ Z.odd (num_bins P) = false -> (0 <= separation_duration P)%Q ->
  (exists t, In t A /\ (separation_duration P <= t)%Q) -> (forall s, reached M P A e d s0 s -> exists t, In t (bts s) /\ (separation_duration P <= t)%Q) ->
  forall fuel s, reached M P A e d s0 s -> errs [ValueError; OutOfFuel] (iterate fuel M P A e d s).
Proof.
  intros RT P1 GX GZ NB S0 (a & IA & LA) RE. induction fuel as [|n IH]; intros s R; cbn [iterate]; [apply errs_err; cbn; tauto|].
  assert (NN : forall x, (0 <= x)%Q -> (0 <= rt M x)%Q) by (intros x X; rewrite RT; apply fl_nonneg; assumption).
  apply errs_bind.
  - apply (errs_mono [ValueError]); [cbn; tauto|]. destruct (RE s R) as (u & U & V).
    apply iteration_value; try assumption; [exists a|exists u|exists a|exists u]; (split; [assumption|]); apply NN; lra.
  - intros [x y|s'] E; [apply errs_ok|]. apply IH. now apply (reached_S M P A e d s0 s s').
Qed.
Lemma long_errs fuel M p P A B res : rt M = fl p -> 1 <= p -> good_xc M -> good_zs M -> num_bins P = 1 \/ Z.odd (num_bins P) = false -> (0 <= separation_duration P)%Q ->
  long_enough M P A B res -> errs [ValueError; OutOfFuel] (time_freq fuel M P A B res).
Proof.
  intros RT P1 GX GZ NB S0 (a & b & GA & GB & IA & RE). unfold time_freq. rewrite GA, GB. cbn [bind]. cbv zeta in *. eapply iterate_reached; try eassumption. constructor.
Qed.
(** one frequency after the other *)
Lemma scan_one M p P fuel ats bts res df0 rest : rt M = fl p -> rs M = fl 53 -> 54 <= p -> Forall (device_time 54) bts ->
  fpfind fuel M P ats bts res (df0 :: rest) false =
    match time_freq fuel M P ats (precompensated p df0 bts) res with
    | Err ValueError => fpfind fuel M P ats bts res rest false
    | Err e => Err e
    | Ok (dt, df) => Ok (fl 53 (0 + fl 53 (clock df0 * dt)), fl 53 (fl 53 (clock df0 * fl 53 (1 + df)) - 1))%Q
    end.
Proof.
  intros RT RS PP DV. unfold fpfind. cbn [scan]. rewrite RS. fold (clock df0).
  set (b' := map _ bts). assert (SB : same_values b' (precompensated p df0 bts)).
  { unfold b', precompensated. rewrite RT. clear -DV PP. induction DV as [|t bts D DV IH]; cbn [map]; constructor; [|exact IH].
    assert (X : (fl p (t - 0) == t)%Q) by (rewrite (fl_eq p (t - 0) t) by ring; apply (device_exact 54); [lia|exact PP|exact D]).
    rewrite (fl_eq p (fl p (t - 0) / clock df0) (t / clock df0)); [reflexivity|]. now rewrite X. }
  rewrite (time_freq_same fuel M P ats ats b' (precompensated p df0 bts) res); [|intros x y; rewrite RT; apply fl_eq|apply same_refl|exact SB].
  destruct (time_freq fuel M P ats (precompensated p df0 bts) res) as [[dt df]|x]; [reflexivity|]. destruct x; reflexivity.
Qed.
Lemma scan_total M p P ats bts res pre df0 post n0 x0 y0 : rt M = fl p -> rs M = fl 53 -> 54 <= p -> Forall (device_time 54) bts ->
  (forall d, In d pre -> exists n r, r <> Err OutOfFuel /\ errs [ValueError; OutOfFuel] r /\ forall m, (n <= m)%nat -> time_freq m M P ats (precompensated p d bts) res = r) ->
  (forall m, (n0 <= m)%nat -> time_freq m M P ats (precompensated p df0 bts) res = Ok (x0, y0)) ->
  exists n df1 x y, In df1 (pre ++ [df0]) /\ (forall m, (n <= m)%nat -> time_freq m M P ats (precompensated p df1 bts) res = Ok (x, y)) /\
    forall m, (n <= m)%nat -> fpfind m M P ats bts res (pre ++ df0 :: post) false = Ok (fl 53 (0 + fl 53 (clock df1 * x)), fl 53 (fl 53 (clock df1 * fl 53 (1 + y)) - 1))%Q.
Proof.
  intros RT RS PP DV. induction pre as [|d pre IH]; intros H H0.
  - exists n0, df0, x0, y0. split; [now left|]. split; [exact H0|]. intros m L. cbn [app]. rewrite (scan_one M p) by assumption. now rewrite (H0 m L).
  - destruct (H d (or_introl eq_refl)) as (n1 & r & NF & ER & H1). destruct r as [[x y]|ex].
    + exists n1, d, x, y. split; [now left|]. split; [exact H1|]. intros m L. cbn [app]. rewrite (scan_one M p) by assumption. now rewrite (H1 m L).
    + assert (EX : ex = ValueError). { specialize (ER ex eq_refl). cbn [In] in ER. destruct ER as [X|[X|[]]]; [now symmetry|congruence]. } subst ex.
      destruct IH as (n & df1 & x & y & I & T & R); [intros d' I'; apply H; now right|exact H0|].
      exists (Nat.max n n1), df1, x, y. split; [now right|]. split; [intros m L; apply T; lia|]. intros m L. cbn [app]. rewrite (scan_one M p) by assumption. rewrite (H1 m ltac:(lia)). apply R. lia.
Qed.
Lemma any_equation fuel M p repr o lg evA evB : rt M = fl p -> rs M = fl 53 -> 54 <= p -> any_search o -> overlapping evA evB ->
  main_files fuel M p repr o (encode (A1 lg) (map word_of evA)) (encode (A1 lg) (map word_of evB)) lg 0 =
    let* (dt, df) := fpfind fuel M (told_search o) (since (common_start evA evB) evA) (since (common_start evA evB) evB) (inject_Z (initial_res o)) (tried (fl 53) o) false in
    Ok (output (fl 53) repr (flag o) dt df).
Proof.
  unfold any_search, overlapping, told_search. set (z := initial_res o). set (q := buffer_order o). set (n := 2 ^ q).
  set (T := acquisition o). set (sep := sep_ns o). cbv zeta. set (W := inject_Z T). set (res := inject_Z z). set (ats := since (common_start evA evB) evA). set (bts := since (common_start evA evB) evB).
  intros RT RS PP (Z0 & FR & Q1 & W0 & T53 & FS & SP) (OA & OB & NA & NB & GA & GB).
  set (P := mkP (o_wraps o) n (inject_Z (final_res o)) (o_threshold o) sep).
  assert (ST : 0 <= common_start evA evB).
  { destruct evA as [|e evA]; [congruence|]. inv OA. match goal with X : event_ok e |- _ => destruct X as [E _] end. unfold common_start. cbn [hd]. lia. }
  destruct (read_times_values p lg evA PP OA) as (ra & pa & EA & VA). destruct (read_times_values p lg evB PP OB) as (rb & pb & EB & VB).
  assert (ZN : (fl 53 (0 * 1000000000) == 0)%Q) by reflexivity.
  assert (NE : forall (x : list Q) (evs : list event), evs <> [] -> same_values x (map (fun e => inject_Z (fst e) / 256)%Q evs) -> x <> []).
  { intros x evs NV V ->. inv V. destruct evs; [congruence|discriminate]. }
  assert (DEV : Forall (Forall (device_time 54)) [tvalues ra; tvalues rb]).
  { constructor; [exact (device_same 54 _ _ VA (event_device _ OA))|]. constructor; [exact (device_same 54 _ _ VB (event_device _ OB))|constructor]. }
  destruct (c45_exact 54 p [tvalues ra; tvalues rb] 0 0) as (m & R & L & E & V); try assumption; try lia; try discriminate.
  { constructor; [exact (NE _ _ NA VA)|]. constructor; [exact (NE _ _ NB VB)|constructor]. }
  { intros m LM. pose proof (start_value evA evB _ _ NA NB VA VB m LM) as EM. exists (common_start evA evB). split; [rewrite EM; field|].
    destruct evA as [|x evA]; [congruence|]. destruct evB as [|y evB]; [congruence|]. inv OA. inv OB.
    match goal with X : event_ok x, Y : event_ok y |- _ => destruct X as [X _]; destruct Y as [Y _] end. unfold common_start. cbn [hd]. lia. }
  pose proof (start_value evA evB _ _ NA NB VA VB m L) as EM.
  inv V. match goal with X : Forall2 same_values _ _ |- _ => inv X end. match goal with X : Forall2 same_values _ [] |- _ => inv X end.
  match goal with X : same_values ?x (map _ (from _ (tvalues ra))), Y : same_values ?y (map _ (from _ (tvalues rb))) |- _ => rename x into al; rename y into bo; rename X into SA; rename Y into SB end.
  assert (EM0 : (m + 0 == inject_Z (common_start evA evB) / 256)%Q) by (rewrite EM; field).
  pose proof (same_trans _ _ _ SA (since_same _ _ _ _ VA EM0)) as SA'. pose proof (same_trans _ _ _ SB (since_same _ _ _ _ VB EM0)) as SB'. fold ats in SA'. fold bts in SB'.
  unfold main_files, bins. fold q. destruct (Z.ltb_spec q 0) as [QN|_]; [lia|]. cbn [bind]. rewrite EA, EB. cbn [bind].
  unfold search_and_print. rewrite RT, RS, E. cbn [bind nth].
  assert (G0 : forall l l', same_values l l' -> l' <> [] -> exists v, getitem l 0 = Ok v).
  { intros l l' X Y. destruct X; [congruence|]. eexists. reflexivity. }
  destruct (G0 al ats SA' GA) as [v1 X1].
  destruct (G0 bo bts SB' GB) as [v2 X2]. rewrite X1, X2. cbn [bind]. rewrite FS.
  rewrite Z.shiftl_1_l. fold n z. change (Ta o n) with T. fold W res.
  assert (ES : fl 53 (separation o * fl 53 W) = sep).
  { unfold sep, sep_ns. apply fl_eq. fold T. unfold W. assert (0 < n) by (unfold n; apply Z.pow_pos_nonneg; lia). assert (0 <= T) by (change T with (z * n * o_wraps o); clearbody n; apply Z.mul_nonneg_nonneg; nia). rewrite fl_int by lia. reflexivity. }
  rewrite ES. fold P. fold (tried (fl 53) o). rewrite (fpfind_same fuel M P al ats bo bts res (tried (fl 53) o) false); [|intros x y; rewrite RT; apply fl_eq|exact SA'|exact SB'].
  reflexivity.
Qed.
Lemma evenness o : 0 < buffer_order o -> Z.odd (num_bins (told_search o)) = false.
Proof. intros BO. cbn [told_search num_bins]. replace (2 ^ buffer_order o) with (2 * 2 ^ (buffer_order o - 1)) by (rewrite <- Z.pow_succ_r by lia; f_equal; lia). rewrite Z.odd_mul. reflexivity. Qed.
Lemma precompensated_some p df0 B : B <> [] -> precompensated p df0 B <> [].
Proof. destruct B; [congruence|discriminate]. Qed.
Lemma c135_files e M p repr o lg evA evB pre df0 post D F j W : rt M = fl p -> rs M = fl 53 -> accurate_to e (2 ^ buffer_order o) (len evA) (len evB) M -> (0 <= e)%Q -> 54 <= p -> good_xc M -> good_zs M -> any_search o -> 0 < buffer_order o ->
  moderate (tried (fl 53) o) -> overlapping evA evB -> (0 <= W)%Q -> (0 <= j)%Q ->
  let A := since (common_start evA evB) evA in let B := since (common_start evA evB) evB in let P := told_search o in let res := inject_Z (initial_res o) in
  ends_surely M P res -> tried (fl 53) o = pre ++ df0 :: post -> (forall d, In d pre -> long_enough M P A (precompensated p d B) res) ->
  common_after e M p o evA evB df0 D F j W -> within_reach M P A (precompensated p df0 B) res (D_left df0 D) (F_left df0 F) j W -> significant M P A (precompensated p df0 B) res ->
  exists n df1 dt df, (forall m, (n <= m)%nat -> main_files m M p repr o (encode (A1 lg) (map word_of evA)) (encode (A1 lg) (map word_of evB)) lg 0 = Ok (output (fl 53) repr (flag o) dt df)) /\ In df1 (pre ++ [df0]) /\
    forall D F j W, (0 <= W)%Q -> (0 <= j)%Q -> common_after e M p o evA evB df1 D F j W ->
    exists ws, widths_after M p o evA evB df1 ws /\
      let E := search_freq_error o (F_left df1 F) j W ws in
      (Qabs (df - F) <= clock df1 * E + (1 # 2 ^ 49) * (1 + Qabs (F_left df1 F) + E))%Q /\
      (Qabs (dt - D) <= clock df1 * search_time_error o (D_left df1 D) (F_left df1 F) j W ws + (1 # 2 ^ 49) * (Qabs dt + 100000000))%Q.
Proof.
  intros RT RS AC E0 PP GX GZ PS BO MO OV W0 J0 A B P res ES TR LE CA WR SG. pose proof OV as (OA & OB & NA & NB & NSA & NSB). fold A in NSA. fold B in NSB.
  pose proof PS as (Z0 & FR & Q1 & WR0 & T53 & FS & SP).
  assert (ST : 0 <= common_start evA evB).
  { destruct evA as [|ev evA']; [congruence|]. inv OA. match goal with X : event_ok ev |- _ => destruct X as [E _] end. unfold common_start. cbn [hd]. lia. }
  assert (PT : 0 < num_bins P) by (cbn [told_search num_bins P]; apply Z.pow_pos_nonneg; lia). pose proof (evenness o BO) as EV. fold P in EV.
  assert (T0 : (0 < target_resolution P)%Q) by (unfold P; cbn [told_search target_resolution]; change 0%Q with (inject_Z 0); rewrite <- Zlt_Qlt; lia).
  assert (R0 : (0 < res)%Q) by (unfold res; change 0%Q with (inject_Z 0); rewrite <- Zlt_Qlt; lia).
  assert (AC' : accurate_to e (num_bins P) (len A) (len (precompensated p df0 B)) M) by (rewrite precompensated_length; now apply accurate_since).
  assert (SO : stand_out_singly e M P A (precompensated p df0 B) res (D_left df0 D) (F_left df0 F) j W) by (apply singly_out; exact CA).
  destruct (time_freq_total e M P A (precompensated p df0 B) res (D_left df0 D) (F_left df0 F) j W RS AC' E0 GX GZ PT EV T0 R0 (res_any o PS) SP W0 J0 ES SO WR SG) as (n0 & x0 & y0 & ALL).
  assert (RS' : forall v, rs M v = fl 53 v) by (intros v; now rewrite RS).
  destruct (scan_total M p P A B res pre df0 post n0 x0 y0 RT RS PP (since_device _ _ ST OB)) as (n & df1 & x & y & I & TF & FP); [|exact ALL|].
  { intros d Id. specialize (LE d Id). destruct ES as [ES1 ES2]. unfold asked in ES1, ES2. rewrite RS in ES1, ES2.
    destruct (c55_float M P A (precompensated p d B) res RS' GX GZ (or_intror EV) ES1 ES2 T0 R0 NSA (precompensated_some p d B NSB)) as (n & r & NF & AL).
    exists n, r. split; [exact NF|]. split; [|exact AL]. rewrite <- (AL n (le_n n)). apply (long_errs n M p); try assumption; [lia|now right|apply Qlt_le_weak, SP]. }
  exists n, df1. do 2 eexists. split; [|split; [exact I|]].
  - intros m L. rewrite (any_equation m M p repr o lg evA evB RT RS PP PS OV). rewrite TR. fold A B. fold P. fold res. rewrite (FP m L). reflexivity.
  - intros D' F' j' W' W0' J0' CA'. assert (IT : In df1 (tried (fl 53) o)). { rewrite TR. apply in_app_or in I. apply in_or_app. destruct I as [I|[I|[]]]; [now left|right; now left]. }
    exact (any_bounds e n M p o evA evB df1 x y _ _ D' F' j' W' RT RS AC E0 PS (MO df1 IT) (TF n (le_n n)) eq_refl eq_refl W0' J0' CA').
Qed.
