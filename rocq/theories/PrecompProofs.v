(** fpfind on two files, with precompensation. *)
From Coq Require Import QArith Qabs Lqa Permutation Lia.
From Verif Require Import Float Base FreqcdModel FreqcdSpec FreqcdCliSpec FreqcdCliProofs TimestampsModel TimestampsSpec EpochsModel UtilsModel UtilsSpec UtilsProofs UtilsProofs2 FpfindModel FpfindSpec FpfindProofs FpfindProofs2 FpfindProofs3 FpfindPipe
  MainModel MainProofs MainProofs2 MainProofs3 MainSpec2 MainProofs4 PipeSpec PipeProofs AccuracySpec AccuracyProofs PairSpec SignalSpec RoundedSpec RoundedProofs CdRunModel CdRunSpec WholeSpec WholeProofs WholeProofs2 PrecompSpec.
Local Open Scope Z_scope.

Lemma scan_any M p P fuel ats bts res : rt M = fl p -> rs M = fl 53 -> 54 <= p -> Forall (device_time 54) bts ->
  forall df0s dt' df', fpfind fuel M P ats bts res df0s false = Ok (dt', df') ->
  exists df0 dt df, In df0 df0s /\ time_freq fuel M P ats (precompensated p df0 bts) res = Ok (dt, df) /\
    dt' = fl 53 (0 + fl 53 (clock df0 * dt)) /\ df' = fl 53 (fl 53 (clock df0 * fl 53 (1 + df)) - 1).
Proof.
  intros RT RS PP DV. unfold fpfind. induction df0s as [|df0 df0s IH]; intros dt' df' H; [discriminate|]. cbn [scan] in H. rewrite RS in H. fold (clock df0) in H.
  set (b' := map _ bts) in H. assert (SB : same_values b' (precompensated p df0 bts)).
  { unfold b', precompensated. rewrite RT. clear -DV PP. induction DV as [|t bts D DV IH]; cbn [map]; constructor; [|exact IH].
    assert (X : (fl p (t - 0) == t)%Q) by (rewrite (fl_eq p (t - 0) t) by ring; apply (device_exact 54); [lia|exact PP|exact D]).
    rewrite (fl_eq p (fl p (t - 0) / clock df0) (t / clock df0)); [reflexivity|]. now rewrite X. }
  rewrite (time_freq_same fuel M P ats ats b' (precompensated p df0 bts) res) in H; [|intros x y; rewrite RT; apply fl_eq|apply same_refl|exact SB].
  destruct (time_freq fuel M P ats (precompensated p df0 bts) res) as [[dt df]|x] eqn:TF.
  - exists df0, dt, df. split; [now left|]. split; [exact TF|]. split; congruence.
  - destruct x; try discriminate. rewrite <- RS in H. destruct (IH dt' df' H) as (g & dt & df & I & R). exists g, dt, df. split; [now right|exact R].
Qed.
Lemma files_any fuel M p repr o lg evA evB line : rt M = fl p -> rs M = fl 53 -> 54 <= p -> any_search o -> overlapping evA evB ->
  main_files fuel M p repr o (encode (A1 lg) (map word_of evA)) (encode (A1 lg) (map word_of evB)) lg 0 = Ok line ->
  exists dt df, line = output (fl 53) repr (flag o) dt df /\
    fpfind fuel M (told_search o) (since (common_start evA evB) evA) (since (common_start evA evB) evB) (inject_Z (initial_res o)) (tried (fl 53) o) false = Ok (dt, df).
Proof.
  unfold any_search, told_search. set (z := initial_res o). set (q := buffer_order o). set (n := 2 ^ q).
  set (T := acquisition o). set (sep := sep_ns o). cbv zeta. set (W := inject_Z T). set (res := inject_Z z). unfold overlapping. set (ats := since (common_start evA evB) evA). set (bts := since (common_start evA evB) evB).
  intros RT RS PP (Z0 & FR & Q1 & W0 & T53 & FS & SP) (OA & OB & NA & NB & GA & GB) H.
  set (P := mkP (o_wraps o) n (inject_Z (final_res o)) (o_threshold o) sep).
  assert (ST : 0 <= common_start evA evB).
  { destruct evA as [|e evA]; [congruence|]. inv OA. match goal with X : event_ok e |- _ => destruct X as [E _] end. unfold common_start. cbn [hd]. lia. }
  destruct (read_times_values p lg evA PP OA) as (ra & pa & EA & VA). destruct (read_times_values p lg evB PP OB) as (rb & pb & EB & VB).
  assert (ZN : (fl 53 (0 * 1000000000) == 0)%Q) by reflexivity.
  assert (NE : forall (x : list Q) (evs : list event), evs <> [] -> same_values x (map (fun e => inject_Z (fst e) / 256)%Q evs) -> x <> []).
  { intros x evs NV V ->. inv V. destruct evs; [congruence|discriminate]. }
  assert (DEV : Forall (Forall (device_time 54)) [tvalues ra; tvalues rb]).
  { constructor; [exact (device_same 54 _ _ VA (event_device _ OA))|]. constructor; [exact (device_same 54 _ _ VB (event_device _ OB))|constructor]. }
  destruct (c45_exact 54 p [tvalues ra; tvalues rb] 0 0) as (m & R & L & E & V); try assumption; try lia; try discriminate.
  { constructor; [exact (NE _ _ NA VA)|]. constructor; [exact (NE _ _ NB VB)|constructor]. }
  { intros m LM. pose proof (start_value evA evB _ _ NA NB VA VB m LM) as EM. exists (common_start evA evB). split; [rewrite EM; field|].
    destruct evA as [|x evA]; [congruence|]. destruct evB as [|y evB]; [congruence|]. inv OA. inv OB.
    match goal with X : event_ok x, Y : event_ok y |- _ => destruct X as [X _]; destruct Y as [Y _] end. unfold common_start. cbn [hd]. lia. }
  pose proof (start_value evA evB _ _ NA NB VA VB m L) as EM.
  inv V. match goal with X : Forall2 same_values _ _ |- _ => inv X end. match goal with X : Forall2 same_values _ [] |- _ => inv X end.
  match goal with X : same_values ?x (map _ (from _ (tvalues ra))), Y : same_values ?y (map _ (from _ (tvalues rb))) |- _ => rename x into al; rename y into bo; rename X into SA; rename Y into SB end.
  assert (EM0 : (m + 0 == inject_Z (common_start evA evB) / 256)%Q) by (rewrite EM; field).
  pose proof (same_trans _ _ _ SA (since_same _ _ _ _ VA EM0)) as SA'. pose proof (same_trans _ _ _ SB (since_same _ _ _ _ VB EM0)) as SB'. fold ats in SA'. fold bts in SB'.
  unfold main_files, bins in H. fold q in H. destruct (Z.ltb_spec q 0) as [QN|_]; [lia|]. cbn [bind] in H. rewrite EA, EB in H. cbn [bind] in H.
  unfold search_and_print in H. rewrite RT, RS, E in H. cbn [bind nth] in H.
  assert (G0 : forall l l', same_values l l' -> l' <> [] -> exists v, getitem l 0 = Ok v).
  { intros l l' X Y. destruct X; [congruence|]. eexists. reflexivity. }
  destruct (G0 al ats SA' GA) as [v1 X1]. destruct (G0 bo bts SB' GB) as [v2 X2]. rewrite X1, X2 in H. cbn [bind] in H. rewrite FS in H.
  rewrite Z.shiftl_1_l in H. fold n z in H. change (Ta o n) with T in H. fold W res in H.
  assert (ES : fl 53 (separation o * fl 53 W) = sep).
  { unfold sep, sep_ns. apply fl_eq. fold T. unfold W. assert (0 < n) by (unfold n; apply Z.pow_pos_nonneg; lia). assert (0 <= T) by (change T with (z * n * o_wraps o); clearbody n; apply Z.mul_nonneg_nonneg; nia). rewrite fl_int by lia. reflexivity. }
  rewrite ES in H. fold P in H. fold (tried (fl 53) o) in H. rewrite (fpfind_same fuel M P al ats bo bts res (tried (fl 53) o) false) in H; [|intros x y; rewrite RT; apply fl_eq|exact SA'|exact SB'].
  destruct (fpfind fuel M P ats bts res (tried (fl 53) o) false) as [[dt df]|] eqn:FP; [|discriminate]. cbn [bind] in H. exists dt, df. split; [congruence|reflexivity].
Qed.
Lemma res_any o : any_search o -> (fl 53 (inject_Z (initial_res o)) == inject_Z (initial_res o))%Q.
Proof.
  intros (Z0 & FR & Q1 & W0 & T53 & _). apply fl_int; [lia|]. unfold acquisition in T53. assert (1 <= 2 ^ buffer_order o) by (pose proof (Z.pow_pos_nonneg 2 (buffer_order o)); lia). nia.
Qed.
Lemma clock_range df0 : (Qabs df0 <= 1 # 2)%Q -> (49 # 100 <= clock df0 <= 151 # 100)%Q.
Proof.
  intros H. pose proof (fl53_err (1 + df0)) as E. fold (clock df0) in E. unfold U53 in E. change (1 # 2 ^ 53)%Q with (1 # 9007199254740992)%Q in E.
  pose proof (Qabs_triangle 1 df0) as T. change (Qabs 1) with 1%Q in T. assert (B : (Qabs (clock df0 - (1 + df0)) <= 1 # 1000)%Q) by lra. apply qabs_iff in B, H. lra.
Qed.
(** rounding of a product with a factor between 0.49 and 1.51 *)
Lemma qabs_mult_le c x : (49 # 100 <= c <= 151 # 100)%Q -> (Qabs (c * x) <= (151 # 100) * Qabs x)%Q.
Proof. intros C. rewrite Qabs_Qmult, (Qabs_pos c) by lra. apply Qmult_le_compat_r; [lra|apply Qabs_nonneg]. Qed.
Lemma tri x y z : (x == y + z)%Q -> (Qabs x <= Qabs y + Qabs z)%Q.
Proof. intros E. rewrite E. apply Qabs_triangle. Qed.
Lemma last_nonempty {A} (l : list A) v : getitem l (-1) = Ok v -> l <> [].
Proof. intros H ->. discriminate. Qed.
Lemma precompensated_length p df0 B : len (precompensated p df0 B) = len B.
Proof. unfold precompensated, len. now rewrite map_length. Qed.
Lemma any_bounds e fuel M p o evA evB df0 x y dt df D F j W : rt M = fl p -> rs M = fl 53 -> accurate_to e (2 ^ buffer_order o) (len evA) (len evB) M -> (0 <= e)%Q -> any_search o -> (Qabs df0 <= 1 # 2)%Q ->
  time_freq fuel M (told_search o) (since (common_start evA evB) evA) (precompensated p df0 (since (common_start evA evB) evB)) (inject_Z (initial_res o)) = Ok (x, y) ->
  dt = fl 53 (0 + fl 53 (clock df0 * x)) -> df = fl 53 (fl 53 (clock df0 * fl 53 (1 + y)) - 1) ->
  (0 <= W)%Q -> (0 <= j)%Q -> common_after e M p o evA evB df0 D F j W ->
  exists ws, widths_after M p o evA evB df0 ws /\
    let E := search_freq_error o (F_left df0 F) j W ws in
    (Qabs (df - F) <= clock df0 * E + (1 # 2 ^ 49) * (1 + Qabs (F_left df0 F) + E))%Q /\
    (Qabs (dt - D) <= clock df0 * search_time_error o (D_left df0 D) (F_left df0 F) j W ws + (1 # 2 ^ 49) * (Qabs dt + 100000000))%Q.
Proof.
  intros RT RS AC E0 PS MO TF ED EF W0 J0 (a & b & GA & GB & CL). cbv zeta in CL.
  assert (RS' : forall v, rs M v = fl 53 v) by (intros v; now rewrite RS). pose proof (res_any o PS) as RF.
  pose proof PS as (Z0 & FR & Q1 & WR & T53 & FS & SP).
  destruct (c99 U53 e fuel M (told_search o) (since (common_start evA evB) evA) (precompensated p df0 (since (common_start evA evB) evB)) (inject_Z (initial_res o)) (D_left df0 D) (F_left df0 F) W j x y a b) as (ws & EN & B1 & B2); try assumption.
  { exact (rounds_float M RS'). } { exact (float_by_value 53 M RS'). } { discriminate. } { discriminate. } { rewrite precompensated_length. now apply accurate_since. }
  { cbn [told_search target_resolution]. change 0%Q with (inject_Z 0). rewrite <- Zlt_Qlt. lia. } { change 0%Q with (inject_Z 0). rewrite <- Zlt_Qlt. lia. }
  { exact (float_representable 53 M _ RS' RF). }
  exists ws. split; [exists a, b; repeat split; assumption|]. cbv zeta.
  cbn [told_search num_bins separation_duration] in B1, B2. fold (search_freq_error o (F_left df0 F) j W ws) in B1. fold (search_time_error o (D_left df0 D) (F_left df0 F) j W ws) in B2.
  set (SF := search_freq_error o (F_left df0 F) j W ws) in *. set (SE := search_time_error o (D_left df0 D) (F_left df0 F) j W ws) in *. clearbody SF SE.
  pose proof (clock_range df0 MO) as CR. unfold D_left, F_left in *. set (c := clock df0) in *. clearbody c. assert (C0 : ~ (c == 0)%Q) by lra.
  set (F' := ((1 + F) / c - 1)%Q) in *. set (D' := (D / c)%Q) in *. assert (EF' : (F == c * (1 + F') - 1)%Q) by (unfold F'; field; exact C0). assert (ED' : (D == c * D')%Q) by (unfold D'; field; exact C0). clearbody F' D'.
  (* the frequency *)
  set (g := fl 53 (1 + y)) in EF. pose proof (fl53_err (1 + y)) as G1. fold g in G1. clearbody g.
  set (h := fl 53 (c * g)) in EF. pose proof (fl53_err (c * g)) as G2. fold h in G2. clearbody h. pose proof (fl53_err (h - 1)) as G3. rewrite <- EF in G3.
  (* the time *)
  set (v := fl 53 (c * x)) in ED. pose proof (fl53_err (c * x)) as K1. fold v in K1.
  assert (K2 : (dt == v)%Q) by (rewrite ED, (fl_eq 53 (0 + v) v) by ring; unfold v; apply fl_idem; lia). clearbody v.
  unfold U53 in *. change (1 # 2 ^ 53)%Q with (1 # 9007199254740992)%Q in *. change (1 # 2 ^ 49)%Q with (1 # 562949953421312)%Q.
  assert (MC : forall w z, (Qabs w <= z -> Qabs (c * w) <= c * z)%Q).
  { intros w z' L. rewrite Qabs_Qmult, (Qabs_pos c) by lra. rewrite !(Qmult_comm c). apply Qmult_le_compat_r; [exact L|lra]. }
  split.
  - assert (Y0 : (Qabs y <= Qabs (y - F') + Qabs F')%Q) by (apply tri; ring).
    assert (Y1 : (Qabs (1 + y) <= 1 + Qabs y)%Q) by exact (Qabs_triangle 1 y).
    assert (G0 : (Qabs g <= Qabs (g - (1 + y)) + Qabs (1 + y))%Q) by (apply tri; ring).
    pose proof (qabs_mult_le c (y - F') CR) as L1. pose proof (qabs_mult_le c (g - (1 + y)) CR) as L2. pose proof (qabs_mult_le c g CR) as L3.
    assert (H0 : (Qabs (h - 1) <= Qabs (h - c * g) + Qabs (c * g) + 1)%Q).
    { setoid_replace (h - 1)%Q with ((h - c * g) + (c * g + -1))%Q by ring. eapply Qle_trans; [apply Qabs_triangle|]. pose proof (Qabs_triangle (c * g) (-1)) as T. change (Qabs (-1)) with 1%Q in T. lra. }
    assert (TT : (Qabs (df - F) <= Qabs (df - (h - 1)) + (Qabs (h - c * g) + (Qabs (c * (g - (1 + y))) + Qabs (c * (y - F')))))%Q).
    { rewrite EF'. eapply Qle_trans; [apply (tri _ (df - (h - 1)) (h - c * (1 + F'))); ring|]. apply Qplus_le_r. eapply Qle_trans; [apply (tri _ (h - c * g) (c * g - c * (1 + F'))); ring|]. apply Qplus_le_r. apply tri. ring. }
    pose proof (MC _ _ B1) as L1'. setoid_replace (c * (SF + (1 # 9007199254740992)))%Q with (c * SF + c * (1 # 9007199254740992))%Q in L1' by ring.
    pose proof (Qabs_nonneg F'). pose proof (Qabs_nonneg y). pose proof (Qabs_nonneg (y - F')). set (cs := (c * SF)%Q) in *. lra.
  - pose proof (qabs_mult_le c x CR) as L1. pose proof (Qabs_nonneg x). pose proof (Qabs_nonneg dt).
    assert (X0 : ((49 # 100) * Qabs x <= Qabs (c * x))%Q) by (rewrite Qabs_Qmult, (Qabs_pos c) by lra; apply Qmult_le_compat_r; [lra|apply Qabs_nonneg]).
    assert (X1 : (Qabs (c * x) <= Qabs (v - c * x) + Qabs v)%Q) by (rewrite <- (Qabs_opp (v - c * x)); apply tri; ring).
    assert (EV : (Qabs dt == Qabs v)%Q) by (now rewrite K2).
    pose proof (MC _ _ B2) as L2. setoid_replace (c * (SE + 2 * (1 # 9007199254740992) * (Qabs x + 100000000)))%Q with (c * SE + c * (2 * (1 # 9007199254740992) * (Qabs x + 100000000)))%Q in L2 by ring.
    assert (L3 : (c * (2 * (1 # 9007199254740992) * (Qabs x + 100000000)) <= (151 # 100) * (2 * (1 # 9007199254740992) * (Qabs x + 100000000)))%Q).
    { apply Qmult_le_compat_r; [lra|]. apply Qmult_le_0_compat; lra. }
    assert (TT : (Qabs (dt - D) <= Qabs (v - c * x) + Qabs (c * (x - D')))%Q) by (rewrite ED', K2; apply tri; ring).
    set (cs := (c * SE)%Q) in *. lra.
Qed.
Lemma whole_any e fuel M p repr o lg evA evB line : rt M = fl p -> rs M = fl 53 -> accurate_to e (2 ^ buffer_order o) (len evA) (len evB) M -> (0 <= e)%Q -> 54 <= p -> any_search o -> moderate (tried (fl 53) o) ->
  overlapping evA evB ->
  main_files fuel M p repr o (encode (A1 lg) (map word_of evA)) (encode (A1 lg) (map word_of evB)) lg 0 = Ok line ->
  exists df0 dt df, In df0 (tried (fl 53) o) /\ line = output (fl 53) repr (flag o) dt df /\
  forall D F j W, (0 <= W)%Q -> (0 <= j)%Q -> common_after e M p o evA evB df0 D F j W ->
  exists ws, widths_after M p o evA evB df0 ws /\
    let E := search_freq_error o (F_left df0 F) j W ws in
    (Qabs (df - F) <= clock df0 * E + (1 # 2 ^ 49) * (1 + Qabs (F_left df0 F) + E))%Q /\
    (Qabs (dt - D) <= clock df0 * search_time_error o (D_left df0 D) (F_left df0 F) j W ws + (1 # 2 ^ 49) * (Qabs dt + 100000000))%Q.
Proof.
  intros RT RS AC E0 PP PS MO OV H. pose proof OV as (OA & OB & NA & NB & NSA & NSB).
  destruct (files_any fuel M p repr o lg evA evB line RT RS PP PS OV H) as (dt & df & LN & FP).
  assert (ST : 0 <= common_start evA evB).
  { destruct evA as [|ev evA]; [congruence|]. inv OA. match goal with X : event_ok ev |- _ => destruct X as [E _] end. unfold common_start. cbn [hd]. lia. }
  destruct (scan_any M p _ fuel _ _ _ RT RS PP (since_device _ _ ST OB) _ _ _ FP) as (df0 & x & y & I & TF & ED & EF).
  exists df0, dt, df. split; [exact I|]. split; [exact LN|]. intros D F j W W0 J0 CA.
  exact (any_bounds e fuel M p o evA evB df0 x y dt df D F j W RT RS AC E0 PS (MO df0 I) TF ED EF W0 J0 CA).
Qed.
Lemma c107 e fuel M p repr o lg evA evB line : rt M = fl p -> rs M = fl 53 -> accurate_to e (2 ^ buffer_order o) (len evA) (len evB) M -> (0 <= e)%Q -> 54 <= p -> (forall x, field_ok (repr x)) -> any_search o -> moderate (tried (fl 53) o) ->
  overlapping evA evB ->
  main_files fuel M p repr o (encode (A1 lg) (map word_of evA)) (encode (A1 lg) (map word_of evB)) lg 0 = Ok line ->
  exists df0 dt df, In df0 (tried (fl 53) o) /\ shows_offsets repr (flag o) dt df line /\
  forall D F j W, (0 <= W)%Q -> (0 <= j)%Q -> common_after e M p o evA evB df0 D F j W ->
  exists ws, widths_after M p o evA evB df0 ws /\
    let E := search_freq_error o (F_left df0 F) j W ws in
    (Qabs (df - F) <= clock df0 * E + (1 # 2 ^ 49) * (1 + Qabs (F_left df0 F) + E))%Q /\
    (Qabs (dt - D) <= clock df0 * search_time_error o (D_left df0 D) (F_left df0 F) j W ws + (1 # 2 ^ 49) * (Qabs dt + 100000000))%Q.
Proof.
  intros RT RS AC E0 PP RP PS MO OV H. destruct (whole_any e fuel M p repr o lg evA evB line RT RS AC E0 PP PS MO OV H) as (df0 & dt & df & I & -> & B).
  exists df0, dt, df. split; [exact I|]. split; [exact (c62 (fl 53) repr (flag o) dt df RP)|exact B].
Qed.
Lemma c107_freqcd e fuel M p repr o lg evA evB line : rt M = fl p -> rs M = fl 53 -> accurate_to e (2 ^ buffer_order o) (len evA) (len evB) M -> (0 <= e)%Q -> 54 <= p -> (forall x, field_ok (repr x)) -> any_search o -> moderate (tried (fl 53) o) ->
  overlapping evA evB -> flag o = 7 -> nondecr (map fst evB) ->
  main_files fuel M p repr o (encode (A1 lg) (map word_of evA)) (encode (A1 lg) (map word_of evB)) lg 0 = Ok line ->
  exists df0, In df0 (tried (fl 53) o) /\ forall D F j W, (0 <= W)%Q -> (0 <= j)%Q -> common_after e M p o evA evB df0 D F j W ->
  exists ws, widths_after M p o evA evB df0 ws /\ let L := search_freq_error o (F_left df0 F) j W ws in let E := (clock df0 * L + (1 # 2 ^ 49) * (1 + Qabs (F_left df0 F) + L))%Q in
  ((Qabs F + E <= (1 # 2 ^ 13) - (1 # 2 ^ 25))%Q ->
   forall junk ib ob fb prog args ss fs stdin, alloc_ok ib ob fb -> corrects_with args ss line -> legacy_of ss = lg ->
     input_of fs stdin ss = Some (encode (A1 lg) (map word_of evB)) ->
     exists en times, freqcd_main true junk ib ob fb (prog :: args) fs stdin = Some (Ok en) /\ code en = 0 /\
       retimed_file fs (files en) (stdout en) ss (encode (A1 lg) (map word_of evB)) times /\
       forall i k ev0 evi evk t' u' d a b, nth_error evB 0 = Some ev0 -> nth_error evB i = Some evi -> nth_error evB k = Some evk -> nth_error times i = Some t' -> nth_error times k = Some u' ->
         (Qabs (inject_Z (fst evi) - (d + (1 + F) * a)) <= 256 * j)%Q -> (Qabs (inject_Z (fst evk) - (d + (1 + F) * b)) <= 256 * j)%Q ->
         as_apart ((5 # 4) * E + (1 # 2 ^ 35) + (1 # 2 ^ 50)) (256 * j) (fst ev0) (Z.of_nat i / 1024 + 1) (Z.of_nat k / 1024 + 1) (fst evi) (fst evk) t' u' a b).
Proof.
  intros RT RS AC E0 PP RP PS MO OV FL ND H. destruct (whole_any e fuel M p repr o lg evA evB line RT RS AC E0 PP PS MO OV H) as (df0 & dt & df & I & LN & B).
  exists df0. split; [exact I|]. intros D F j W W0 J0 CE. destruct (B D F j W W0 J0 CE) as (ws & WO & BF & _). exists ws. split; [exact WO|]. cbv zeta in BF. cbv zeta. intros SM.
  rewrite FL in LN. destruct OV as (_ & OB & _). exact (line_run repr dt df F _ j lg evB line RP LN BF SM OB ND).
Qed.
