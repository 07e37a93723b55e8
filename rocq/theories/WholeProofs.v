(** Whole runs of fpfind and freqcd on files. *)
From Coq Require Import QArith Qabs Lqa Permutation Lia.
From Verif Require Import Float Base FreqcdModel FreqcdSpec FreqcdCliSpec FreqcdCliProofs TimestampsModel TimestampsSpec EpochsModel UtilsModel UtilsSpec UtilsProofs UtilsProofs2 FpfindModel FpfindSpec FpfindProofs FpfindProofs2 FpfindProofs3 FpfindPipe
  MainModel MainProofs MainProofs2 MainProofs3 MainSpec2 MainProofs4 PipeSpec PipeProofs AccuracySpec AccuracyProofs PairSpec PairProofs SignalSpec RoundedSpec RoundedProofs CdFileSpec CdFileProofs CdRunModel CdRunSpec CdRunProofs CdRunProofs2 CdRunProofs3 WholeSpec.
Local Open Scope Z_scope.

Lemma fl53_err x : (Qabs (fl 53 x - x) <= U53 * Qabs x)%Q.
Proof. exact (fl_err 53 x). Qed.
(** one precompensation of 0, any result *)
Lemma scan_plain M p P fuel ats bts res dt' df' : rt M = fl p -> rs M = fl 53 -> 54 <= p -> Forall (device_time 54) bts ->
  fpfind fuel M P ats bts res [0%Q] false = Ok (dt', df') ->
  exists dt df, time_freq fuel M P ats bts res = Ok (dt, df) /\ (Qabs (dt' - dt) <= U53 * Qabs dt)%Q /\ (Qabs (df' - df) <= (1 # 2 ^ 51) * (1 + Qabs df))%Q.
Proof.
  intros RT RS PP DV H. unfold fpfind in H. cbn [scan] in H. rewrite RS in H.
  assert (ONE : fl 53 (1 + 0) = 1%Q) by (vm_compute; reflexivity). rewrite ONE in H.
  set (b' := map _ bts) in H. assert (SB : same_values b' bts).
  { unfold b'. rewrite RT. clear -DV PP. induction DV as [|t bts D DV IH]; cbn [map]; constructor; [|exact IH].
    assert (X : (fl p (t - 0) == t)%Q) by (rewrite (fl_eq p (t - 0) t) by ring; apply (device_exact 54); [lia|exact PP|exact D]).
    rewrite (fl_eq p (fl p (t - 0) / 1) t); [apply (device_exact 54); [lia|exact PP|exact D]|]. rewrite X. field. }
  rewrite (time_freq_same fuel M P ats ats b' bts res) in H; [|intros x y; rewrite RT; apply fl_eq|apply same_refl|exact SB].
  destruct (time_freq fuel M P ats bts res) as [[dt df]|[]]; try discriminate. exists dt, df. split; [reflexivity|].
  assert (E1 : fl 53 (0 + fl 53 (1 * dt)) = dt') by congruence. assert (E2 : fl 53 (fl 53 (1 * fl 53 (1 + df)) - 1) = df') by congruence. clear H. split.
  - rewrite <- E1. rewrite (fl_eq 53 (0 + fl 53 (1 * dt)) (fl 53 dt)) by (rewrite (fl_eq 53 (1 * dt) dt) by ring; ring).
    assert (I : (fl 53 (fl 53 dt) == fl 53 dt)%Q) by (apply fl_idem; lia). rewrite I. apply fl53_err.
  - rewrite <- E2. set (g := fl 53 (1 + df)). pose proof (fl53_err (1 + df)) as G. fold g in G.
    assert (G1 : (fl 53 (1 * g) == g)%Q) by (rewrite (fl_eq 53 (1 * g) g) by ring; unfold g; apply fl_idem; lia).
    rewrite (fl_eq 53 (fl 53 (1 * g) - 1) (g - 1)) by now rewrite G1. pose proof (fl53_err (g - 1)) as H4.
    set (z := fl 53 (g - 1)) in *. clearbody z. clearbody g. unfold U53 in *. change (1 # 2 ^ 53)%Q with (1 # 9007199254740992)%Q in *. change (1 # 2 ^ 51)%Q with (1 # 2251799813685248)%Q.
    pose proof (Qabs_triangle 1 df) as T1. change (Qabs 1) with 1%Q in T1.
    assert (T2 : (Qabs (g - 1) <= Qabs (g - (1 + df)) + Qabs df)%Q).
    { eapply Qle_trans; [|apply Qabs_triangle]. apply Qle_lteq. right. apply Qabs_wd. ring. }
    assert (T3 : (Qabs (z - df) <= Qabs (z - (g - 1)) + Qabs (g - (1 + df)))%Q).
    { eapply Qle_trans; [|apply Qabs_triangle]. apply Qle_lteq. right. apply Qabs_wd. ring. }
    pose proof (Qabs_nonneg df). lra.
Qed.
(** ** From the files to the search *)
Lemma files_equation fuel M p repr o lg evA evB a b : rt M = fl p -> rs M = fl 53 -> 54 <= p -> plain_search o ->
  Forall event_ok evA -> Forall event_ok evB -> evA <> [] -> evB <> [] ->
  getitem (since (common_start evA evB) evA) (-1) = Ok a -> getitem (since (common_start evA evB) evB) (-1) = Ok b ->
  main_files fuel M p repr o (encode (A1 lg) (map word_of evA)) (encode (A1 lg) (map word_of evB)) lg 0 =
    let* (dt, df) := fpfind fuel M (told_search o) (since (common_start evA evB) evA) (since (common_start evA evB) evB) (inject_Z (initial_res o)) [0%Q] false in
    Ok (output (fl 53) repr (flag o) dt df).
Proof.
  unfold plain_search, told_search. set (z := initial_res o). set (q := buffer_order o). set (n := 2 ^ q).
  set (T := acquisition o). set (sep := sep_ns o). cbv zeta. set (W := inject_Z T). set (res := inject_Z z). set (ats := since (common_start evA evB) evA). set (bts := since (common_start evA evB) evB).
  intros RT RS PP (Z0 & FR & Q1 & W0 & T53 & PC & FS & SP) OA OB NA NB GA GB.
  set (P := mkP (o_wraps o) n (inject_Z (final_res o)) (o_threshold o) sep).
  assert (ST : 0 <= common_start evA evB).
  { destruct evA as [|e evA]; [congruence|]. inv OA. match goal with X : event_ok e |- _ => destruct X as [E _] end. unfold common_start. cbn [hd]. lia. }
  destruct (read_times_values p lg evA PP OA) as (ra & pa & EA & VA). destruct (read_times_values p lg evB PP OB) as (rb & pb & EB & VB).
  assert (ZN : (fl 53 (0 * 1000000000) == 0)%Q) by reflexivity.
  assert (NE : forall (x : list Q) (evs : list event), evs <> [] -> same_values x (map (fun e => inject_Z (fst e) / 256)%Q evs) -> x <> []).
  { intros x evs NV V ->. inv V. destruct evs; [congruence|discriminate]. }
  assert (DEV : Forall (Forall (device_time 54)) [tvalues ra; tvalues rb]).
  { constructor; [exact (device_same 54 _ _ VA (event_device _ OA))|]. constructor; [exact (device_same 54 _ _ VB (event_device _ OB))|constructor]. }
  destruct (c45_exact 54 p [tvalues ra; tvalues rb] 0 0) as (m & R & L & E & V); try assumption; try lia; try discriminate.
  { constructor; [exact (NE _ _ NA VA)|]. constructor; [exact (NE _ _ NB VB)|constructor]. }
  { intros m LM. pose proof (start_value evA evB _ _ NA NB VA VB m LM) as EM. exists (common_start evA evB). split; [rewrite EM; field|].
    destruct evA as [|x evA]; [congruence|]. destruct evB as [|y evB]; [congruence|]. inv OA. inv OB.
    match goal with X : event_ok x, Y : event_ok y |- _ => destruct X as [X _]; destruct Y as [Y _] end. unfold common_start. cbn [hd]. lia. }
  pose proof (start_value evA evB _ _ NA NB VA VB m L) as EM.
  inv V. match goal with X : Forall2 same_values _ _ |- _ => inv X end. match goal with X : Forall2 same_values _ [] |- _ => inv X end.
  match goal with X : same_values ?x (map _ (from _ (tvalues ra))), Y : same_values ?y (map _ (from _ (tvalues rb))) |- _ => rename x into al; rename y into bo; rename X into SA; rename Y into SB end.
  assert (EM0 : (m + 0 == inject_Z (common_start evA evB) / 256)%Q) by (rewrite EM; field).
  pose proof (same_trans _ _ _ SA (since_same _ _ _ _ VA EM0)) as SA'. pose proof (same_trans _ _ _ SB (since_same _ _ _ _ VB EM0)) as SB'. fold ats in SA'. fold bts in SB'.
  unfold main_files, bins. fold q. destruct (Z.ltb_spec q 0) as [QN|_]; [lia|]. cbn [bind]. rewrite EA, EB. cbn [bind].
  unfold search_and_print. rewrite RT, RS, E. cbn [bind nth].
  assert (G0 : forall l l', same_values l l' -> l' <> [] -> exists v, getitem l 0 = Ok v).
  { intros l l' X Y. destruct X; [congruence|]. eexists. reflexivity. }
  destruct (G0 al ats SA') as [v1 X1]; [intros X; rewrite X in GA; discriminate|].
  destruct (G0 bo bts SB') as [v2 X2]; [intros X; rewrite X in GB; discriminate|]. rewrite X1, X2. cbn [bind]. rewrite PC, FS.
  rewrite Z.shiftl_1_l. fold n z. change (Ta o n) with T. fold W res.
  assert (ES : fl 53 (separation o * fl 53 W) = sep).
  { unfold sep, sep_ns. apply fl_eq. fold T. unfold W. assert (0 < n) by (unfold n; apply Z.pow_pos_nonneg; lia). assert (0 <= T) by (change T with (z * n * o_wraps o); clearbody n; apply Z.mul_nonneg_nonneg; nia). rewrite fl_int by lia. reflexivity. }
  rewrite ES. fold P. rewrite (fpfind_same fuel M P al ats bo bts res [0%Q] false); [|intros x y; rewrite RT; apply fl_eq|exact SA'|exact SB'].
  reflexivity.
Qed.
Lemma files_search fuel M p repr o lg evA evB line a b : rt M = fl p -> rs M = fl 53 -> 54 <= p -> plain_search o ->
  Forall event_ok evA -> Forall event_ok evB -> evA <> [] -> evB <> [] ->
  getitem (since (common_start evA evB) evA) (-1) = Ok a -> getitem (since (common_start evA evB) evB) (-1) = Ok b ->
  main_files fuel M p repr o (encode (A1 lg) (map word_of evA)) (encode (A1 lg) (map word_of evB)) lg 0 = Ok line ->
  exists dt df, line = output (fl 53) repr (flag o) dt df /\
    fpfind fuel M (told_search o) (since (common_start evA evB) evA) (since (common_start evA evB) evB) (inject_Z (initial_res o)) [0%Q] false = Ok (dt, df).
Proof.
  intros RT RS PP PS OA OB NA NB GA GB H. rewrite (files_equation fuel M p repr o lg evA evB a b RT RS PP PS OA OB NA NB GA GB) in H. apply bind_ok in H as ((dt, df) & FP & H).
  exists dt, df. split; [congruence|exact FP].
Qed.
Lemma res_float o : plain_search o -> (fl 53 (inject_Z (initial_res o)) == inject_Z (initial_res o))%Q.
Proof.
  intros (Z0 & FR & Q1 & W0 & T53 & _). apply fl_int; [lia|]. unfold acquisition in T53. assert (1 <= 2 ^ buffer_order o) by (pose proof (Z.pow_pos_nonneg 2 (buffer_order o)); lia). nia.
Qed.
Lemma accurate_since e o S evA evB M : accurate_to e (2 ^ buffer_order o) (len evA) (len evB) M -> accurate_to e (num_bins (told_search o)) (len (since S evA)) (len (since S evB)) M.
Proof. apply accurate_to_less; apply since_length. Qed.
Lemma whole_search e fuel M p repr o lg evA evB D F j W line : rt M = fl p -> rs M = fl 53 -> accurate_to e (2 ^ buffer_order o) (len evA) (len evB) M -> (0 <= e)%Q -> 54 <= p -> plain_search o ->
  (0 <= W)%Q -> (0 <= j)%Q -> common_events e M o evA evB D F j W ->
  main_files fuel M p repr o (encode (A1 lg) (map word_of evA)) (encode (A1 lg) (map word_of evB)) lg 0 = Ok line ->
  exists ws dt df, widths_of M o evA evB ws /\ line = output (fl 53) repr (flag o) dt df /\
    (Qabs (df - F) <= search_freq_error o F j W ws + (1 # 2 ^ 50) * (1 + Qabs F + search_freq_error o F j W ws))%Q /\
    (Qabs (dt - D) <= search_time_error o D F j W ws + (1 # 2 ^ 50) * (Qabs dt + 100000000))%Q.
Proof.
  intros RT RS AC E0 PP PS W0 J0 (OA & OB & NA & NB & a & b & GA & GB & CL) H. cbv zeta in CL.
  destruct (files_search fuel M p repr o lg evA evB line a b RT RS PP PS OA OB NA NB GA GB H) as (dt & df & LN & FP).
  assert (ST : 0 <= common_start evA evB).
  { destruct evA as [|ev evA]; [congruence|]. inv OA. match goal with X : event_ok ev |- _ => destruct X as [E _] end. unfold common_start. cbn [hd]. lia. }
  destruct (scan_plain M p _ fuel _ _ _ dt df RT RS PP (since_device _ _ ST OB) FP) as (x & y & TF & ED & EF).
  assert (RS' : forall v, rs M v = fl 53 v) by (intros v; now rewrite RS). pose proof (res_float o PS) as RF.
  pose proof PS as (Z0 & FR & Q1 & WR & T53 & PC & FS & SP).
  destruct (c99 U53 e fuel M (told_search o) (since (common_start evA evB) evA) (since (common_start evA evB) evB) (inject_Z (initial_res o)) D F W j x y a b) as (ws & EN & B1 & B2); try assumption.
  { exact (rounds_float M RS'). } { exact (float_by_value 53 M RS'). } { discriminate. } { discriminate. } { now apply accurate_since. }
  { cbn [told_search target_resolution]. change 0%Q with (inject_Z 0). rewrite <- Zlt_Qlt. lia. } { change 0%Q with (inject_Z 0). rewrite <- Zlt_Qlt. lia. }
  { exact (float_representable 53 M _ RS' RF). }
  exists ws, dt, df. split; [exists a, b; repeat split; assumption|]. split; [exact LN|].
  cbn [told_search num_bins separation_duration] in B1, B2. fold (search_freq_error o F j W ws) in B1. fold (search_time_error o D F j W ws) in B2.
  set (SF := search_freq_error o F j W ws) in *. set (SE := search_time_error o D F j W ws) in *. clearbody SF SE.
  unfold U53 in *. change (1 # 2 ^ 53)%Q with (1 # 9007199254740992)%Q in *. change (1 # 2 ^ 51)%Q with (1 # 2251799813685248)%Q in *. change (1 # 2 ^ 50)%Q with (1 # 1125899906842624)%Q.
  pose proof (Qabs_nonneg F) as F0. pose proof (Qabs_nonneg x) as X0. pose proof (Qabs_nonneg dt) as D0. pose proof (Qabs_nonneg (y - F)) as Y0.
  assert (T1 : (Qabs y <= Qabs (y - F) + Qabs F)%Q) by (eapply Qle_trans; [|apply Qabs_triangle]; apply Qle_lteq; right; apply Qabs_wd; ring).
  assert (T2 : (Qabs (df - F) <= Qabs (df - y) + Qabs (y - F))%Q) by (eapply Qle_trans; [|apply Qabs_triangle]; apply Qle_lteq; right; apply Qabs_wd; ring).
  assert (T3 : (Qabs (dt - D) <= Qabs (dt - x) + Qabs (x - D))%Q) by (eapply Qle_trans; [|apply Qabs_triangle]; apply Qle_lteq; right; apply Qabs_wd; ring).
  assert (T4 : (Qabs x <= Qabs dt + Qabs (dt - x))%Q).
  { rewrite <- (Qabs_opp (dt - x)). eapply Qle_trans; [|apply Qabs_triangle]. apply Qle_lteq; right; apply Qabs_wd; ring. }
  split; lra.
Qed.
Lemma c105 e fuel M p repr o lg evA evB D F j W line : rt M = fl p -> rs M = fl 53 -> accurate_to e (2 ^ buffer_order o) (len evA) (len evB) M -> (0 <= e)%Q -> 54 <= p -> (forall x, field_ok (repr x)) -> plain_search o ->
  (0 <= W)%Q -> (0 <= j)%Q -> common_events e M o evA evB D F j W ->
  main_files fuel M p repr o (encode (A1 lg) (map word_of evA)) (encode (A1 lg) (map word_of evB)) lg 0 = Ok line ->
  exists ws dt df, widths_of M o evA evB ws /\ shows_offsets repr (flag o) dt df line /\
    (Qabs (df - F) <= search_freq_error o F j W ws + (1 # 2 ^ 50) * (1 + Qabs F + search_freq_error o F j W ws))%Q /\
    (Qabs (dt - D) <= search_time_error o D F j W ws + (1 # 2 ^ 50) * (Qabs dt + 100000000))%Q.
Proof.
  intros RT RS AC E0 PP RP PS W0 J0 CE H. destruct (whole_search e fuel M p repr o lg evA evB D F j W line RT RS AC E0 PP PS W0 J0 CE H) as (ws & dt & df & WO & -> & B).
  exists ws, dt, df. split; [exact WO|]. split; [exact (c62 (fl 53) repr (flag o) dt df RP)|exact B].
Qed.
