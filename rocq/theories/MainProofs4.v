(** fpfind on two timestamp files of the same events. *)
From Coq Require Import QArith Qabs Lqa Permutation Lia.
From Verif Require Import Float Base TimestampsModel TimestampsSpec EpochsModel UtilsModel UtilsSpec UtilsProofs UtilsProofs2 FpfindModel FpfindSpec FpfindProofs FpfindProofs2 FpfindProofs3
  MainModel MainProofs MainProofs2 MainProofs3 MainSpec2.
Local Open Scope Z_scope.

Lemma since_length S evs : len (since S evs) <= len evs.
Proof. unfold since, len. rewrite map_length. apply inj_le. induction evs as [|e evs IH]; [apply le_n|]. cbn [filter length]. destruct (S <=? fst e); cbn [length]; lia. Qed.
Lemma histogram_less n a a' h : a <= a' -> histogram_of n a h -> histogram_of n a' h.
Proof. intros L (H1 & H2 & H3). split; [exact H1|]. split; [exact H2|]. lia. Qed.
Lemma accurate_less n a b a' b' M : a <= a' -> b <= b' -> accurate n a' b' M -> accurate n a b M.
Proof. intros A B AC h k H K. apply AC; [now apply (histogram_less n a)|now apply (histogram_less n b)]. Qed.
Lemma same_refl l : same_values l l.
Proof. induction l; constructor; [reflexivity|assumption]. Qed.
Lemma since_same S m x evs : same_values x (map (fun e => inject_Z (fst e) / 256)%Q evs) -> (m == inject_Z S / 256)%Q ->
  same_values (map (fun t => t - m)%Q (from m x)) (since S evs).
Proof.
  intros H M. unfold since, from. remember (map _ evs) as y eqn:E. revert evs E.
  induction H as [|u v x y UV H IH]; intros [|e evs] E; try discriminate; [constructor|]. cbn [map] in E. injection E as -> ->. cbn [filter].
  assert (B : Qle_bool m u = (S <=? fst e)).
  { destruct (Z.leb_spec S (fst e)) as [L|L].
    - apply Qle_bool_iff. rewrite UV, M. apply Qmult_le_r; [reflexivity|]. rewrite <- Zle_Qle. exact L.
    - destruct (Qle_bool m u) eqn:Q; [|reflexivity]. apply Qle_bool_iff in Q. rewrite UV, M in Q. apply Qmult_le_r in Q; [|reflexivity]. rewrite <- Zle_Qle in Q. lia. }
  rewrite B. destruct (S <=? fst e); [|now apply IH]. cbn [map]. constructor; [|now apply IH].
  rewrite UV, M. unfold Zminus. rewrite inject_Z_plus, inject_Z_opp. field.
Qed.
Lemma since_device S evs : 0 <= S -> Forall event_ok evs -> Forall (device_time 54) (since S evs).
Proof.
  intros H O. unfold since. apply Forall_map. apply Forall_forall. intros e I. apply filter_In in I as [I L]. rewrite Forall_forall in O. destruct (O e I) as [E _].
  exists (fst e - S). split; [reflexivity|]. apply Z.leb_le in L. lia.
Qed.
Lemma device_exact b p t : 1 <= p -> b <= p -> device_time b t -> (fl p t == t)%Q.
Proof.
  intros P B (k & E & K). rewrite (fl_eq p t (inject_Z k * pow2 (-8))%Q) by (rewrite E; change (pow2 (-8)) with (1 # 256); field).
  rewrite fl_scale, fl_int, E; [change (pow2 (-8)) with (1 # 256); field|lia|]. assert (2 ^ b <= 2 ^ p); [|lia].
  destruct (Z_lt_le_dec b 0) as [N|N]; [rewrite (Z.pow_neg_r 2 b) by assumption; apply Z.pow_nonneg; lia|apply Z.pow_le_mono_r; lia].
Qed.
Lemma start_value evA evB a b : evA <> [] -> evB <> [] ->
  same_values a (map (fun e => inject_Z (fst e) / 256)%Q evA) -> same_values b (map (fun e => inject_Z (fst e) / 256)%Q evB) ->
  forall m, largest m (map (fun ts => hd 0%Q ts) [a; b]) -> (m == inject_Z (common_start evA evB) / 256)%Q.
Proof.
  intros NA NB HA HB m [I B]. destruct evA as [|x evA]; [congruence|]. destruct evB as [|y evB]; [congruence|]. inv HA. inv HB. cbn [map hd] in *.
  unfold common_start. cbn [hd].
  match goal with A : (?u == inject_Z (fst x) / 256)%Q, C : (?v == inject_Z (fst y) / 256)%Q |- _ => rename u into a0; rename v into b0; rename A into EA; rename C into EB end.
  pose proof (B a0 (or_introl eq_refl)) as L1. pose proof (B b0 (or_intror (or_introl eq_refl))) as L2.
  assert (D : forall i j, (inject_Z i / 256 <= inject_Z j / 256)%Q -> i <= j).
  { intros i j H. apply Qmult_le_r in H; [|reflexivity]. now rewrite <- Zle_Qle in H. }
  destruct I as [E|[E|[]]]; subst m.
  - rewrite EA. rewrite EA, EB in L2. apply D in L2. rewrite Z.max_l by assumption. reflexivity.
  - rewrite EB. rewrite EA, EB in L1. apply D in L1. rewrite Z.max_r by assumption. reflexivity.
Qed.
(** one precompensation of 0 *)
Lemma scan_zero M p P fuel ats bts res c1 F dt df : rt M = fl p -> rs M = fl 53 -> 54 <= p -> Forall (device_time 54) bts ->
  time_freq fuel M P ats bts res = Ok (dt, df) -> (dt == inject_Z c1)%Q -> Z.abs c1 <= 100000000 ->
  (Qabs df <= 1 # 8192)%Q -> (Qabs (df - F) <= 1 # 2 ^ 52)%Q ->
  exists dt' df', fpfind fuel M P ats bts res [0%Q] false = Ok (dt', df') /\ (dt' == inject_Z c1)%Q /\ (Qabs (df' - F) <= 1 # 2 ^ 51)%Q.
Proof.
  intros RT RS PP DV H ED C1 LDF HF. unfold fpfind. cbn [scan]. rewrite RS.
  assert (ONE : fl 53 (1 + 0) = 1%Q) by (vm_compute; reflexivity). rewrite ONE.
  set (b' := map _ bts). assert (SB : same_values b' bts).
  { unfold b'. rewrite RT. clear -DV PP. induction DV as [|t bts D DV IH]; cbn [map]; constructor; [|exact IH].
    assert (X : (fl p (t - 0) == t)%Q) by (rewrite (fl_eq p (t - 0) t) by ring; apply (device_exact 54); [lia|exact PP|exact D]).
    rewrite (fl_eq p (fl p (t - 0) / 1) t); [apply (device_exact 54); [lia|exact PP|exact D]|]. rewrite X. field. }
  rewrite (time_freq_same fuel M P ats ats b' bts res); [|intros x y; rewrite RT; apply fl_eq|apply same_refl|exact SB]. rewrite H.
  eexists. eexists. split; [reflexivity|].
  assert (FD : forall x, (x == inject_Z c1)%Q -> (fl 53 x == inject_Z c1)%Q).
  { intros x X. rewrite (fl_eq 53 _ _ X). apply fl_int; lia. }
  split; [apply FD; rewrite Qplus_0_l; apply FD; rewrite Qmult_1_l; exact ED|].
  change (1 # 2 ^ 51)%Q with (1 # 2251799813685248)%Q. change (1 # 2 ^ 52)%Q with (1 # 4503599627370496)%Q in HF.
  apply Qabs_Qle_condition in LDF, HF.
  set (g := fl 53 (1 + df)). assert (G : (Qabs (g - (1 + df)) <= (1 # 2 ^ 53) * (1 + (1 # 4096)))%Q) by (apply fl53_near; apply Qabs_Qle_condition; lra).
  change (1 # 2 ^ 53)%Q with (1 # 9007199254740992)%Q in G. apply Qabs_Qle_condition in G.
  assert (G1 : (fl 53 (1 * g) == g)%Q) by (rewrite (fl_eq 53 (1 * g) g) by ring; unfold g; apply fl_idem; lia).
  rewrite (fl_eq 53 (fl 53 (1 * g) - 1) (g - 1)) by now rewrite G1.
  assert (H4 : (Qabs (fl 53 (g - 1) - (g - 1)) <= (1 # 2 ^ 53) * (1 # 4096))%Q) by (apply fl53_near; apply Qabs_Qle_condition; lra).
  change (1 # 2 ^ 53)%Q with (1 # 9007199254740992)%Q in H4. apply Qabs_Qle_condition in H4. apply Qabs_Qle_condition. lra.
Qed.
Lemma one_run fuel M repr p o lg evA evB s1 s2 : rt M = fl p -> rs M = fl 53 -> accurate (2 ^ buffer_order o) (len evA) (len evB) M -> 54 <= p ->
  one_iteration o -> same_events M o evA evB s1 s2 ->
  Z.abs (delay_ns o s1) <= 100000000 -> (Qabs (ratio o s1 s2) <= (1 # 8192) - (1 # 2 ^ 51))%Q ->
  exists dt df, main_files (S fuel) M p repr o (encode (A1 lg) (map word_of evA)) (encode (A1 lg) (map word_of evB)) lg 0 = Ok (output (fl 53) repr (flag o) dt df) /\
    (dt == inject_Z (delay_ns o s1))%Q /\ (Qabs (df - ratio o s1 s2) <= 1 # 2 ^ 51)%Q.
Proof.
  unfold ratio, delay_ns, one_iteration, same_events. set (z := initial_res o). set (q := buffer_order o). set (n := 2 ^ q).
  set (T := acquisition o). set (sep := sep_ns o). cbv zeta. set (W := inject_Z T). set (res := inject_Z z). set (ats := since (common_start evA evB) evA). set (bts := since (common_start evA evB) evB).
  intros RT RS AC PP (Z0 & FR & Q1 & W0 & T53 & PC & FS & DS & SP) (OA & OB & NA & NB & S1 & S2 & (la & lb & GA & GB & WA & WB) & WIN & SG) C1 CF.
  set (c1 := centered n s1 * z) in *. set (c2 := centered n s2 * z) in *. set (P := mkP (o_wraps o) n res (o_threshold o) sep) in *.
  destruct (WIN 0%Q s1 (or_introl (conj eq_refl eq_refl))) as (NW1 & M1 & AP1). destruct (WIN sep s2 (or_intror (conj eq_refl eq_refl))) as (NW2 & M2 & AP2).
  assert (AP : forall s h, s = 0%Q \/ s = sep -> histogram (map (fun t => t - s)%Q (window s W ats)) n res = Ok h -> aperiodic h).
  { intros s h [->| ->]; [apply AP1|apply AP2]. }
  assert (N1 : 1 < n) by (unfold n; apply (Z.pow_lt_mono_r 2 0 q); lia).
  assert (ST : 0 <= common_start evA evB).
  { destruct evA as [|e evA]; [congruence|]. inv OA. destruct H1 as [E _]. unfold common_start. cbn [hd]. lia. }
  assert (DA : Forall (device_time 54) ats) by now apply since_device.
  assert (DB : Forall (device_time 54) bts) by now apply since_device.
  destruct (c81 fuel M P 54 p ats bts z s1 s2 la lb) as (dt & df & H & ED & EF); try assumption; try reflexivity; try lia.
  { apply (accurate_less n _ _ (len evA) (len evB)); [apply since_length|apply since_length|exact AC]. }
  { unfold P. cbn [num_bins]. unfold n. replace q with (1 + (q - 1)) by lia. rewrite Z.pow_add_r by lia. rewrite Z.odd_mul. reflexivity. }
  { unfold P. cbn [num_wraps]. split; [lia|]. apply Z.le_lt_trans with T; [assert (1 <= z * n) by (clearbody n; nia); change T with (z * n * o_wraps o); nia|]. apply Z.lt_le_trans with (2 ^ 53); [lia|]. apply Z.pow_le_mono_r; lia. }
  destruct (scan_zero M p P (S fuel) ats bts res c1 (inject_Z (c2 - c1) / sep)%Q dt df) as (dt' & df' & HF & ED' & EF'); try assumption.
  { change (1 # 2 ^ 51)%Q with (1 # 2251799813685248)%Q in CF. change (Qabs (df - inject_Z (c2 - c1) / sep) <= 1 # 4503599627370496)%Q in EF.
    apply Qabs_Qle_condition in CF, EF. apply Qabs_Qle_condition. lra. }
  destruct (read_times_values p lg evA PP OA) as (a & pa & EA & VA). destruct (read_times_values p lg evB PP OB) as (b & pb & EB & VB).
  assert (ZN : (fl 53 (0 * 1000000000) == 0)%Q) by reflexivity.
  assert (NE : forall (x : list Q) (evs : list event), evs <> [] -> same_values x (map (fun e => inject_Z (fst e) / 256)%Q evs) -> x <> []).
  { intros x evs NV V ->. inv V. destruct evs; [congruence|discriminate]. }
  assert (DEV : Forall (Forall (device_time 54)) [tvalues a; tvalues b]).
  { constructor; [exact (device_same 54 _ _ VA (event_device _ OA))|]. constructor; [exact (device_same 54 _ _ VB (event_device _ OB))|constructor]. }
  destruct (c45_exact 54 p [tvalues a; tvalues b] 0 0) as (m & R & L & E & V); try assumption; try lia; try discriminate.
  { constructor; [exact (NE _ _ NA VA)|]. constructor; [exact (NE _ _ NB VB)|constructor]. }
  { intros m LM. pose proof (start_value evA evB _ _ NA NB VA VB m LM) as EM. exists (common_start evA evB). split; [rewrite EM; field|].
    destruct evA as [|x evA]; [congruence|]. destruct evB as [|y evB]; [congruence|]. inv OA. inv OB.
    match goal with X : event_ok x, Y : event_ok y |- _ => destruct X as [X _]; destruct Y as [Y _] end. unfold common_start. cbn [hd]. lia. }
  pose proof (start_value evA evB _ _ NA NB VA VB m L) as EM.
  inv V. match goal with X : Forall2 same_values _ _ |- _ => inv X end. match goal with X : Forall2 same_values _ [] |- _ => inv X end.
  match goal with X : same_values ?x (map _ (from _ (tvalues a))), Y : same_values ?y (map _ (from _ (tvalues b))) |- _ => rename x into al; rename y into bo; rename X into SA; rename Y into SB end.
  assert (EM0 : (m + 0 == inject_Z (common_start evA evB) / 256)%Q) by (rewrite EM; field).
  pose proof (same_trans _ _ _ SA (since_same _ _ _ _ VA EM0)) as SA'. pose proof (same_trans _ _ _ SB (since_same _ _ _ _ VB EM0)) as SB'. fold ats in SA'. fold bts in SB'.
  exists dt', df'. split; [|split; assumption].
  unfold main_files, bins. fold q. destruct (Z.ltb_spec q 0) as [QN|_]; [lia|]. cbn [bind]. rewrite EA, EB. cbn [bind].
  unfold search_and_print. rewrite RT, RS, E. cbn [bind nth].
  assert (G0 : forall l l', same_values l l' -> l' <> [] -> exists v, getitem l 0 = Ok v).
  { intros l l' X Y. destruct X; [congruence|]. eexists. reflexivity. }
  destruct (G0 al ats SA') as [v1 ->]; [intros X; rewrite X in NW1; now apply NW1|].
  destruct (G0 bo bts SB') as [v2 ->]; [intros X; rewrite X in GB; discriminate|]. cbn [bind]. rewrite PC, FS, FR.
  rewrite Z.shiftl_1_l. fold n z. change (Ta o n) with T. fold W res.
  assert (ES : fl 53 (separation o * fl 53 W) = sep).
  { unfold sep, sep_ns. apply fl_eq. fold T. unfold W. assert (0 <= T) by (change T with (z * n * o_wraps o); clearbody n; apply Z.mul_nonneg_nonneg; nia). rewrite fl_int by lia. reflexivity. }
  rewrite ES. fold P. rewrite (fpfind_same (S fuel) M P al ats bo bts res [0%Q] false); [|intros x y; rewrite RT; apply fl_eq|exact SA'|exact SB'].
  rewrite HF. reflexivity.
Qed.
