(** Proofs about fpplot. *)
From Coq Require Import QArith Qabs Lqa List Lia.
From Verif Require Import Float Base TimestampsModel TimestampsSpec EpochsModel EpochsSpec EpochsStatements EpochsProofs3 EpochsProofs5 EpochsProofs6 UtilsModel UtilsSpec UtilsProofs UtilsProofs2 FpfindModel FpfindSpec
  MainModel MainProofs MainSpec2 MainProofs4 EpochRunSpec EpochRunProofs PlotModel PlotSpec.
Import ListNotations. Local Open Scope Z_scope.

(** files read and normalised *)
Lemma files_since p lg skip k evA evB : 54 <= p -> Forall event_ok evA -> Forall event_ok evB -> evA <> [] -> evB <> [] ->
  (fl 53 (skip * 1000000000) == inject_Z k / 256)%Q -> let S := common_start evA evB + k in 0 <= S < 2 ^ 54 ->
  exists a pa b pb al bo, read_a1 p (encode (A1 lg) (map word_of evA)) lg NS1 true = Ok (a, pa) /\
    read_a1 p (encode (A1 lg) (map word_of evB)) lg NS1 true = Ok (b, pb) /\
    normalize_timestamps (fl p) (fl 53) [tvalues a; tvalues b] skip true = Ok [al; bo] /\
    same_values al (since S evA) /\ same_values bo (since S evB).
Proof.
  intros PP OA OB NA NB K S SB.
  destruct (read_times_values p lg evA PP OA) as (a & pa & EA & VA). destruct (read_times_values p lg evB PP OB) as (b & pb & EB & VB).
  assert (NE : forall (x : list Q) (evs : list event), evs <> [] -> same_values x (map (fun e => inject_Z (fst e) / 256)%Q evs) -> x <> []).
  { intros x evs NV V ->. inv V. destruct evs; [congruence|discriminate]. }
  assert (DEV : Forall (Forall (device_time 54)) [tvalues a; tvalues b]).
  { constructor; [exact (device_same 54 _ _ VA (event_device _ OA))|]. constructor; [exact (device_same 54 _ _ VB (event_device _ OB))|constructor]. }
  assert (ST : forall m, largest m (map (fun ts => hd 0%Q ts) [tvalues a; tvalues b]) -> (m + inject_Z k / 256 == inject_Z S / 256)%Q).
  { intros m LM. rewrite (start_value evA evB _ _ NA NB VA VB m LM). unfold S. rewrite inject_Z_plus. field. }
  destruct (c45_exact 54 p [tvalues a; tvalues b] skip (inject_Z k / 256)) as (m & R & L & E & V); try assumption; try lia; try discriminate.
  { constructor; [exact (NE _ _ NA VA)|]. constructor; [exact (NE _ _ NB VB)|constructor]. }
  { intros m LM. exists S. split; [exact (ST m LM)|exact SB]. }
  inv V. match goal with X : Forall2 same_values _ _ |- _ => inv X end. match goal with X : Forall2 same_values _ [] |- _ => inv X end.
  match goal with X : same_values ?x (map _ (from _ (tvalues a))), Y : same_values ?y (map _ (from _ (tvalues b))) |- _ => rename x into al; rename y into bo; rename X into SA; rename Y into SB' end.
  exists a, pa, b, pb, al, bo. repeat (split; [assumption|]).
  split; [exact (same_trans _ _ _ SA (since_same _ _ _ _ VA (ST m L)))|exact (same_trans _ _ _ SB' (since_same _ _ _ _ VB (ST m L)))].
Qed.
(** slicing device times from 0 *)
Lemma slice_within p d ts evs : 54 <= p -> same_values ts evs -> Forall (device_time 54) evs -> evs <> [] ->
  exists r, slice_timestamps (fl p) ts (Some 0%Q) (Some d) = Ok r /\ same_values r (within (Some d) evs).
Proof.
  intros P SV DV NE. unfold slice_timestamps. cbn [bind].
  assert (X : same_values (map (fun t => fl p (t - 0)) ts) evs).
  { clear NE. induction SV as [|x y ts evs E SV IH]; [constructor|]. inv DV. cbn [map]. constructor; [|now apply IH].
    rewrite (fl_eq p (x - 0) y) by (rewrite E; ring). apply (device_exact 54); [lia|exact P|assumption]. }
  assert (G : same_values (filter (fun t => Qle_bool 0 t) (map (fun t => fl p (t - 0)) ts)) evs).
  { revert X. generalize (map (fun t => fl p (t - 0)) ts). intros l X. clear -X DV. induction X as [|x y l evs E X IH]; [constructor|].
    inv DV. cbn [filter]. destruct (Qle_bool 0 x) eqn:Q; [constructor; [exact E|now apply IH]|].
    exfalso. assert (Qle_bool 0 x = true); [|congruence]. apply Qle_bool_iff. rewrite E. destruct H1 as (k & K & B). rewrite K.
    apply Qle_shift_div_l; [reflexivity|]. rewrite Qmult_0_l. change 0%Q with (inject_Z 0). rewrite <- Zle_Qle. lia. }
  revert G. generalize (filter (fun t => Qle_bool 0 t) (map (fun t => fl p (t - 0)) ts)). intros l G.
  destruct (getitem l (-1)) as [v|e] eqn:GI.
  - cbn [bind]. eexists. split; [reflexivity|]. cbn [within]. clear -G. induction G as [|x y l evs E G IH]; [constructor|]. cbn [filter].
    unfold Qltb. rewrite (Qle_bool_cong d x d y) by (rewrite E; tauto). destruct (Qle_bool d y); cbn [negb]; [exact IH|constructor; [exact E|exact IH]].
  - exfalso. destruct G as [|x y l evs E G]; [congruence|]. destruct (getitem_last (x :: l)) as [(v & H & _)|[_ H]]; congruence.
Qed.
Lemma mult_bound x y X Y : (Qabs x <= X)%Q -> (Qabs y <= Y)%Q -> (Qabs (x * y) <= X * Y)%Q.
Proof.
  intros A B. rewrite Qabs_Qmult. pose proof (Qabs_nonneg x) as NX. pose proof (Qabs_nonneg y) as NY.
  apply Qle_trans with (X * Qabs y)%Q; [now apply Qmult_le_compat_r|]. rewrite !(Qmult_comm X). apply Qmult_le_compat_r; [exact B|]. lra.
Qed.
Lemma fl_close p x b : 54 <= p -> (Qabs x <= b)%Q -> (Qabs (fl p x - x) <= (1 # 18014398509481984) * b)%Q.
Proof.
  intros Q1 H. pose proof (fl_err p x) as E. pose proof (Qabs_nonneg x) as N.
  assert (P : (pow2 (- p) <= 1 # 18014398509481984)%Q) by (change (1 # 18014398509481984)%Q with (pow2 (-54)); apply pow2_le; lia).
  assert (A : (pow2 (- p) * Qabs x <= (1 # 18014398509481984) * Qabs x)%Q) by (apply Qmult_le_compat_r; assumption). lra.
Qed.
Lemma fl_close53 x b : (Qabs x <= b)%Q -> (Qabs (fl 53 x - x) <= (1 # 9007199254740992) * b)%Q.
Proof.
  intros H. pose proof (fl_err 53 x) as E. assert (P : (pow2 (- (53)) == 1 # 9007199254740992)%Q) by (vm_compute; reflexivity). rewrite P in E. lra.
Qed.
Lemma inv_bound h : ((998 # 1000) <= h)%Q -> (Qabs (/ h) <= 1003 # 1000)%Q.
Proof.
  intros H. rewrite Qabs_pos by (apply Qinv_le_0_compat; lra).
  apply Qmult_le_r with h; [lra|]. rewrite (Qmult_comm (/ h)), Qmult_inv_r by lra. lra.
Qed.
Lemma rate_near freq : (Qabs freq <= 1000)%Q ->
  (Qabs (fl 53 (1 + fl 53 (freq * fl 53 (1 # 1000000))) - (1 + freq / 1000000)) <= (1 # 9007199254740992) * (1007 # 1000))%Q.
Proof.
  intros F. set (c := fl 53 (1 # 1000000)).
  assert (C : (Qabs (c - (1 # 1000000)) <= (1 # 9007199254740992) * (1 # 1000000))%Q) by (apply fl_close53; discriminate).
  assert (FC : (Qabs (freq * c - freq / 1000000) <= (1 # 9007199254740992) * (1 # 1000))%Q).
  { setoid_replace (freq * c - freq / 1000000)%Q with (freq * (c - (1 # 1000000)))%Q by field.
    eapply Qle_trans; [apply mult_bound; [exact F|exact C]|]. lra. }
  assert (FB : (Qabs (freq / 1000000) <= 1 # 1000)%Q).
  { unfold Qdiv. eapply Qle_trans; [apply (mult_bound _ _ 1000 (1 # 1000000)); [exact F|discriminate]|]. discriminate. }
  apply Qabs_Qle_condition in FC, FB.
  set (x := fl 53 (freq * c)). assert (X : (Qabs (x - freq * c) <= (1 # 9007199254740992) * (2 # 1000))%Q) by (apply fl_close53; apply Qabs_Qle_condition; lra).
  apply Qabs_Qle_condition in X.
  assert (H : (Qabs (fl 53 (1 + x) - (1 + x)) <= (1 # 9007199254740992) * (1002 # 1000))%Q) by (apply fl_close53; apply Qabs_Qle_condition; lra).
  apply Qabs_Qle_condition in H. apply Qabs_Qle_condition. lra.
Qed.
Lemma plotted_near p freq time t t' : 54 <= p -> (Qabs freq <= 1000)%Q -> (t == t')%Q ->
  compensated (1 # 2 ^ 51) freq time t' (fl p (fl p (t - time) / fl 53 (1 + fl 53 (freq * fl 53 (1 # 1000000))))).
Proof.
  intros P F T. unfold compensated. change (1 # 2 ^ 51)%Q with (1 # 2251799813685248)%Q.
  pose proof (rate_near freq F) as HG. set (h := fl 53 (1 + fl 53 (freq * fl 53 (1 # 1000000)))) in *. set (G := (1 + freq / 1000000)%Q) in *.
  assert (FB : (Qabs (freq / 1000000) <= 1 # 1000)%Q).
  { unfold Qdiv. eapply Qle_trans; [apply (mult_bound _ _ 1000 (1 # 1000000)); [exact F|discriminate]|]. discriminate. }
  apply Qabs_Qle_condition in FB. assert (GB : ((999 # 1000) <= G)%Q) by (unfold G; lra). clearbody G. clear FB.
  pose proof HG as HG'. apply Qabs_Qle_condition in HG'. assert (HB : ((998 # 1000) <= h)%Q) by lra. clearbody h.
  set (w := (t' - time)%Q). set (u := fl p (t - time)). pose proof (Qabs_nonneg w) as A0. set (a := Qabs w) in *.
  assert (U : (Qabs (u - w) <= (1 # 18014398509481984) * a)%Q).
  { unfold u. rewrite (fl_eq p (t - time) w) by (unfold w; now rewrite T). apply fl_close; [exact P|apply Qle_refl]. }
  clearbody u.
  assert (D : (Qabs (u / h - w / G) <= (1 # 18014398509481984) * a * (1003 # 1000) + a * ((1 # 9007199254740992) * (1007 # 1000) * ((1003 # 1000) * (1003 # 1000))))%Q).
  { setoid_replace (u / h - w / G)%Q with ((u - w) * / h + w * ((G - h) * (/ h * / G)))%Q by (field; split; lra).
    eapply Qle_trans; [apply Qabs_triangle|]. apply Qplus_le_compat.
    - apply mult_bound; [exact U|now apply inv_bound].
    - apply mult_bound; [apply Qle_refl|]. apply mult_bound; [|apply mult_bound; apply inv_bound; lra].
      setoid_replace (G - h)%Q with (- (h - G))%Q by ring. now rewrite Qabs_opp. }
  assert (WG : (Qabs (w / G) <= a * (1003 # 1000))%Q) by (unfold Qdiv; apply mult_bound; [apply Qle_refl|apply inv_bound; lra]).
  assert (Q : (Qabs (u / h) <= a * (1004 # 1000))%Q).
  { setoid_replace (u / h)%Q with ((u / h - w / G) + w / G)%Q by ring. eapply Qle_trans; [apply Qabs_triangle|]. lra. }
  pose proof (fl_close p _ _ P Q) as Y. set (y := fl p (u / h)) in *.
  setoid_replace (y - w / G)%Q with ((y - u / h) + (u / h - w / G))%Q by ring. eapply Qle_trans; [apply Qabs_triangle|]. lra.
Qed.
Lemma plotted_all p freq time ts ts' : 54 <= p -> (Qabs freq <= 1000)%Q -> same_values ts ts' ->
  Forall2 (compensated (1 # 2 ^ 51) freq time) ts' (map (fun t => fl p (fl p (t - time) / fl 53 (1 + fl 53 (freq * fl 53 (1 # 1000000))))) ts).
Proof. intros P F. induction 1 as [|x y ts ts' E S IH]; cbn [map]; constructor; [now apply plotted_near|exact IH]. Qed.
Lemma c91 M p lg skip k duration freq time evA evB : 54 <= p -> rt M = fl p -> rs M = fl 53 ->
  Forall event_ok evA -> Forall event_ok evB -> evA <> [] -> evB <> [] -> (Qabs freq <= 1000)%Q ->
  (fl 53 (skip * 1000000000) == inject_Z k / 256)%Q -> let S := common_start evA evB + k in 0 <= k -> 0 <= S < 2 ^ 54 ->
  (duration = None \/ since S evA <> [] /\ since S evB <> []) ->
  let d := option_map (fun x => fl 53 (x * 1000000000)) duration in
  exists al bo, plot_files M p (encode (A1 lg) (map word_of evA)) (encode (A1 lg) (map word_of evB)) lg skip duration freq time = Ok (al, bo) /\
    same_values al (within d (since S evA)) /\ Forall2 (compensated (1 # 2 ^ 51) freq time) (within d (since S evB)) bo.
Proof.
  intros P RT RS OA OB NA NB F K S K0 SB DU d.
  destruct (files_since p lg skip k evA evB P OA OB NA NB K SB) as (a & pa & b & pb & al & bo & EA & EB & E & VA & VB). fold S in VA, VB.
  unfold plot_files. rewrite EA, EB. cbn [bind]. unfold plot_times. rewrite RT, RS, E. cbn [bind].
  destruct duration as [x|]; cbn [option_map] in d; unfold d.
  - destruct DU as [DU|[DA DB]]; [discriminate|]. cbn [mapM].
    destruct (slice_within p (fl 53 (x * 1000000000)) al (since S evA) P VA) as (ra & -> & RA); [apply since_device; [lia|exact OA]|exact DA|].
    destruct (slice_within p (fl 53 (x * 1000000000)) bo (since S evB) P VB) as (rb & -> & RB); [apply since_device; [lia|exact OB]|exact DB|].
    cbn [bind nth]. eexists. eexists. split; [reflexivity|]. split; [exact RA|]. now apply plotted_all.
  - cbn [bind nth within]. eexists. eexists. split; [reflexivity|]. split; [exact VA|]. now apply plotted_all.
Qed.
(** ** epoch directories *)
Lemma plot_values M a b a' b' skip duration freq time : respects (rt M) -> same_values a a' -> same_values b b' ->
  plot_times M a b skip duration freq time = plot_times M a' b' skip duration freq time.
Proof.
  intros R A B. unfold plot_times. now rewrite (normalize_values M a b a' b' skip R A B).
Qed.
Lemma c91_epochs fuel M p lg d1 d2 first m skip xsA evsB duration freq time : 54 <= p -> respects (rt M) -> epoch_names d1 -> epoch_names d2 ->
  first_common d1 d2 first m -> 0 <= m -> 0 <= m + skip -> len evsB = len xsA ->
  t2_dir d1 (m + skip) xsA -> t1_dir d2 (m + skip) evsB -> Forall (fun xs => (length xs < fuel)%nat) xsA ->
  let evA := t2_events (m + skip) xsA in let evB := t1_events (m + skip) evsB in
  Forall event_ok evA -> Forall event_ok evB ->
  plot_epochs fuel M d1 d2 first (len xsA) skip duration freq time =
  plot_files M p (encode (A1 lg) (map word_of evA)) (encode (A1 lg) (map word_of evB)) lg 0 duration freq time.
Proof.
  intros P R N1 N2 FC M0 MS LB DA DB FU evA evB OA OB.
  destruct (first_found d1 d2 first m N1 N2 FC) as (av & G).
  unfold plot_epochs, plot_files. rewrite G. cbn [bind].
  pose proof (c41_roundtrip m M0) as RT.
  rewrite !(get_timestamp_eq _ _ _ _ m) by (exact RT || apply len_nonneg).
  destruct (t2_read fuel d1 xsA (m + skip) MS DA FU) as (a & EA & VA). destruct (t1_read fuel d2 evsB (m + skip) DB) as (b & EB & VB).
  replace (Z.to_nat (len xsA)) with (length xsA) by (unfold len; lia). rewrite EA. cbn [bind].
  replace (length xsA) with (length evsB) by (unfold len in LB; lia). rewrite EB. cbn [bind].
  destruct (read_times_values p lg evA P OA) as (a' & pa & EA' & VA'). destruct (read_times_values p lg evB P OB) as (b' & pb & EB' & VB').
  rewrite EA', EB'. cbn [bind]. apply plot_values; [exact R| |]; (eapply same_trans; [eassumption|apply same_sym; assumption]).
Qed.
Lemma c91_zero eps freq time F D t t' y : (Qabs freq <= 1000)%Q -> compensated eps freq time t' y -> (t' == t * (1 + F) + D)%Q ->
  (Qabs (y - t) <= eps * Qabs (t' - time) + (1003 # 1000) * (Qabs (D - time) + Qabs t * Qabs (F - freq / 1000000)))%Q.
Proof.
  intros FB C E. unfold compensated in C. set (G := (1 + freq / 1000000)%Q) in *.
  assert (GB : ((998 # 1000) <= G)%Q).
  { assert (X : (Qabs (freq / 1000000) <= 1 # 1000)%Q).
    { unfold Qdiv. eapply Qle_trans; [apply (mult_bound _ _ 1000 (1 # 1000000)); [exact FB|discriminate]|]. discriminate. }
    apply Qabs_Qle_condition in X. unfold G. lra. }
  assert (Z : ((t' - time) / G - t == / G * ((D - time) + t * (F - freq / 1000000)))%Q).
  { rewrite E. setoid_replace (F - freq / 1000000)%Q with (F + 1 - G)%Q by (unfold G; ring). field. lra. }
  setoid_replace (y - t)%Q with ((y - (t' - time) / G) + ((t' - time) / G - t))%Q by ring.
  eapply Qle_trans; [apply Qabs_triangle|]. apply Qplus_le_compat; [exact C|]. rewrite Z. apply mult_bound; [now apply inv_bound|].
  eapply Qle_trans; [apply Qabs_triangle|]. rewrite Qabs_Qmult. apply Qle_refl.
Qed.
