(** A search that ends after one iteration finds the offset. *)
From Coq Require Import QArith Qabs Qround Lqa Permutation.
From Verif Require Import Float Base TimestampsModel TimestampsSpec EpochsModel UtilsModel UtilsSpec UtilsProofs UtilsProofs2 FpfindModel FpfindSpec FpfindProofs FpfindProofs3 MainModel MainProofs.
Local Open Scope Z_scope.

(** the events [B] are those of [A], each moved by [s] bins and any number of turns *)
Definition moved (n : Z) (res : Q) (s : Z) (A B : list Q) : Prop :=
  exists k, Forall2 (fun t u => exists q, u == t + inject_Z (q * n + s) * res)%Q A k /\ Permutation k B.
(** the transforms compute the correlation of histograms of [n] bins with at most [a] and [b] events with an error below one half *)
Definition accurate (n a b : Z) (M : fpu) : Prop := forall h k, histogram_of n a h -> histogram_of n b k -> near_correlation h k (xc M h k).

Lemma histogram_same l l' n res : same_values l l' -> histogram l n res = histogram l' n res.
Proof.
  intros S. unfold histogram. destruct S as [|x y l l' E S]; [reflexivity|].
  destruct ((n <=? 0) || Qeq_bool res 0); [reflexivity|]. f_equal.
  assert (B : forall u v, (u == v)%Q -> bin_index n res u = bin_index n res v).
  { intros u v H. unfold bin_index. f_equal. apply Qfloor_comp. now rewrite H. }
  cbn [fold_left]. rewrite (B x y E). generalize (incr (Z.to_nat (bin_index n res y)) (repeat 0 (Z.to_nat n))) as h. clear E x y.
  induction S as [|x y l l' E S IH]; intros h; [reflexivity|]. cbn [fold_left]. rewrite (B x y E). apply IH.
Qed.
Lemma moved_map n res s c A B : moved n res s A B -> moved n res s (map (fun t => t - c)%Q A) (map (fun t => t - c)%Q B).
Proof.
  intros (k & F & P). exists (map (fun t => t - c)%Q k). split; [|now apply Permutation_map].
  clear P. induction F as [|t u A k (q & E) F IH]; cbn [map]; constructor; [exists q; rewrite E; ring|exact IH].
Qed.
Lemma axis_even M n z : rs M = fl 53 -> 0 < z -> 0 < n -> z * n < 2 ^ 53 -> len (axis M n (inject_Z z)) = n /\ even_axis (inject_Z z) (axis M n (inject_Z z)).
Proof.
  intros RS Z0 N B. unfold axis. split; [unfold len; rewrite map_length, seq_length; lia|].
  intros i I. rewrite map_length, seq_length in I.
  rewrite (nth_indep _ 0%Q (rs M (inject_Z (Z.of_nat 0) * inject_Z z)%Q)) by (now rewrite map_length, seq_length).
  rewrite (map_nth (fun i => rs M (inject_Z (Z.of_nat i) * inject_Z z)%Q)), seq_nth by assumption. cbn [Nat.add].
  rewrite RS, <- inject_Z_mult. apply fl_int; [lia|]. nia.
Qed.
Lemma histogram_within l n res h c : l <> [] -> 0 < n -> (0 < res)%Q -> histogram l n res = Ok h -> len l <= c -> histogram_of n c h.
Proof.
  intros L N R H C. destruct (c48 l n res L N R) as (h' & E & LH & _ & _ & S). rewrite E in H. injection H as <-.
  split; [exact LH|]. split; [now apply (histogram_nonneg l n res)|]. lia.
Qed.
Lemma window_length_le s d l : (length (window s d l) <= length l)%nat.
Proof. unfold window. induction l as [|t l IH]; [apply le_n|]. cbn [filter length]. destruct (_ && _); cbn [length]; lia. Qed.
(** correlation and delay of one window *)
Lemma window_delay M P b p ats bts start D z s : rt M = fl p -> rs M = fl 53 -> accurate (num_bins P) (len ats) (len bts) M -> 1 <= p -> b <= p ->
  0 < z -> 1 < num_bins P -> Z.odd (num_bins P) = false -> z * num_bins P < 2 ^ 53 ->
  Forall (device_time b) ats -> Forall (device_time b) bts -> device_time b start ->
  0 <= s < num_bins P -> window start D ats <> [] ->
  moved (num_bins P) (inject_Z z) s (window start D ats) (window start D bts) ->
  (forall h, histogram (map (fun t => t - start)%Q (window start D ats)) (num_bins P) (inject_Z z) = Ok h -> aperiodic h) ->
  exists ys d, correlate M P ats bts start D (inject_Z z) = Ok ys /\ delay_of M (num_bins P) ys (inject_Z z) = Ok d /\
    (d == inject_Z (centered (num_bins P) s * z))%Q.
Proof.
  intros RT RS AC P1 BP Z0 N ODD SM DA DB DS S NE MV AP.
  set (n := num_bins P) in *.
  assert (RES : (0 < inject_Z z)%Q) by (rewrite <- (Zlt_Qlt 0); lia).
  assert (WB : window start D bts <> []).
  { destruct MV as (k & F & PM). intros E. rewrite E in PM. apply Permutation_sym, Permutation_nil in PM. subst k. inversion F. congruence. }
  assert (EX : forall l, window start D l <> [] -> exists t, In t l /\ (start <= t)%Q).
  { intros l H. destruct (window start D l) as [|x r] eqn:E; [congruence|]. exists x.
    assert (I : In x (window start D l)) by (rewrite E; now left). unfold window in I. apply filter_In in I. destruct I as [I C]. split; [exact I|].
    apply andb_true_iff in C. apply Qle_bool_iff. tauto. }
  destruct (c46_device b p ats start D P1 BP DA DS (EX ats NE)) as (la & SA & VA).
  destruct (c46_device b p bts start D P1 BP DB DS (EX bts WB)) as (lb & SB & VB).
  set (A := map (fun t => t - start)%Q (window start D ats)) in *. set (B := map (fun t => t - start)%Q (window start D bts)) in *.
  assert (NA : A <> []) by (unfold A; destruct (window start D ats); [congruence|discriminate]).
  destruct (moved_map n (inject_Z z) s start _ _ MV) as (k & F & PM). fold A in F. fold B in PM.
  assert (N0 : 0 < n) by lia.
  destruct (histogram_shift A B n (inject_Z z) s k N0 RES S NA F PM) as (ha & hb & Ea & Eb & SH).
  destruct (histogram_ok A n (inject_Z z) NA N0 RES) as (h' & Ea' & L & _). rewrite Ea in Ea'. injection Ea' as <-.
  assert (LA : length ha = Z.to_nat n) by (unfold len in L; lia).
  pose proof (histogram_nonneg _ _ _ _ N0 RES Ea) as PA. pose proof (histogram_nonneg _ _ _ _ N0 RES Eb) as PB.
  assert (NB : B <> []) by (unfold B; destruct (window start D bts); [congruence|discriminate]).
  assert (NC : near_correlation ha hb (xc M ha hb)).
  { apply AC; [apply (histogram_within A n (inject_Z z) ha)|apply (histogram_within B n (inject_Z z) hb)]; try assumption; unfold A, B, len; rewrite map_length; apply inj_le, window_length_le. }
  destruct (axis_even M n z RS Z0 N0 SM) as [LX EX2].
  destruct (c49 ha hb (Z.to_nat s) (xc M ha hb) (axis M n (inject_Z z)) (inject_Z z) SH (AP ha Ea)) as (_ & _ & d & e & G & V); try assumption; [lia|lia|].
  exists (xc M ha hb), d. split; [|split].
  - unfold correlate. rewrite RT, SA. cbn [bind]. rewrite SB. cbn [bind].
    fold n. rewrite (histogram_same _ _ n (inject_Z z) VA), (histogram_same _ _ n (inject_Z z) VB), Ea. cbn [bind]. rewrite Eb. cbn [bind].
    unfold get_xcorr. rewrite L. replace (n =? 1) with false by lia. now rewrite ODD.
  - unfold delay_of. rewrite G. reflexivity.
  - rewrite V, L, Z2Nat.id, inject_Z_mult by lia. destruct (Z.to_nat s =? 0)%nat eqn:E; [|reflexivity].
    replace s with 0 by lia. unfold centered. replace (2 * 0 <? n) with true by lia. change (inject_Z 0) with 0%Q. ring.
Qed.
Lemma rneQ_eq x y : (x == y)%Q -> rneQ x = rneQ y.
Proof. intros E. pose proof (rneQ_mono x y). pose proof (rneQ_mono y x). rewrite E in *. pose proof (Qle_refl y). lia. Qed.
Lemma centered_bound n s : 0 < n -> 0 <= s < n -> - n <= centered n s * 2 <= n.
Proof. intros N S. unfold centered. destruct (2 * s <? n) eqn:E; lia. Qed.
Lemma used_full M P p z e : rt M = fl p -> rs M = fl 53 -> 1 <= p -> 0 < z -> 0 < num_bins P -> 0 < num_wraps P -> z * num_bins P * num_wraps P < 2 ^ 53 ->
  num_wraps P < 2 ^ p -> (inject_Z (z * num_bins P * num_wraps P) <= e)%Q ->
  let duration := rs M (rs M (inject_Z (num_wraps P) * inject_Z z) * inject_Z (num_bins P))%Q in
  (used_duration M P e duration (inject_Z z) == inject_Z (z * num_bins P * num_wraps P))%Q.
Proof.
  intros RT RS P1 Z0 N0 W0 B WP E. cbv zeta. set (n := num_bins P) in *. set (w := num_wraps P) in *.
  assert (B1 : z * n < 2 ^ 53) by nia. assert (B2 : w * z < 2 ^ 53) by nia. assert (B3 : w < 2 ^ 53) by nia.
  assert (D1 : (fl 53 (inject_Z w * inject_Z z) == inject_Z (w * z))%Q) by (rewrite <- inject_Z_mult; apply fl_int; nia).
  assert (D : (fl 53 (fl 53 (inject_Z w * inject_Z z) * inject_Z n) == inject_Z (w * z * n))%Q).
  { rewrite (fl_eq 53 _ (inject_Z (w * z * n))) by (rewrite D1, <- inject_Z_mult; reflexivity). apply fl_int; nia. }
  assert (R : (fl 53 (inject_Z z * inject_Z n) == inject_Z (z * n))%Q) by (rewrite <- inject_Z_mult; apply fl_int; nia).
  unfold used_duration. cbv zeta. fold n w. rewrite RT, RS.
  set (r := fl 53 (inject_Z z * inject_Z n)) in *. set (du := fl 53 (fl 53 (inject_Z w * inject_Z z) * inject_Z n)) in *.
  assert (R0 : (0 < inject_Z (z * n))%Q) by (rewrite <- (Zlt_Qlt 0); nia).
  assert (NW : rneQ (fl 53 (du / r)) = w).
  { rewrite (fl_eq 53 (du / r) (inject_Z w)).
    - assert (X : rneQ (fl 53 (inject_Z w)) = w); [|exact X]. rewrite (rneQ_eq _ (inject_Z w)); [apply rneQ_inject|]. apply fl_int; nia.
    - rewrite D, R. replace (w * z * n) with (w * (z * n)) by ring. rewrite inject_Z_mult. field. lra. }
  rewrite NW.
  assert (MW : w <= Qfloor (fl p (e / r))).
  { assert (LE : (inject_Z w <= e / r)%Q).
    { apply Qle_shift_div_l; [rewrite R; exact R0|]. rewrite R, <- inject_Z_mult. replace (w * (z * n)) with (z * n * w) by ring. exact E. }
    pose proof (fl_mono p _ _ P1 LE) as LF. rewrite fl_int in LF by (try assumption; lia).
    pose proof (Qlt_floor (fl p (e / r))) as LT. assert (inject_Z w < inject_Z (Qfloor (fl p (e / r)) + 1))%Q as H by lra. rewrite <- Zlt_Qlt in H. lia. }
  replace (Qfloor (fl p (e / r)) <? w) with false by lia. rewrite Z.min_l by assumption.
  rewrite (fl_eq 53 _ (inject_Z (w * z * n))) by (rewrite D1, <- inject_Z_mult; reflexivity).
  rewrite fl_int by nia. replace (w * z * n) with (z * n * w) by ring. reflexivity.
Qed.

Lemma window_same s d d' l : (d == d')%Q -> window s d l = window s d' l.
Proof. intros E. unfold window. apply filter_ext. intros t. f_equal. f_equal. apply Qle_bool_cong. now rewrite E. Qed.
Lemma correlate_duration M P a b s d d' res : (d == d')%Q -> correlate M P a b s d res = correlate M P a b s d' res.
Proof.
  intros E. unfold correlate. assert (S : forall l, slice_timestamps (rt M) l (Some s) (Some d) = slice_timestamps (rt M) l (Some s) (Some d')).
  { intros l. unfold slice_timestamps. cbn [bind]. destruct (getitem _ (-1)); [|reflexivity]. cbn [bind]. f_equal. apply filter_ext. intros t.
    unfold Qltb. f_equal. apply Qle_bool_cong. now rewrite E. }
  now rewrite !S.
Qed.
(** rounding of the frequency *)
Lemma freq_rounding d1 d2 sep : (Qabs ((d2 - d1) / sep) <= (1 # 8192) - (1 # 2 ^ 51))%Q -> (fl 53 (d2 - d1) == d2 - d1)%Q -> ~ (sep == 0)%Q ->
  let f' := fl 53 (1 * fl 53 (1 + fl 53 (fl 53 (d2 - d1) / sep)))%Q in
  (Qabs (fl 53 (f' - 1) - (d2 - d1) / sep) <= 1 # 2 ^ 52)%Q /\ (Qabs (fl 53 (f' - 1)) < 1 # 8192)%Q.
Proof.
  intros B X SP. cbv zeta. set (t := ((d2 - d1) / sep)%Q) in *.
  rewrite (fl_eq 53 (fl 53 (d2 - d1) / sep) t) by (rewrite X; reflexivity).
  change (1 # 2 ^ 51)%Q with (1 # 2251799813685248)%Q in B. change (1 # 2 ^ 52)%Q with (1 # 4503599627370496)%Q.
  apply Qabs_Qle_condition in B.
  assert (H1 : (Qabs (fl 53 t - t) <= (1 # 2 ^ 53) * (1 # 8192))%Q) by (apply fl53_near; apply Qabs_Qle_condition; lra).
  change (1 # 2 ^ 53)%Q with (1 # 9007199254740992)%Q in H1. apply Qabs_Qle_condition in H1.
  set (d := fl 53 t) in *.
  assert (H2 : (Qabs (fl 53 (1 + d) - (1 + d)) <= (1 # 2 ^ 53) * (1 + (1 # 4096)))%Q) by (apply fl53_near; apply Qabs_Qle_condition; lra).
  change (1 # 2 ^ 53)%Q with (1 # 9007199254740992)%Q in H2. apply Qabs_Qle_condition in H2.
  set (u := fl 53 (1 + d)) in *.
  assert (H3 : (fl 53 (1 * u) == u)%Q) by (rewrite (fl_eq 53 (1 * u) u) by ring; unfold u; apply fl_idem; lia).
  rewrite (fl_eq 53 (fl 53 (1 * u) - 1) (u - 1)) by now rewrite H3.
  assert (H4 : (Qabs (fl 53 (u - 1) - (u - 1)) <= (1 # 2 ^ 53) * (1 # 4096))%Q) by (apply fl53_near; apply Qabs_Qle_condition; lra).
  change (1 # 2 ^ 53)%Q with (1 # 9007199254740992)%Q in H4. apply Qabs_Qle_condition in H4.
  split; [apply Qabs_Qle_condition; lra|apply Qabs_Qlt_condition; lra].
Qed.
Lemma c81 fuel M P b p ats bts z s1 s2 a0 b0 : rt M = fl p -> rs M = fl 53 -> accurate (num_bins P) (len ats) (len bts) M -> 1 <= p -> b <= p ->
  0 < z -> 1 < num_bins P -> Z.odd (num_bins P) = false -> 0 < num_wraps P < 2 ^ p ->
  let n := num_bins P in let res := inject_Z z in let sep := separation_duration P in
  let T := z * n * num_wraps P in let W := inject_Z T in
  T < 2 ^ 53 -> (target_resolution P == res)%Q ->
  Forall (device_time b) ats -> Forall (device_time b) bts -> device_time b sep -> (0 < sep)%Q ->
  getitem ats (-1) = Ok a0 -> getitem bts (-1) = Ok b0 -> (W <= a0)%Q -> (W <= b0)%Q ->
  0 <= s1 < n -> 0 <= s2 < n -> window 0 W ats <> [] -> window sep W ats <> [] ->
  moved n res s1 (window 0 W ats) (window 0 W bts) -> moved n res s2 (window sep W ats) (window sep W bts) ->
  (forall s h, s = 0%Q \/ s = sep -> histogram (map (fun t => t - s)%Q (window s W ats)) n res = Ok h -> aperiodic h) ->
  (forall ys, correlate M P ats bts 0 W res = Ok ys -> exists sig, sig_of M ys res = Ok sig /\ (threshold P <= sig)%Q /\ ~ (sig == 0)%Q) ->
  let c1 := centered n s1 * z in let c2 := centered n s2 * z in
  Z.abs c1 <= 100000000 -> (Qabs (inject_Z (c2 - c1) / sep) <= (1 # 8192) - (1 # 2 ^ 51))%Q ->
  exists dt df, time_freq (S fuel) M P ats bts res = Ok (dt, df) /\ (dt == inject_Z c1)%Q /\
    (Qabs (df - inject_Z (c2 - c1) / sep) <= 1 # 2 ^ 52)%Q.
Proof.
  intros RT RS AC P1 BP Z0 N ODD NW n res sep T W TB TR DA DB DS SEP GA GB LA LB S1 S2 NE1 NE2 MV1 MV2 AP SIG c1 c2 C1 DR.
  assert (DS0 : device_time b 0).
  { destruct DS as (k & _ & K). exists 0. split; [reflexivity|]. lia. }
  assert (ZN : z * n < 2 ^ 53) by (unfold T in TB; fold n in TB; nia).
  set (du := rs M (rs M (inject_Z (num_wraps P) * res) * inject_Z (num_bins P))%Q).
  assert (EW : (used_duration M P (qmin a0 b0) du res == W)%Q).
  { unfold W, T, res, n. apply (used_full M P p z); try assumption; try lia.
    unfold qmin. destruct (Qltb b0 a0); assumption. }
  assert (APs : forall s, s = 0%Q \/ s = sep -> forall h, histogram (map (fun t => t - s)%Q (window s W ats)) n res = Ok h -> aperiodic h) by (intros s H h; now apply AP).
  destruct (window_delay M P b p ats bts 0 W z s1) as (ys & d1 & Y1 & D1 & V1); try assumption; [now apply APs; left|].
  destruct (window_delay M P b p ats bts sep W z s2) as (ys2 & d2 & Y2 & D2 & V2); try assumption; [now apply APs; right|].
  fold n in V1, V2. fold c1 in V1. fold c2 in V2. fold res in Y1, D1, Y2, D2.
  destruct (SIG ys Y1) as (sig & SG & TH & NZ).
  assert (CB : forall s, 0 <= s < n -> Z.abs (centered n s * z) * 2 <= z * n).
  { intros s S. assert (0 < n) by (unfold n; lia). pose proof (centered_bound n s H S). nia. }
  assert (X : (fl 53 (d2 - d1) == d2 - d1)%Q).
  { assert (E : (d2 - d1 == inject_Z (c2 - c1))%Q) by (rewrite V1, V2; unfold Z.sub; now rewrite inject_Z_plus, inject_Z_opp).
    rewrite (fl_eq 53 _ _ E), E. apply fl_int; [lia|]. pose proof (CB s1 S1). pose proof (CB s2 S2). fold c1 in H. fold c2 in H0. lia. }
  assert (ED : ((d2 - d1) / sep == inject_Z (c2 - c1) / sep)%Q) by (rewrite V1, V2; unfold Z.sub; now rewrite inject_Z_plus, inject_Z_opp).
  assert (NS : ~ (sep == 0)%Q) by (intros H; lra).
  assert (DR' : (Qabs ((d2 - d1) / sep) <= (1 # 8192) - (1 # 2 ^ 51))%Q) by now rewrite ED.
  destruct (freq_rounding d1 d2 sep DR' X NS) as [F1 F2].
  unfold time_freq. rewrite GA. cbn [bind]. rewrite GB. cbn [bind]. cbn [iterate].
  unfold iteration. cbn [FpfindModel.bts resolution dt f is_first negb andb]. fold du. fold res. cbv zeta.
  rewrite (correlate_duration M P ats bts 0 _ _ res EW), Y1. cbn [bind]. rewrite D1. cbn [bind]. rewrite SG. cbn [bind confirm].
  replace (Qeq_bool sig 0) with false; [|symmetry; apply not_true_is_false; intros H; apply NZ; now apply Qeq_bool_iff].
  replace (Qle_bool (threshold P) sig) with true by (symmetry; now apply Qle_bool_iff). cbn [bind].
  replace (Qltb NTP_MAXDELAY_NS (Qabs d1)) with false.
  2:{ symmetry. apply Qltb_ge. unfold NTP_MAXDELAY_NS. apply Qabs_Qle_condition. rewrite V1. change 100000000%Q with (inject_Z 100000000). rewrite <- inject_Z_opp, <- !Zle_Qle. lia. }
  rewrite (correlate_duration M P ats bts _ _ _ res EW). fold sep. rewrite Y2. cbn [bind]. rewrite D2. cbn [bind].
  rewrite RS. fold sep.
  replace (Qle_bool MAX_FCORR _) with false.
  2:{ symmetry. apply not_true_is_false. intros H. apply Qle_bool_iff in H. unfold MAX_FCORR in H. lra. }
  replace (Qeq_bool res (target_resolution P)) with true by (symmetry; apply Qeq_bool_iff; now rewrite TR). cbn [bind].
  eexists. eexists. split; [reflexivity|]. split; [|now rewrite <- ED].
  assert (E1 : (fl 53 (1 * d1) == inject_Z c1)%Q).
  { rewrite (fl_eq 53 _ (inject_Z c1)) by (rewrite V1; ring). apply fl_int; [lia|]. lia. }
  rewrite (fl_eq 53 _ (inject_Z c1)) by (rewrite E1; ring). apply fl_int; lia.
Qed.
