(** Exceptions and termination of the search. *)
From Coq Require Import QArith Qabs Qround Lqa.
From Coq Require Import ZifyBool.
From Verif Require Import Float Base TimestampsModel TimestampsSpec UtilsModel UtilsSpec UtilsProofs UtilsProofs2 UtilsProofs3 FpfindModel FpfindSpec FpfindProofs.
Local Open Scope Z_scope.

(** ** Exceptions *)
Lemma errs_bind {A B} es (m : pyres A) (k : A -> pyres B) : errs es m -> (forall a, m = Ok a -> errs es (k a)) -> errs es (bind m k).
Proof. intros H K e E. destruct m as [a|x]; cbn [bind] in E; [apply (K a eq_refl e E)|]. injection E as <-. now apply H. Qed.
Lemma errs_mono {A} es es' (m : pyres A) : (forall e, In e es -> In e es') -> errs es m -> errs es' m.
Proof. intros I H e E. apply I, H, E. Qed.
Lemma errs_ok {A} es (a : A) : errs es (Ok a).
Proof. intros e E. discriminate. Qed.
Lemma errs_err {A} es e : In e es -> errs es (Err e : pyres A).
Proof. intros I x E. injection E as <-. exact I. Qed.

Lemma axis_len M n res : 0 <= n -> len (axis M n res) = n.
Proof. intros N. unfold axis, len. rewrite map_length, seq_length. lia. Qed.
(** no position is out of the time axis *)
Lemma delay_at_ok n xs p : 0 <= p < n -> len xs = n -> exists r, delay_at n xs p = Ok r.
Proof.
  intros P L. unfold delay_at. rewrite (getitem_nth xs p 0%Q) by lia. cbn [bind].
  destruct (p =? 0) eqn:Z0; rewrite (getitem_nth xs _ 0%Q) by lia; cbn [bind]; eexists; reflexivity.
Qed.
Lemma delay_of_ok M ys res : ys <> [] -> exists d, delay_of M (len ys) ys res = Ok d.
Proof.
  intros N. unfold delay_of, get_timing_delay_fft. destruct (argmax_spec ys N) as (p & -> & F & _). cbn [bind].
  destruct (delay_at_ok (len ys) (axis M (len ys) res) p) as ((a, b) & ->); [exact F|apply axis_len, len_nonneg|].
  exists a. reflexivity.
Qed.
Lemma ceil_0 res : Qceiling (0 / 2 / res) = 0.
Proof. assert (E : (0 / 2 / res == 0)%Q) by (unfold Qdiv; ring). rewrite (Qceiling_comp _ _ E). reflexivity. Qed.
Lemma sig_of_ok M ys res : 2 <= len ys -> exists p b bg, 0 <= p < len ys /\ background (pieces ys p 0) = b :: bg /\ sig_of M ys res = Ok (zs M (nth (Z.to_nat p) ys 0%Q) (b :: bg)).
Proof.
  intros N. assert (NE : ys <> []) by (intros ->; change (len (@nil Q)) with 0 in N; lia).
  destruct (statistics_none ys res 0 NE) as (p & F & E). rewrite ceil_0 in E.
  destruct (pieces_split ys p 0 ltac:(lia)) as (S & B & (H1 & H2 & _) & _ & HS & HB).
  destruct F as [F _]. specialize (HS eq_refl F). specialize (HB eq_refl F N). subst S.
  unfold sig_of. rewrite E. cbn [bind]. unfold significance, peak_max. rewrite H1, H2. destruct B as [|b B]; [congruence|].
  exists p, (nth (Z.to_nat b) ys 0%Q), (at_positions ys B). split; [exact F|]. split; [exact H2|reflexivity].
Qed.
(** two bins leave one for the background *)
Lemma two_bins ys p b bg : len ys = 2 -> 0 <= p < 2 -> background (pieces ys p 0) = b :: bg -> bg = [].
Proof.
  intros L P E. destruct ys as [|y0 [|y1 [|y2 ys]]]; try (unfold len in L; cbn in L; lia).
  assert (p = 0 \/ p = 1) as [->| ->] by lia; vm_compute in E; congruence.
Qed.
Lemma merge_len M : forall n ys, (length ys <= n)%nat -> (exists ys1, merge M ys = Ok ys1 /\ len ys = 2 * len ys1) \/ merge M ys = Err ValueError.
Proof.
  induction n as [|n IH]; intros [|a [|b ys]] L; cbn [length] in L; try lia.
  - left. exists []. split; reflexivity.
  - left. exists []. split; reflexivity.
  - now right.
  - cbn [merge]. destruct (IH ys ltac:(lia)) as [(m & -> & E)| ->]; [left|now right]. cbn [bind]. eexists. split; [reflexivity|]. rewrite !len_cons. lia.
Qed.
Lemma merge_cases M ys : (exists ys1, merge M ys = Ok ys1 /\ len ys = 2 * len ys1) \/ merge M ys = Err ValueError.
Proof. now apply (merge_len M (length ys)). Qed.
Lemma confirm_errs M P : good_zs M -> forall fuel ys res dt1 sig, (length ys < fuel)%nat -> 2 <= len ys -> sig_of M ys res = Ok sig ->
  errs [ValueError] (confirm fuel M P ys res dt1 sig).
Proof.
  intros GZ. induction fuel as [|k IH]; intros ys res dt1 sig L N S; [lia|]. cbn [confirm].
  destruct (Qeq_bool sig 0) eqn:Z0; [apply errs_err; now left|]. destruct (Qle_bool (threshold P) sig); [apply errs_ok|].
  assert (N2 : len ys <> 2).
  { intros L2. destruct (sig_of_ok M ys res N) as (p & b & bg & Hp & Hb & E). rewrite S in E. injection E as ->.
    rewrite L2 in Hp. rewrite (two_bins ys p b bg L2 Hp Hb) in Z0.
    assert (X : Qeq_bool (zs M (nth (Z.to_nat p) ys 0%Q) [b]) 0 = true) by (apply Qeq_bool_iff, GZ). congruence. }
  destruct (merge_cases M ys) as [(ys1 & -> & E1)| ->]; [|apply errs_err; now left]. cbn [bind].
  destruct (Qltb 10000 _); [apply errs_err; now left|].
  assert (NE : ys1 <> []) by (intros ->; change (len (@nil Q)) with 0 in E1; lia).
  destruct (delay_of_ok M ys1 (rs M (res * 2)) NE) as (d & ->). cbn [bind].
  destruct (sig_of_ok M ys1 (rs M (res * 2)) ltac:(lia)) as (p & b & bg & _ & _ & E). rewrite E. cbn [bind].
  apply IH; [unfold len in *; lia|lia|exact E].
Qed.
Lemma slice_errs rt ts s d : errs [IndexError] (slice_timestamps rt ts (Some s) (Some d)).
Proof.
  unfold slice_timestamps. cbn [bind]. apply errs_bind; [|intros; apply errs_ok].
  intros e E. unfold getitem in E. destruct (_ <? 0) in E; [injection E as <-; now left|]. destruct (nth_error _ _); [discriminate|]. injection E as <-. now left.
Qed.
Lemma correlate_errs M P ats b s d res : num_bins P = 1 \/ Z.odd (num_bins P) = false -> errs [ValueError; IndexError] (correlate M P ats b s d res).
Proof.
  intros NB. unfold correlate.
  apply errs_bind; [apply (errs_mono [IndexError]); [cbn; tauto|apply slice_errs]|]. intros a1 _.
  apply errs_bind; [apply (errs_mono [IndexError]); [cbn; tauto|apply slice_errs]|]. intros b1 _.
  assert (HE : forall l, errs [ValueError; IndexError] (histogram l (num_bins P) res)).
  { intros l e E. unfold histogram in E. destruct l; [injection E as <-; now left|]. destruct (_ || _)%bool; [injection E as <-; now left|discriminate]. }
  apply errs_bind; [apply HE|]. intros ha Ha. apply errs_bind; [apply HE|]. intros hb _.
  unfold get_xcorr. destruct (len ha =? 1) eqn:O; [apply errs_err; now left|].
  assert (LA : len ha = num_bins P).
  { destruct a1 as [|x a1]; [discriminate|]. assert (N : 0 < num_bins P /\ Qeq_bool res 0 = false).
    { unfold histogram in Ha. destruct (num_bins P <=? 0) eqn:N; [discriminate|]. destruct (Qeq_bool res 0); [discriminate|]. split; [lia|reflexivity]. }
    destruct N as [N NR]. unfold histogram in Ha. replace (num_bins P <=? 0) with false in Ha by lia. rewrite NR in Ha. cbn [orb] in Ha. injection Ha as <-.
    assert (G : forall l h0, length (fold_left (fun h t => EpochsModel.incr (Z.to_nat (bin_index (num_bins P) res t)) h) l h0) = length h0).
    { induction l as [|y l IH]; intros h0; [reflexivity|]. cbn [fold_left]. rewrite IH. apply EpochsProofs5.incr_length. }
    unfold len. rewrite G, ?EpochsProofs5.incr_length, repeat_length. lia. }
  rewrite LA in O |- *. destruct NB as [NB|NB]; [lia|]. rewrite NB. apply errs_ok.
Qed.
Lemma iteration_errs M P ats e d s : good_xc M -> good_zs M -> num_bins P = 1 \/ Z.odd (num_bins P) = false ->
  errs [ValueError; IndexError] (iteration M P ats e d s).
Proof.
  intros GX GZ NB. unfold iteration. apply errs_bind; [now apply correlate_errs|]. intros ys E.
  destruct (correlate_len _ _ _ _ _ _ _ _ GX E) as [LY N2].
  assert (NE : forall l : list Q, len l = num_bins P -> l <> []) by (intros l L ->; change (len (@nil Q)) with 0 in L; lia).
  destruct (delay_of_ok M ys (resolution s) (NE ys LY)) as (d1 & D1). rewrite LY in D1. rewrite D1. cbn [bind].
  destruct (sig_of_ok M ys (resolution s) ltac:(lia)) as (p & b & bg & _ & _ & S). rewrite S. cbn [bind].
  apply errs_bind.
  - destruct (is_first s); [|apply errs_ok]. apply (errs_mono [ValueError]); [cbn; tauto|]. apply (confirm_errs M P GZ); [lia|lia|exact S].
  - intros (res & dt1) _. destruct (Qltb _ _); [apply errs_err; now left|].
    apply errs_bind; [now apply correlate_errs|]. intros ys2 E2. destruct (correlate_len _ _ _ _ _ _ _ _ GX E2) as [LY2 _].
    destruct (delay_of_ok M ys2 res (NE ys2 LY2)) as (d2 & D2). rewrite LY2 in D2. rewrite D2. cbn [bind]. cbv zeta.
    destruct (_ && _)%bool; [apply errs_ok|]. destruct (Qle_bool _ _); [apply errs_err; now left|]. destruct (Qeq_bool _ _); apply errs_ok.
Qed.
Lemma iterate_errs M P ats e d : good_xc M -> good_zs M -> num_bins P = 1 \/ Z.odd (num_bins P) = false ->
  forall fuel s, errs [ValueError; IndexError; OutOfFuel] (iterate fuel M P ats e d s).
Proof.
  intros GX GZ NB. induction fuel as [|k IH]; intros s; cbn [iterate]; [apply errs_err; cbn; tauto|].
  apply errs_bind; [apply (errs_mono [ValueError; IndexError]); [cbn; tauto|now apply iteration_errs]|].
  intros [dt0 df0|s'] _; [apply errs_ok|apply IH].
Qed.
Lemma getitem_last_ok (l : list Q) : l <> [] -> exists x, getitem l (-1) = Ok x.
Proof.
  intros N. unfold getitem. change (-1 <? 0) with true. cbn iota. destruct l as [|a l]; [congruence|].
  rewrite len_cons. pose proof (len_nonneg l). replace (-1 + (1 + len l) <? 0) with false by lia.
  destruct (nth_error (a :: l) _) eqn:E; [eexists; reflexivity|]. apply nth_error_None in E. cbn [length] in E. unfold len in *. lia.
Qed.
Lemma c58 fuel M P ats bts res : good_xc M -> good_zs M -> num_bins P = 1 \/ Z.odd (num_bins P) = false -> ats <> [] -> bts <> [] ->
  errs [ValueError; IndexError; OutOfFuel] (time_freq fuel M P ats bts res).
Proof.
  intros GX GZ NB NA NBt. unfold time_freq. destruct (getitem_last_ok ats NA) as (x & ->). destruct (getitem_last_ok bts NBt) as (y & ->). cbn [bind].
  now apply iterate_errs.
Qed.
Lemma scan_errs rt rs search bob es : (forall b, errs es (search b)) -> forall df0s fs, errs (ValueError :: es) (scan rt rs search bob df0s fs).
Proof.
  intros H. induction df0s as [|df0 rest IH]; intros fs; cbn [scan]; [apply errs_err; now left|].
  match goal with |- errs _ (match search ?b with _ => _ end) => destruct (search b) as [(d, e)|x] eqn:E end.
  - destruct fs; [apply IH|apply errs_ok].
  - destruct x; try (apply errs_err; right; apply (H _ _ E)). apply IH.
Qed.

(** ** Termination *)
Lemma qmax_cases x y : (qmax x y = x /\ (y <= x)%Q) \/ (qmax x y = y /\ (x < y)%Q).
Proof. unfold qmax. destruct (Qltb x y) eqn:E; [right; split; [reflexivity|now apply Qltb_lt]|left; split; [reflexivity|now apply Qltb_ge]]. Qed.
Lemma confirm_res M P : (forall x, 0 < x -> 0 < rs M x)%Q -> forall fuel ys res dt1 sig r d, (0 < res)%Q -> confirm fuel M P ys res dt1 sig = Ok (r, d) ->
  (0 < r)%Q /\ (r = res \/ r <= 10000)%Q.
Proof.
  intros RP. induction fuel as [|k IH]; intros ys res dt1 sig r d R H; [discriminate|]. cbn [confirm] in H.
  destruct (Qeq_bool sig 0); [discriminate|]. destruct (Qle_bool (threshold P) sig).
  - injection H as <- <-. split; [assumption|now left].
  - apply bind_ok in H as (ys1 & _ & H). destruct (Qltb 10000 (rs M (res * 2))) eqn:O; [discriminate|]. apply Qltb_ge in O.
    apply bind_ok in H as (d1 & _ & H). apply bind_ok in H as (s1 & _ & H).
    assert (R' : (0 < rs M (res * 2))%Q) by (apply RP; lra). destruct (IH _ _ _ _ _ _ R' H) as [A [->|B]]; (split; [assumption|right; assumption]).
Qed.
Lemma iteration_again M P ats e d s s' : (forall x, 0 < x -> 0 < rs M x)%Q -> (0 < resolution s)%Q -> iteration M P ats e d s = Ok (Again s') ->
  is_first s' = false /\ exists res, (0 < res)%Q /\ (is_first s = false -> res = resolution s) /\ (res = resolution s \/ res <= 10000)%Q /\
    ~ (res == target_resolution P)%Q /\
    resolution s' = qmax (rs M (res / rs M (rs M (separation_duration P / d) / RES_REFINE_FACTOR))%Q) (target_resolution P).
Proof.
  intros RP R H. unfold iteration in H. apply bind_ok in H as (ys & _ & H). apply bind_ok in H as (dt1 & _ & H). apply bind_ok in H as (sg & _ & H).
  apply bind_ok in H as ((res & dt1') & E4 & H).
  assert (K : (0 < res)%Q /\ (is_first s = false -> res = resolution s) /\ (res = resolution s \/ res <= 10000)%Q).
  { destruct (is_first s).
    - destruct (confirm_res M P RP _ _ _ _ _ _ _ R E4) as [A B]. split; [exact A|]. split; [discriminate|exact B].
    - injection E4 as <- <-. split; [exact R|]. split; [reflexivity|now left]. }
  destruct (Qltb _ _); [discriminate|]. apply bind_ok in H as (ys2 & _ & H). apply bind_ok in H as (d2 & _ & H). cbv zeta in H.
  destruct (_ && _)%bool; [discriminate|]. destruct (Qle_bool _ _); [discriminate|].
  destruct (Qeq_bool res (target_resolution P)) eqn:T; [discriminate|]. injection H as <-. cbn [is_first resolution]. split; [reflexivity|].
  destruct K as (K1 & K2 & K3). exists res. split; [exact K1|]. split; [exact K2|]. split; [exact K3|]. split; [|reflexivity].
  intros X. apply Qeq_bool_iff in X. congruence.
Qed.
Lemma qpow_range c k : (0 <= c)%Q -> (c < 1)%Q -> (0 <= qpow c k)%Q /\ (qpow c k <= 1)%Q.
Proof.
  intros C D. induction k as [|k [A B]]; cbn [qpow]; [split; lra|]. split; [now apply Qmult_le_0_compat|].
  apply Qle_trans with (1 * qpow c k)%Q; [apply Qmult_le_compat_r; lra|lra].
Qed.
Lemma iterate_ends M P ats e d c : (forall x, 0 < x -> 0 < rs M x)%Q -> good_xc M -> good_zs M -> num_bins P = 1 \/ Z.odd (num_bins P) = false ->
  shrinks M (separation_duration P) d c -> (0 < target_resolution P)%Q ->
  forall k s, is_first s = false -> (target_resolution P <= resolution s)%Q -> (resolution s * qpow c k <= target_resolution P)%Q ->
    errs [ValueError; IndexError] (iterate (S k) M P ats e d s).
Proof.
  intros RP GX GZ NB (C0 & C1 & C) T. induction k as [|k IH]; intros s F L U.
  - cbn [iterate]. apply errs_bind; [now apply iteration_errs|]. intros [x y|s'] E; [apply errs_ok|].
    destruct (iteration_again M P ats e d s s' RP ltac:(lra) E) as (_ & res & _ & R & _ & NT & _). specialize (R F). subst res. cbn [qpow] in U.
    exfalso. apply NT. apply Qle_antisym; lra.
  - set (n := S k). cbn [iterate]. apply errs_bind; [now apply iteration_errs|]. intros [x y|s'] E; [apply errs_ok|].
    destruct (iteration_again M P ats e d s s' RP ltac:(lra) E) as (F' & res & _ & R & _ & _ & RS'). specialize (R F). subst res n.
    apply IH; [exact F'| |].
    + rewrite RS'. destruct (qmax_cases (rs M (resolution s / rs M (rs M (separation_duration P / d) / RES_REFINE_FACTOR))) (target_resolution P)) as [[-> X]|[-> X]]; lra.
    + rewrite RS'. specialize (C (resolution s) ltac:(lra)). cbn [qpow] in U. destruct (qpow_range c k C0 C1) as [Q0 Q1].
      destruct (qmax_cases (rs M (resolution s / rs M (rs M (separation_duration P / d) / RES_REFINE_FACTOR))) (target_resolution P)) as [[-> X]|[-> X]].
      * apply Qle_trans with (c * resolution s * qpow c k)%Q; [apply Qmult_le_compat_r; assumption|].
        apply Qle_trans with (resolution s * (c * qpow c k))%Q; [apply Qle_lteq; right; ring|exact U].
      * apply Qle_trans with (target_resolution P * 1)%Q; [|lra]. rewrite !(Qmult_comm (target_resolution P)). apply Qmult_le_compat_r; lra.
Qed.
(** [k] with max(resolution, 10000) * c^(k+1) <= target_resolution: at most k + 2 iterations *)
Lemma c55 M P ats bts res c k : (forall x, 0 < x -> 0 < rs M x)%Q -> good_xc M -> good_zs M -> num_bins P = 1 \/ Z.odd (num_bins P) = false ->
  shrinks M (separation_duration P) (rs M (rs M (inject_Z (num_wraps P) * res) * inject_Z (num_bins P))%Q) c ->
  (0 < target_resolution P)%Q -> (0 < res)%Q -> ats <> [] -> bts <> [] ->
  (res * qpow c (S k) <= target_resolution P)%Q -> (10000 * qpow c (S k) <= target_resolution P)%Q ->
  errs [ValueError; IndexError] (time_freq (S (S k)) M P ats bts res).
Proof.
  intros RP GX GZ NB SH T R NA NBt U1 U2. unfold time_freq. destruct (getitem_last_ok ats NA) as (x & ->). destruct (getitem_last_ok bts NBt) as (y & ->). cbn [bind].
  set (n := S k). cbn [iterate]. apply errs_bind; [now apply iteration_errs|]. intros [a b|s'] E; [apply errs_ok|]. subst n.
  destruct (iteration_again M P ats _ _ (mkS bts res 0 1 true) s' RP R E) as (F' & r & Rp & _ & RB & _ & RS'). cbn [resolution] in RB.
  apply (iterate_ends M P ats _ _ c RP GX GZ NB SH T); [exact F'| |].
  - rewrite RS'. match goal with |- context [qmax ?u ?v] => destruct (qmax_cases u v) as [[-> X]|[-> X]] end; lra.
  - rewrite RS'. destruct SH as (C0 & C1 & C). specialize (C r Rp). destruct (qpow_range c k C0 C1) as [Q0 Q1].
    match goal with |- context [qmax ?u ?v] => destruct (qmax_cases u v) as [[-> X]|[-> X]] end.
    + apply Qle_trans with (c * r * qpow c k)%Q; [apply Qmult_le_compat_r; assumption|].
      cbn [qpow] in U1, U2. assert (P0 : (0 <= c * qpow c k)%Q) by (now apply Qmult_le_0_compat).
      apply Qle_trans with (r * (c * qpow c k))%Q; [apply Qle_lteq; right; ring|].
      destruct RB as [->|RB]; [exact U1|]. apply Qle_trans with (10000 * (c * qpow c k))%Q; [|exact U2]. apply Qmult_le_compat_r; assumption.
    + apply Qle_trans with (target_resolution P * 1)%Q; [|lra]. rewrite !(Qmult_comm (target_resolution P)). apply Qmult_le_compat_r; lra.
Qed.
(** exact arithmetic: any ratio above the constant *)
Lemma shrinks_exact M sep d : exact_fpu M -> (0 < d)%Q -> (d * RES_REFINE_FACTOR < sep)%Q -> shrinks M sep d (d * RES_REFINE_FACTOR / sep).
Proof.
  intros [_ RS] D G. assert (R0 : (0 < RES_REFINE_FACTOR)%Q) by reflexivity. assert (S0 : (0 < sep)%Q) by nra.
  split; [apply Qle_shift_div_l; [assumption|]; nra|]. split; [apply Qlt_shift_div_r; lra|]. intros x X.
  assert (E : (rs M (rs M (sep / d) / RES_REFINE_FACTOR) == sep / d / RES_REFINE_FACTOR)%Q) by (rewrite (RS (rs M (sep / d) / RES_REFINE_FACTOR)%Q), (RS (sep / d)%Q); reflexivity).
  rewrite (RS (x / rs M (rs M (sep / d) / RES_REFINE_FACTOR))%Q), E. apply Qle_lteq. right. field. repeat split; lra.
Qed.
(** float64: the ratio as computed at least 1 + 2^-50 *)
Lemma shrinks_fl M sep d : (forall x, rs M x = fl 53 x) -> (1 + (1 # 2 ^ 50) <= fl 53 (fl 53 (sep / d) / RES_REFINE_FACTOR))%Q ->
  shrinks M sep d ((1 + (1 # 2 ^ 52)) / fl 53 (fl 53 (sep / d) / RES_REFINE_FACTOR))%Q.
Proof.
  intros RS G. set (q := fl 53 (fl 53 (sep / d) / RES_REFINE_FACTOR)) in *.
  assert (Q0 : (0 < q)%Q) by (apply Qlt_le_trans with (1 + (1 # 2 ^ 50))%Q; [reflexivity|exact G]).
  split; [apply Qle_shift_div_l; [assumption|]; rewrite Qmult_0_l; discriminate|].
  split; [apply Qlt_shift_div_r; [assumption|]; rewrite Qmult_1_l; apply Qlt_le_trans with (1 + (1 # 2 ^ 50))%Q; [reflexivity|exact G]|].
  intros x X. rewrite !RS. fold q.
  assert (Y : (0 <= x / q)%Q) by (apply Qle_shift_div_l; [assumption|]; lra).
  pose proof (fl_err 53 (x / q)) as E. rewrite (Qabs_pos (x / q) Y) in E. apply Qabs_Qle_condition in E as [_ E].
  assert (B : (pow2 (- (53)) <= 1 # 2 ^ 52)%Q) by (apply Qle_bool_iff; vm_compute; reflexivity).
  assert (L : (pow2 (- (53)) * (x / q) <= (1 # 2 ^ 52) * (x / q))%Q) by (apply Qmult_le_compat_r; assumption).
  apply Qle_trans with (x / q + (1 # 2 ^ 52) * (x / q))%Q; [lra|]. apply Qle_lteq. right. field. lra.
Qed.
