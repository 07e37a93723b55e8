(** The transforms compute the circular correlation. *)
From Coq Require Import QArith Qreals Reals Lra Lia.
From Verif Require Import Base TimestampsModel UtilsModel UtilsSpec UtilsProofs2 FftModel.
Local Open Scope R_scope.

(** ** Sums *)
Lemma sumR_ext n g h : (forall i, (i < n)%nat -> g i = h i) -> sumR n g = sumR n h.
Proof. induction n as [|n IH]; intros H; cbn [sumR]; [reflexivity|]. rewrite IH by auto. now rewrite H by auto. Qed.
Lemma sumR_plus n g h : sumR n (fun i => g i + h i) = sumR n g + sumR n h.
Proof. induction n as [|n IH]; cbn [sumR]; [lra|]. rewrite IH. lra. Qed.
Lemma sumR_scale n c g : sumR n (fun i => c * g i) = c * sumR n g.
Proof. induction n as [|n IH]; cbn [sumR]; [lra|]. rewrite IH. lra. Qed.
Lemma sumR_swap n m (g : nat -> nat -> R) : sumR n (fun i => sumR m (g i)) = sumR m (fun k => sumR n (fun i => g i k)).
Proof.
  induction n as [|n IH]; cbn [sumR].
  - induction m as [|m IHm]; cbn [sumR]; [reflexivity|]. rewrite <- IHm. lra.
  - rewrite IH, <- sumR_plus. reflexivity.
Qed.
Lemma sumR_mul n m g h : sumR n g * sumR m h = sumR n (fun i => sumR m (fun k => g i * h k)).
Proof.
  rewrite (sumR_ext n (fun i => sumR m (fun k => g i * h k)) (fun i => sumR m h * g i)) by (intros i _; rewrite sumR_scale; lra). rewrite sumR_scale. lra.
Qed.
Lemma sumR_IZR n g : sumR n (fun i => IZR (g i)) = IZR (sum_below n g).
Proof. induction n as [|n IH]; cbn [sumR sum_below]; [reflexivity|]. now rewrite IH, plus_IZR. Qed.
Lemma sumR_delta n k g : (k < n)%nat -> sumR n (fun i => if (i =? k)%nat then g i else 0) = g k.
Proof.
  intros K. induction n as [|n IH]; [lia|]. cbn [sumR]. destruct (Nat.eq_dec n k) as [->|NE].
  - rewrite Nat.eqb_refl. rewrite (sumR_ext k _ (fun _ => 0 * 0)); [rewrite sumR_scale; lra|].
    intros i I. replace (i =? k)%nat with false by (symmetry; apply Nat.eqb_neq; lia). lra.
  - replace (n =? k)%nat with false by (symmetry; apply Nat.eqb_neq; lia). rewrite IH by lia. lra.
Qed.
(** ** Roots of unity *)
Lemma trig_Z z x : cos (x + 2 * PI * IZR z) = cos x /\ sin (x + 2 * PI * IZR z) = sin x.
Proof.
  destruct (Z_le_gt_dec 0 z) as [P|N].
  - replace (2 * PI * IZR z) with (2 * INR (Z.to_nat z) * PI) by (rewrite INR_IZR_INZ, Z2Nat.id by lia; lra). split; [apply cos_period|apply sin_period].
  - set (y := x + 2 * PI * IZR z). replace x with (y + 2 * INR (Z.to_nat (- z)) * PI) by (unfold y; rewrite INR_IZR_INZ, Z2Nat.id, opp_IZR by lia; lra).
    split; [symmetry; apply cos_period|symmetry; apply sin_period].
Qed.
Lemma telescope x n : 2 * sin (x / 2) * sumR n (fun k => cos (INR k * x)) = sin (INR n * x - x / 2) + sin (x / 2).
Proof.
  induction n as [|n IH]; cbn [sumR]; [cbn [INR]; replace (0 * x - x / 2) with (- (x / 2)) by lra; rewrite sin_neg; lra|].
  rewrite Rmult_plus_distr_l, IH. rewrite S_INR. replace ((INR n + 1) * x - x / 2) with (INR n * x + x / 2) by lra. rewrite sin_plus, sin_minus. lra.
Qed.
Lemma cos_sum n z : (0 < n)%nat -> sumR n (fun k => cos (2 * PI * INR k * IZR z / INR n)) = if (z mod Z.of_nat n =? 0)%Z then INR n else 0.
Proof.
  intros N. assert (NR : 0 < INR n) by (apply lt_0_INR; lia).
  set (r := (z mod Z.of_nat n)%Z). set (q := (z / Z.of_nat n)%Z).
  assert (ZE : z = (r + q * Z.of_nat n)%Z) by (unfold r, q; pose proof (Z.div_mod z (Z.of_nat n) ltac:(lia)); lia).
  rewrite (sumR_ext n _ (fun k => cos (INR k * (2 * PI * IZR r / INR n)))).
  2:{ intros k _. rewrite ZE, plus_IZR, mult_IZR, <- INR_IZR_INZ.
      replace (2 * PI * INR k * (IZR r + IZR q * INR n) / INR n) with (INR k * (2 * PI * IZR r / INR n) + 2 * PI * IZR (Z.of_nat k * q)).
      - apply trig_Z.
      - rewrite mult_IZR, <- INR_IZR_INZ. field. lra. }
  destruct (Z.eqb_spec r 0) as [E|NE].
  - rewrite E. rewrite (sumR_ext n _ (fun _ => 1)) by (intros k _; replace (INR k * (2 * PI * 0 / INR n)) with 0 by (field; lra); apply cos_0).
    clear. induction n as [|n IH]; cbn [sumR]; [reflexivity|]. rewrite IH, S_INR. reflexivity.
  - assert (R : (0 < r < Z.of_nat n)%Z) by (unfold r in *; pose proof (Z.mod_pos_bound z (Z.of_nat n) ltac:(lia)); lia).
    pose proof (telescope (2 * PI * IZR r / INR n) n) as T. replace (INR n * (2 * PI * IZR r / INR n)) with (2 * PI * IZR r) in T by (field; lra).
    replace (2 * PI * IZR r - 2 * PI * IZR r / INR n / 2) with (- (2 * PI * IZR r / INR n / 2) + 2 * PI * IZR r) in T by lra.
    rewrite (proj2 (trig_Z r _)), sin_neg in T.
    assert (S : 0 < sin (2 * PI * IZR r / INR n / 2)).
    { replace (2 * PI * IZR r / INR n / 2) with (PI * (IZR r / INR n)) by (field; lra). pose proof PI_RGT_0 as PP.
      assert (0 < IZR r) by (apply (IZR_lt 0); lia). assert (IZR r < INR n) by (rewrite INR_IZR_INZ; apply IZR_lt; lia).
      assert (0 < IZR r / INR n) by (apply Rdiv_lt_0_compat; lra). assert (IZR r / INR n < 1) by (apply (Rmult_lt_reg_r (INR n)); [lra|]; unfold Rdiv; rewrite Rmult_assoc, Rinv_l by lra; lra).
      apply sin_gt_0; nra. }
    apply (Rmult_eq_reg_l (2 * sin (2 * PI * IZR r / INR n / 2))); lra.
Qed.
(** ** The spectrum *)
Section Spectrum.
Variables (a b : list Z) (n : nat).
Hypotheses (LA : length a = n) (LB : length b = n) (N : (0 < n)%nat).
(** the term of frequency [k] in the result at [j] *)
Definition part (j k : nat) : R :=
  sumR n (fun i => sumR n (fun l => IZR (nth i a 0%Z) * IZR (nth l b 0%Z) * cos (2 * PI * INR k * IZR (Z.of_nat i - Z.of_nat l + Z.of_nat j) / INR n))).
Definition spectrum (k : nat) : C := cmul (conj (nth k (rfft a) (0, 0))) (nth k (rfft b) (0, 0)).
Definition cs (v : list Z) (k : nat) : R := sumR n (fun j => IZR (nth j v 0%Z) * cos (2 * PI * INR j * INR k / INR n)).
Definition sn (v : list Z) (k : nat) : R := sumR n (fun j => IZR (nth j v 0%Z) * sin (2 * PI * INR j * INR k / INR n)).
Lemma rfft_nth v k : length v = n -> (k < n / 2 + 1)%nat -> nth k (rfft v) (0, 0) = (cs v k, - sn v k).
Proof.
  intros L K. unfold rfft. rewrite L. cbv zeta.
  match goal with |- nth k (map ?g _) _ = _ => rewrite (nth_indep _ (0, 0) (g 0%nat)) by (now rewrite map_length, seq_length); rewrite (map_nth g), seq_nth by assumption end.
  cbn [Nat.add]. unfold cs, sn, cmul, expi. cbn [fst snd]. f_equal.
  - apply sumR_ext. intros j _. rewrite cos_neg. lra.
  - replace (- sumR n _) with (-1 * sumR n (fun j => IZR (nth j v 0%Z) * sin (2 * PI * INR j * INR k / INR n))) by lra. rewrite <- sumR_scale.
    apply sumR_ext. intros j _. rewrite sin_neg. lra.
Qed.
Lemma part_spectrum j k : (k < n / 2 + 1)%nat -> fst (cmul (spectrum k) (expi (2 * PI * INR j * INR k / INR n))) = part j k.
Proof.
  intros K. assert (NR : INR n <> 0) by (apply not_0_INR; lia).
  unfold spectrum. rewrite !rfft_nth by assumption. unfold cmul, conj, expi. cbn [fst snd].
  set (g := 2 * PI * INR j * INR k / INR n).
  transitivity ((cs a k * cs b k + sn a k * sn b k) * cos g - (sn a k * cs b k - cs a k * sn b k) * sin g); [lra|].
  unfold part. unfold cs, sn. rewrite !sumR_mul.
  set (P1 := sumR n _). set (P2 := sumR n _). set (P3 := sumR n _). set (P4 := sumR n _).
  replace ((P1 + P2) * cos g - (P3 - P4) * sin g) with (cos g * P1 + (cos g * P2 + (- sin g * P3 + sin g * P4))) by lra.
  unfold P1, P2, P3, P4. rewrite <- !sumR_scale, <- !sumR_plus. apply sumR_ext. intros i _. rewrite <- !sumR_scale, <- !sumR_plus. apply sumR_ext. intros l _.
  set (x := 2 * PI * INR i * INR k / INR n). set (y := 2 * PI * INR l * INR k / INR n).
  replace (2 * PI * INR k * IZR (Z.of_nat i - Z.of_nat l + Z.of_nat j) / INR n) with ((x - y) + g) by (unfold x, y, g; rewrite plus_IZR, minus_IZR, <- !INR_IZR_INZ; field; assumption).
  rewrite cos_plus, cos_minus, sin_minus. lra.
Qed.
Lemma part_sum j : sumR n (part j) = INR n * IZR (sum_below n (fun i => nth i a 0 * nth ((i + j) mod n) b 0)%Z).
Proof.
  assert (NR : INR n <> 0) by (apply not_0_INR; lia).
  unfold part. rewrite sumR_swap, <- sumR_IZR, <- sumR_scale. apply sumR_ext. intros i I. rewrite sumR_swap.
  rewrite (sumR_ext n _ (fun l => if (l =? (i + j) mod n)%nat then INR n * (IZR (nth i a 0%Z) * IZR (nth l b 0%Z)) else 0)).
  - rewrite sumR_delta by (apply Nat.mod_upper_bound; lia). now rewrite mult_IZR.
  - intros l L. rewrite sumR_scale, cos_sum by assumption.
    assert (Q : (((Z.of_nat i - Z.of_nat l + Z.of_nat j) mod Z.of_nat n =? 0) = (l =? (i + j) mod n)%nat)%Z).
    { apply Bool.eq_iff_eq_true. rewrite Z.eqb_eq, Nat.eqb_eq. split; intros H.
      - apply Nat2Z.inj. rewrite Nat2Z.inj_mod, Nat2Z.inj_add. replace (Z.of_nat i + Z.of_nat j)%Z with (Z.of_nat l + (Z.of_nat i - Z.of_nat l + Z.of_nat j))%Z by lia.
        rewrite Z.add_mod, H, Z.add_0_r, Z.mod_mod, Z.mod_small by lia. reflexivity.
      - assert (HZ : Z.of_nat l = ((Z.of_nat i + Z.of_nat j) mod Z.of_nat n)%Z) by (rewrite H, Nat2Z.inj_mod, Nat2Z.inj_add; reflexivity).
        rewrite HZ. pose proof (Z.div_mod (Z.of_nat i + Z.of_nat j) (Z.of_nat n) ltac:(lia)) as D.
        replace (Z.of_nat i - (Z.of_nat i + Z.of_nat j) mod Z.of_nat n + Z.of_nat j)%Z with ((Z.of_nat i + Z.of_nat j) / Z.of_nat n * Z.of_nat n)%Z by lia. apply Z.mod_mul. lia. }
    rewrite Q. destruct (l =? _)%nat; lra.
Qed.
Lemma part_mirror j k : (k <= n)%nat -> part j (n - k) = part j k.
Proof.
  intros K. assert (NR : INR n <> 0) by (apply not_0_INR; lia). unfold part. apply sumR_ext. intros i _. apply sumR_ext. intros l _. f_equal.
  set (z := (Z.of_nat i - Z.of_nat l + Z.of_nat j)%Z). rewrite minus_INR by assumption.
  replace (2 * PI * (INR n - INR k) * IZR z / INR n) with (- (2 * PI * INR k * IZR z / INR n) + 2 * PI * IZR z) by (field; assumption).
  rewrite (proj1 (trig_Z z _)), cos_neg. reflexivity.
Qed.
End Spectrum.
Lemma sumR_split m k g : sumR (m + k) g = sumR m g + sumR k (fun i => g (m + i)%nat).
Proof. induction k as [|k IH]; [rewrite Nat.add_0_r; cbn [sumR]; lra|]. rewrite Nat.add_succ_r. cbn [sumR]. rewrite IH. lra. Qed.
Lemma sumR_rev n g : sumR n g = sumR n (fun i => g (n - 1 - i)%nat).
Proof.
  revert g. induction n as [|n IH]; intros g; [reflexivity|]. replace (S n) with (1 + n)%nat at 2 by lia. rewrite sumR_split. cbn [sumR]. replace (S n - 1 - 0)%nat with n by lia.
  rewrite (IH g). rewrite Rplus_comm. rewrite Rplus_0_l. f_equal. apply sumR_ext. intros i I. f_equal. lia.
Qed.
Lemma half_sum h g : (1 <= h)%nat -> (forall k, (1 <= k < 2 * h)%nat -> g (2 * h - k)%nat = g k) -> sumR (2 * h) g = g 0%nat + sumR (h - 1) (fun k => 2 * g (k + 1)%nat) + g h.
Proof.
  intros H S. replace (2 * h)%nat with (1 + ((h - 1) + (1 + (h - 1))))%nat by lia. rewrite !sumR_split. cbn [sumR]. rewrite sumR_scale.
  rewrite (sumR_rev (h - 1) (fun i => g (1 + (h - 1 + (1 + i)))%nat)).
  rewrite (sumR_ext (h - 1) (fun i => g (1 + (h - 1 + (1 + (h - 1 - 1 - i))))%nat) (fun i => g (i + 1)%nat)).
  - rewrite (sumR_ext (h - 1) (fun i => g (1 + i)%nat) (fun i => g (i + 1)%nat)) by (intros; f_equal; lia). replace (1 + (h - 1 + 0))%nat with h by lia. lra.
  - intros i I. rewrite <- (S (i + 1)%nat) by lia. f_equal. lia.
Qed.
Lemma c97 a b : length a = length b -> (2 <= length a)%nat -> Nat.even (length a) = true ->
  exists ys, xcorr_fft (rfft a) (rfft b) = Ok ys /\ length ys = length a /\ forall k, (k < length a)%nat -> nth k ys 0 = IZR (Z.abs (correlation a b k)).
Proof.
  intros LB N2 EV. set (n := length a) in *. apply Nat.even_spec in EV as (h & EH).
  assert (LR : forall v, length (rfft v) = (length v / 2 + 1)%nat) by (intros v; unfold rfft; now rewrite map_length, seq_length).
  assert (HN : (n / 2 = h)%nat) by (rewrite EH, Nat.mul_comm; apply Nat.div_mul; lia).
  set (X := map (fun c => cmul (conj (fst c)) (snd c)) (combine (rfft a) (rfft b))).
  assert (LX : length X = (h + 1)%nat) by (unfold X; rewrite map_length, combine_length, !LR, <- LB; fold n; rewrite HN; lia).
  assert (NX : forall k, (k <= h)%nat -> nth k X (0, 0) = spectrum a b k).
  { intros k K. unfold X. rewrite (nth_indep _ (0, 0) (cmul (conj (fst ((0, 0), (0, 0)))) (snd ((0, 0), (0, 0))))) by (change (k < length X)%nat; rewrite LX; lia).
    rewrite (map_nth (fun c => cmul (conj (fst c)) (snd c))), combine_nth by (rewrite !LR; fold n; now rewrite LB). reflexivity. }
  unfold xcorr_fft. fold X. unfold irfft. rewrite LX. replace (2 * (h + 1 - 1))%nat with n by lia. cbv zeta. replace (n =? 0)%nat with false by (symmetry; apply Nat.eqb_neq; lia). cbn [bind].
  eexists. split; [reflexivity|]. rewrite map_map, map_length, seq_length. split; [reflexivity|]. intros j J.
  match goal with |- nth j (map ?g _) 0 = _ => rewrite (nth_indep _ 0 (g 0%nat)) by (now rewrite map_length, seq_length); rewrite (map_nth g), seq_nth by assumption end.
  cbn [Nat.add]. rewrite abs_IZR. f_equal. assert (N0 : (0 < n)%nat) by lia. assert (NR : INR n <> 0) by (apply not_0_INR; lia).
  pose proof (part_sum a b n eq_refl (eq_sym LB) N0 j) as PS. fold (correlation a b j) in PS.
  replace (correlation a b j) with (sum_below n (fun i => nth i a 0 * nth ((i + j) mod n) b 0)%Z) by reflexivity.
  apply (Rmult_eq_reg_l (INR n)); [|assumption]. rewrite <- PS.
  assert (PX : forall k, (k <= h)%nat -> fst (cmul (nth k X (0, 0)) (expi (2 * PI * INR j * INR k / INR n))) = part a b n j k).
  { intros k K. rewrite NX by assumption. apply part_spectrum; [reflexivity|now symmetry|lia|lia]. }
  replace (h + 1 - 2)%nat with (h - 1)%nat by lia. replace (h + 1 - 1)%nat with h by lia.
  rewrite EH at 3. rewrite half_sum; [|lia|].
  - rewrite <- (PX 0%nat), <- (PX h) by lia.
    rewrite (sumR_ext (h - 1) (fun k => 2 * part a b n j (k + 1)) (fun k => 2 * fst (cmul (nth (k + 1) X (0, 0)) (expi (2 * PI * INR j * INR (k + 1) / INR n))))) by (intros k K; rewrite PX by lia; reflexivity).
    assert (E0 : fst (cmul (nth 0 X (0, 0)) (expi (2 * PI * INR j * INR 0 / INR n))) = fst (nth 0 X (0, 0))).
    { cbn [INR]. replace (2 * PI * INR j * 0 / INR n) with 0 by (field; assumption). unfold cmul, expi. cbn [fst snd]. rewrite cos_0, sin_0. lra. }
    assert (EHH : fst (cmul (nth h X (0, 0)) (expi (2 * PI * INR j * INR h / INR n))) = fst (nth h X (0, 0)) * (if Nat.even j then 1 else -1)).
    { replace (2 * PI * INR j * INR h / INR n) with (PI * INR j) by (rewrite EH, mult_INR; cbn [INR]; field; apply not_0_INR; lia).
      assert (SC : sin (PI * INR j) = 0 /\ cos (PI * INR j) = if Nat.even j then 1 else -1).
      { clear. induction j as [|j IH]; [cbn [INR Nat.even]; rewrite Rmult_0_r; split; [apply sin_0|apply cos_0]|].
        rewrite S_INR. replace (PI * (INR j + 1)) with (PI * INR j + PI) by lra. rewrite neg_sin, neg_cos. destruct IH as [-> ->]. rewrite Nat.even_succ, <- Nat.negb_even. destruct (Nat.even j); cbn [negb]; lra. }
      destruct SC as [S1 S2]. unfold cmul, expi. cbn [fst snd]. rewrite S1, S2. lra. }
    rewrite E0, EHH. field. assumption.
  - intros k K. rewrite <- EH. apply part_mirror; lia.
Qed.
Lemma c97_exact a b : length a = length b -> (2 <= length a)%nat -> Nat.even (length a) = true ->
  xcorr_fft (rfft a) (rfft b) = Ok (map Q2R (exact_xc a b)).
Proof.
  intros L N E. destruct (c97 a b L N E) as (ys & R & LY & V). rewrite R. f_equal.
  assert (LE : length (map Q2R (exact_xc a b)) = length a) by (unfold exact_xc, circular; now rewrite !map_length, seq_length).
  apply (nth_ext _ _ 0 0); [congruence|]. intros k K. rewrite LY in K. rewrite V by assumption.
  unfold exact_xc, circular. rewrite !map_map.
  match goal with |- _ = nth k (map ?g _) 0 => rewrite (nth_indep _ 0 (g 0%nat)) by (now rewrite map_length, seq_length); rewrite (map_nth g), seq_nth by assumption end.
  cbn [Nat.add]. rewrite sumZ_below. unfold Q2R, inject_Z, correlation. cbn [Qnum Qden]. rewrite Rinv_1, Rmult_1_r. reflexivity.
Qed.
Lemma c97_odd a b : length a = length b -> Nat.even (length a) = false ->
  if (length a =? 1)%nat then xcorr_fft (rfft a) (rfft b) = Err ValueError
  else exists ys, xcorr_fft (rfft a) (rfft b) = Ok ys /\ length ys = (length a - 1)%nat.
Proof.
  intros LB EV. set (n := length a) in *.
  assert (OD : Nat.odd n = true) by (rewrite <- Nat.negb_even, EV; reflexivity). apply Nat.odd_spec in OD as (h & EH).
  assert (LR : forall v, length (rfft v) = (length v / 2 + 1)%nat) by (intros v; unfold rfft; now rewrite map_length, seq_length).
  assert (HN : (n / 2 = h)%nat) by (rewrite EH, Nat.add_comm, Nat.mul_comm, Nat.div_add by lia; reflexivity).
  set (X := map (fun c => cmul (conj (fst c)) (snd c)) (combine (rfft a) (rfft b))).
  assert (LX : length X = (h + 1)%nat) by (unfold X; rewrite map_length, combine_length, !LR, <- LB; fold n; rewrite HN; lia).
  unfold xcorr_fft. fold X. unfold irfft. rewrite LX. replace (2 * (h + 1 - 1))%nat with (n - 1)%nat by lia. cbv zeta.
  destruct (n =? 1)%nat eqn:E1.
  - apply Nat.eqb_eq in E1. rewrite E1. reflexivity.
  - apply Nat.eqb_neq in E1. replace (n - 1 =? 0)%nat with false by (symmetry; apply Nat.eqb_neq; lia). cbn [bind].
    eexists. split; [reflexivity|]. now rewrite !map_length, seq_length.
Qed.
(** three bins, a delay of two: the two values are of no delay *)
Lemma c97_three : exists ys, xcorr_fft (rfft [1; 0; 0]%Z) (rfft [0; 0; 1]%Z) = Ok ys /\ ys = [1 / 4; 3 / 4] /\ map (correlation [1; 0; 0]%Z [0; 0; 1]%Z) [0; 1; 2]%nat = [0; 0; 1]%Z.
Proof.
  assert (C3 : cos (2 * PI * 2 / 3) = - / 2 /\ cos (2 * PI / 3) = - / 2).
  { split.
    - replace (2 * PI * 2 / 3) with (PI / 3 + PI) by lra. rewrite neg_cos, cos_PI3. lra.
    - replace (2 * PI / 3) with (- (PI / 3) + PI) by lra. rewrite neg_cos, cos_neg, cos_PI3. lra. }
  eexists. split; [reflexivity|]. split; [|reflexivity].
  cbn [map length seq Nat.div Nat.divmod Nat.sub Nat.add fst snd rfft combine sumR nth cmul conj expi Nat.mul Nat.even].
  repeat match goal with |- context [cos (- ?x)] => rewrite (cos_neg x) | |- context [sin (- ?x)] => rewrite (sin_neg x) end.
  cbn [INR].
  repeat match goal with |- context [cos ?x] => first [replace x with 0 by lra; rewrite cos_0 | replace x with (2 * PI * 2 / 3) by lra; rewrite (proj1 C3)] end.
  repeat match goal with |- context [sin ?x] => first [replace x with 0 by lra; rewrite sin_0 | generalize (sin x); intros ?s] end.
  repeat f_equal; unfold Rabs; repeat destruct (Rcase_abs _); lra.
Qed.
