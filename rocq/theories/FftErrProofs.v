(** The error of a correlation computed by inexact transforms. *)
From Coq Require Import QArith Qabs Qreals Reals Lra Lia Rgeom.
From Verif Require Import Base TimestampsModel UtilsModel UtilsSpec UtilsProofs2 FpfindModel FpfindSpec FftModel FftProofs FftErrSpec PairSpec.
Local Open Scope R_scope.

(** ** Sums and norms *)
Lemma sumR_le n g h : (forall i, (i < n)%nat -> g i <= h i) -> sumR n g <= sumR n h.
Proof. induction n as [|n IH]; intros H; cbn [sumR]; [lra|]. specialize (IH ltac:(auto)). specialize (H n ltac:(lia)). lra. Qed.
Lemma sumR_nonneg n g : (forall i, (i < n)%nat -> 0 <= g i) -> 0 <= sumR n g.
Proof. induction n as [|n IH]; intros H; cbn [sumR]; [lra|]. specialize (IH ltac:(auto)). specialize (H n ltac:(lia)). lra. Qed.
Lemma sumR_term n g i : (forall i, (i < n)%nat -> 0 <= g i) -> (i < n)%nat -> g i <= sumR n g.
Proof.
  induction n as [|n IH]; intros H I; [lia|]. cbn [sumR]. destruct (Nat.eq_dec i n) as [->|NE].
  - pose proof (sumR_nonneg n g ltac:(auto)). lra.
  - specialize (IH ltac:(auto) ltac:(lia)). specialize (H n ltac:(lia)). lra.
Qed.
Lemma sumR_abs n g : Rabs (sumR n g) <= sumR n (fun i => Rabs (g i)).
Proof. induction n as [|n IH]; cbn [sumR]; [rewrite Rabs_R0; lra|]. pose proof (Rabs_triang (sumR n g) (g n)). lra. Qed.
(** norm of a sequence *)
Definition nrm (n : nat) (f : nat -> R) : R := sqrt (sumR n (fun i => f i * f i)).
Lemma squares n f : 0 <= sumR n (fun i => f i * f i).
Proof. apply sumR_nonneg. intros. nra. Qed.
Lemma nrm_sq n f : nrm n f * nrm n f = sumR n (fun i => f i * f i).
Proof. apply sqrt_sqrt, squares. Qed.
Lemma nrm_nonneg n f : 0 <= nrm n f.
Proof. apply sqrt_pos. Qed.
Lemma le_of_squares x y : 0 <= y -> x * x <= y * y -> x <= y.
Proof. intros. nra. Qed.
Lemma cauchy n f g : sumR n (fun i => f i * g i) <= nrm n f * nrm n g.
Proof.
  induction n as [|n IH]; [unfold nrm; cbn [sumR]; rewrite sqrt_0; lra|].
  pose proof (nrm_nonneg n f) as F0. pose proof (nrm_nonneg n g) as G0.
  set (F := nrm n f) in *. set (G := nrm n g) in *. cbn [sumR].
  apply Rle_trans with (F * G + Rabs (f n) * Rabs (g n)).
  { rewrite <- Rabs_mult. pose proof (Rle_abs (f n * g n)). lra. }
  apply le_of_squares; [apply Rmult_le_pos; apply nrm_nonneg|].
  replace (nrm (S n) f * nrm (S n) g * (nrm (S n) f * nrm (S n) g)) with ((nrm (S n) f * nrm (S n) f) * (nrm (S n) g * nrm (S n) g)) by ring.
  rewrite !nrm_sq. cbn [sumR]. rewrite <- !nrm_sq. fold F G.
  assert (SA : forall x, x * x = Rabs x * Rabs x) by (intros x; rewrite <- Rabs_mult, (Rabs_right (x * x)); nra).
  rewrite (SA (f n)), (SA (g n)). set (u := Rabs (f n)). set (v := Rabs (g n)).
  pose proof (Rle_0_sqr (F * v - u * G)) as SQ. unfold Rsqr in SQ. nra.
Qed.
Lemma minkowski n f g h : (forall i, (i < n)%nat -> 0 <= h i /\ h i <= f i + g i) -> nrm n h <= nrm n f + nrm n g.
Proof.
  intros H. pose proof (nrm_nonneg n f) as F0. pose proof (nrm_nonneg n g) as G0.
  apply le_of_squares; [lra|]. rewrite nrm_sq.
  apply Rle_trans with (sumR n (fun i => f i * f i + (2 * (f i * g i) + g i * g i))).
  - apply sumR_le. intros i I. specialize (H i I). nra.
  - rewrite !sumR_plus, sumR_scale, <- !nrm_sq. pose proof (cauchy n f g). nra.
Qed.
Lemma nrm_le n f g : (forall i, (i < n)%nat -> 0 <= f i <= g i) -> nrm n f <= nrm n g.
Proof. intros H. apply sqrt_le_1_alt, sumR_le. intros i I. specialize (H i I). nra. Qed.
Lemma nrm_scale n c f : 0 <= c -> nrm n (fun i => c * f i) = c * nrm n f.
Proof.
  intros C. unfold nrm. rewrite (sumR_ext n _ (fun i => (c * c) * (f i * f i))) by (intros; ring). rewrite sumR_scale, sqrt_mult_alt by nra. rewrite sqrt_square by lra. reflexivity.
Qed.
Lemma nrm_sum n f : (forall i, (i < n)%nat -> 0 <= f i) -> nrm n f <= sumR n f.
Proof.
  intros H. apply le_of_squares; [now apply sumR_nonneg|]. rewrite nrm_sq. induction n as [|n IH]; cbn [sumR]; [lra|].
  specialize (IH ltac:(auto)). pose proof (sumR_nonneg n f ltac:(auto)). specialize (H n ltac:(lia)). nra.
Qed.
Lemma nrm_bounded n f c : 0 <= c -> (forall i, (i < n)%nat -> 0 <= f i <= c) -> nrm n f <= sqrt (INR n) * c.
Proof.
  intros C H. apply Rle_trans with (nrm n (fun i => c * 1)).
  - apply nrm_le. intros i I. specialize (H i I). lra.
  - rewrite (nrm_scale n c (fun _ => 1)) by assumption. rewrite Rmult_comm. apply Rmult_le_compat_r; [assumption|]. unfold nrm. apply sqrt_le_1_alt.
    clear. induction n as [|n IH]; [cbn [sumR INR]; lra|]. rewrite S_INR. cbn [sumR]. lra.
Qed.
Lemma nrm_term n f i : (i < n)%nat -> 0 <= f i -> f i <= nrm n f.
Proof. intros I F. apply le_of_squares; [apply nrm_nonneg|]. rewrite nrm_sq. apply (sumR_term n (fun i => f i * f i)); [intros; nra|assumption]. Qed.
(** ** Complex numbers *)
Lemma size_nonneg z : 0 <= size z.
Proof. apply sqrt_pos. Qed.
Lemma size_sq z : size z * size z = fst z * fst z + snd z * snd z.
Proof. apply sqrt_sqrt. nra. Qed.
Lemma size_mul x y : size (cmul x y) = size x * size y.
Proof. unfold size, cmul. cbn [fst snd]. rewrite <- sqrt_mult_alt by nra. f_equal. ring. Qed.
Lemma size_conj x : size (conj x) = size x.
Proof. unfold size, conj. cbn [fst snd]. f_equal. ring. Qed.
Lemma size_expi t : size (expi t) = 1.
Proof. unfold size, expi. cbn [fst snd]. pose proof (sin2_cos2 t) as E. unfold Rsqr in E. replace (_ + _) with 1 by lra. apply sqrt_1. Qed.
Lemma size_real x : size (real x) = Rabs x.
Proof. unfold size, real. cbn [fst snd]. replace (x * x + 0 * 0) with (Rsqr x) by (unfold Rsqr; ring). apply sqrt_Rsqr_abs. Qed.
Lemma fst_size z : Rabs (fst z) <= size z.
Proof.
  apply le_of_squares; [apply size_nonneg|]. rewrite size_sq, <- Rabs_mult, Rabs_right by nra. nra.
Qed.
Lemma size_add x y : size (fst x + fst y, snd x + snd y) <= size x + size y.
Proof.
  pose proof (size_nonneg x). pose proof (size_nonneg y). apply le_of_squares; [lra|]. rewrite size_sq. cbn [fst snd].
  pose proof (size_sq x) as X. pose proof (size_sq y) as Y.
  assert (fst x * fst y + snd x * snd y <= size x * size y); [|nra].
  rewrite <- (size_conj x), <- size_mul. pose proof (fst_size (cmul (conj x) y)) as F. unfold cmul at 1, conj at 1 2 3 4 in F. cbn [fst snd] in F.
  pose proof (Rle_abs (fst x * fst y - - snd x * snd y)). lra.
Qed.
Lemma size_csub x y z : size (csub x z) <= size (csub x y) + size (csub y z).
Proof. pose proof (size_add (csub x y) (csub y z)) as A. unfold csub in *. cbn [fst snd] in *. replace (fst x - fst z) with (fst x - fst y + (fst y - fst z)) by ring. replace (snd x - snd z) with (snd x - snd y + (snd y - snd z)) by ring. assumption. Qed.
Lemma size_0 : size (0, 0) = 0.
Proof. unfold size. cbn [fst snd]. replace (0 * 0 + 0 * 0) with 0 by ring. apply sqrt_0. Qed.
(** ** Norms of lists *)
Lemma fold_sum (X : list C) : fold_right (fun z s => fst z * fst z + snd z * snd z + s) 0 X = sumR (length X) (fun i => size (nth i X (0, 0)) * size (nth i X (0, 0))).
Proof.
  induction X as [|z X IH]; [reflexivity|]. cbn [fold_right length]. rewrite IH. change (S (length X)) with (1 + length X)%nat. rewrite sumR_split.
  cbn [sumR nth Nat.add]. rewrite size_sq. ring.
Qed.
Lemma norm_nrm X : norm X = nrm (length X) (fun i => size (nth i X (0, 0))).
Proof. unfold norm, nrm. now rewrite fold_sum. Qed.
Lemma relative_nrm eps X Y n : length Y = n -> relative eps X Y ->
  length X = n /\ nrm n (fun i => size (csub (nth i X (0, 0)) (nth i Y (0, 0)))) <= eps * nrm n (fun i => size (nth i Y (0, 0))).
Proof.
  intros L (E & H). split; [congruence|]. rewrite !norm_nrm in H. rewrite map_length, combine_length, E, Nat.min_id, L in H.
  refine (Rle_trans _ _ _ _ H). apply Req_le. unfold nrm. f_equal. apply sumR_ext. intros i I.
  rewrite (nth_indep (map _ _) (0, 0) (csub (fst ((0, 0), (0, 0))) (snd ((0, 0), (0, 0))))) by (rewrite map_length, combine_length; lia).
  rewrite (map_nth (fun c => csub (fst c) (snd c))), combine_nth by assumption. reflexivity.
Qed.
(** ** The exact transforms *)
Lemma length_rfft v : length (rfft v) = (length v / 2 + 1)%nat.
Proof. unfold rfft. now rewrite map_length, seq_length. Qed.
(** half of the spectrum has at most the norm of the whole *)
Lemma parseval h m : length h = (2 * m)%nat -> (1 <= m)%nat ->
  nrm (m + 1) (fun k => size (nth k (rfft h) (0, 0))) <= sqrt (INR (2 * m)) * nrm (2 * m) (fun i => IZR (nth i h 0%Z)).
Proof.
  intros L M1. set (n := (2 * m)%nat) in *. assert (N0 : (0 < n)%nat) by lia. assert (H2 : (n / 2 = m)%nat) by (unfold n; rewrite Nat.mul_comm; apply Nat.div_mul; lia).
  assert (PK : forall k, (k <= m)%nat -> size (nth k (rfft h) (0, 0)) * size (nth k (rfft h) (0, 0)) = part h h n 0 k).
  { intros k K. rewrite <- (part_spectrum h h n L L N0 0 k) by lia. unfold spectrum. rewrite size_sq. cbn [INR].
    replace (2 * PI * 0 * INR k / INR n) with 0 by (unfold Rdiv; ring). unfold cmul, conj, expi. cbn [fst snd]. rewrite cos_0, sin_0. ring. }
  assert (NN : forall k, (k <= m)%nat -> 0 <= part h h n 0 k) by (intros k K; rewrite <- PK by assumption; nra).
  unfold nrm at 2. rewrite <- sqrt_mult_alt by apply pos_INR. apply sqrt_le_1_alt.
  assert (E : INR n * sumR n (fun i => IZR (nth i h 0%Z) * IZR (nth i h 0%Z)) = sumR n (part h h n 0)).
  { rewrite (part_sum h h n L L N0 0). f_equal. rewrite <- sumR_IZR. apply sumR_ext. intros i I. rewrite Nat.add_0_r, Nat.mod_small, mult_IZR by assumption. reflexivity. }
  rewrite E. change (sumR n (part h h n 0)) with (sumR (2 * m) (part h h n 0)). rewrite half_sum; [|assumption|intros k K; apply part_mirror; fold n; lia].
  replace (m + 1)%nat with (1 + ((m - 1) + 1))%nat by lia. rewrite !sumR_split. cbn [sumR]. rewrite sumR_scale.
  replace (1 + (m - 1 + 0))%nat with m by lia. rewrite (PK m), (PK 0%nat) by lia.
  rewrite (sumR_ext (m - 1) _ (fun k => part h h n 0 (k + 1))) by (intros k K; rewrite PK by lia; f_equal; lia).
  pose proof (sumR_nonneg (m - 1) (fun k => part h h n 0 (k + 1)) ltac:(intros; apply NN; lia)) as SN. lra.
Qed.
Lemma Rabs_m1 : Rabs (-1) = 1.
Proof. rewrite Rabs_left; lra. Qed.
Definition value (m : nat) (X : list C) (j : nat) : R :=
  (fst (nth 0 X (0, 0)) + sumR (m - 1) (fun k => 2 * fst (cmul (nth (k + 1) X (0, 0)) (expi (2 * PI * INR j * INR (k + 1) / INR (2 * m)))))
   + fst (nth m X (0, 0)) * (if Nat.even j then 1 else -1)) / INR (2 * m).
Lemma irfft_value m X : length X = (m + 1)%nat -> (1 <= m)%nat -> irfft X = Ok (map (value m X) (seq 0 (2 * m))).
Proof.
  intros L M1. unfold irfft. rewrite L. replace (2 * (m + 1 - 1))%nat with (2 * m)%nat by lia. cbv zeta. replace (2 * m =? 0)%nat with false by (symmetry; apply Nat.eqb_neq; lia).
  replace (m + 1 - 2)%nat with (m - 1)%nat by lia. replace (m + 1 - 1)%nat with m by lia. reflexivity.
Qed.
Lemma Rabs_scale c x : 0 <= c -> Rabs (c * x) = c * Rabs x.
Proof. intros. rewrite Rabs_mult, (Rabs_right c) by lra. reflexivity. Qed.
Lemma value_diff m X Y j : (1 <= m)%nat -> Rabs (value m X j - value m Y j) <= 2 / INR (2 * m) * sumR (m + 1) (fun k => size (csub (nth k X (0, 0)) (nth k Y (0, 0)))).
Proof.
  intros M1. assert (NR : 0 < INR (2 * m)) by (apply lt_0_INR; lia). pose proof (Rinv_0_lt_compat _ NR) as IR.
  set (D := fun k => csub (nth k X (0, 0)) (nth k Y (0, 0))). set (W := fun k => expi (2 * PI * INR j * INR k / INR (2 * m))). set (s := if Nat.even j then 1 else -1).
  assert (SV : Rabs s = 1) by (unfold s; destruct (Nat.even j); [apply Rabs_R1|apply Rabs_m1]).
  replace (value m X j - value m Y j) with (/ INR (2 * m) * (fst (D 0%nat) + (2 * sumR (m - 1) (fun k => fst (cmul (D (k + 1)%nat) (W (k + 1)%nat))) + fst (D m) * s))).
  2:{ unfold value. fold s. rewrite !sumR_scale.
      assert (E : sumR (m - 1) (fun k => fst (cmul (D (k + 1)%nat) (W (k + 1)%nat))) = sumR (m - 1) (fun k => fst (cmul (nth (k + 1) X (0, 0)) (W (k + 1)%nat))) + -1 * sumR (m - 1) (fun k => fst (cmul (nth (k + 1) Y (0, 0)) (W (k + 1)%nat)))).
      { rewrite <- sumR_scale, <- sumR_plus. apply sumR_ext. intros k K. unfold D, cmul, csub. cbn [fst snd]. ring. }
      rewrite E. unfold W, D, csub. cbn [fst snd]. field. lra. }
  rewrite Rabs_scale by lra. set (SS := sumR (m + 1) _). replace (2 / INR (2 * m) * SS) with (/ INR (2 * m) * (2 * SS)) by (field; lra). apply Rmult_le_compat_l; [lra|]. unfold SS.
  replace (m + 1)%nat with (1 + ((m - 1) + 1))%nat by lia. rewrite !sumR_split. cbn [sumR]. replace (1 + (m - 1 + 0))%nat with m by lia.
  assert (A0 : Rabs (fst (D 0%nat)) <= size (D 0%nat)) by apply fst_size.
  assert (AM : Rabs (fst (D m) * s) <= size (D m)) by (rewrite Rabs_mult, SV, Rmult_1_r; apply fst_size).
  assert (AS : Rabs (sumR (m - 1) (fun k => fst (cmul (D (k + 1)%nat) (W (k + 1)%nat)))) <= sumR (m - 1) (fun k => size (D (1 + k)%nat))).
  { eapply Rle_trans; [apply sumR_abs|]. apply sumR_le. intros k K. eapply Rle_trans; [apply fst_size|]. rewrite size_mul. unfold W at 1. rewrite size_expi, Nat.add_comm. lra. }
  assert (PT : forall x y z, Rabs (x + (2 * y + z)) <= Rabs x + 2 * Rabs y + Rabs z).
  { intros x y z. pose proof (Rabs_triang x (2 * y + z)) as T1. pose proof (Rabs_triang (2 * y) z) as T2. rewrite (Rabs_scale 2 y) in T2 by lra. lra. }
  eapply Rle_trans; [apply PT|]. pose proof (size_nonneg (D 0%nat)). pose proof (size_nonneg (D m)). fold (D 0%nat) (D m).
  pose proof AS as AS'. change (sumR (m - 1) (fun k => size (csub (nth (1 + k) X (0, 0)) (nth (1 + k) Y (0, 0))))) with (sumR (m - 1) (fun k => size (D (1 + k)%nat))) in *.
  set (S := sumR (m - 1) (fun k => size (D (1 + k)%nat))) in *. change (sumR (m - 1) (fun i => size (csub (nth (1 + i) X (0, 0)) (nth (1 + i) Y (0, 0))))) with S.
  change (size (csub (nth 0 X (0, 0)) (nth 0 Y (0, 0)))) with (size (D 0%nat)). change (size (csub (nth m X (0, 0)) (nth m Y (0, 0)))) with (size (D m)). lra.
Qed.
(** ** The correlation of two histograms *)
Lemma rotate n g i : (i < n)%nat -> sumR n (fun j => g ((i + j) mod n)%nat) = sumR n g.
Proof.
  intros I. replace n with ((n - i) + i)%nat at 1 by lia. rewrite sumR_split. replace (sumR n g) with (sumR (i + (n - i)) g) by (f_equal; lia). rewrite sumR_split, Rplus_comm. f_equal.
  - apply sumR_ext. intros j J. f_equal. replace (i + (n - i + j))%nat with (j + 1 * n)%nat by lia. rewrite Nat.mod_add, Nat.mod_small by lia. reflexivity.
  - apply sumR_ext. intros j J. f_equal. apply Nat.mod_small. lia.
Qed.
Lemma correlation_sum a b n : length a = n -> length b = n ->
  sumR n (fun j => IZR (correlation a b j)) = sumR n (fun i => IZR (nth i a 0%Z)) * sumR n (fun i => IZR (nth i b 0%Z)).
Proof.
  intros LA LB. rewrite (sumR_ext n _ (fun j => sumR n (fun i => IZR (nth i a 0%Z) * IZR (nth ((i + j) mod n) b 0%Z)))).
  2:{ intros j J. unfold correlation. rewrite LA, <- sumR_IZR. apply sumR_ext. intros i I. apply mult_IZR. }
  rewrite sumR_swap, sumR_mul. apply sumR_ext. intros i I. rewrite !sumR_scale. f_equal. apply (rotate n (fun k => IZR (nth k b 0%Z))). assumption.
Qed.
Lemma events_sum h : sumR (length h) (fun i => IZR (nth i h 0%Z)) = IZR (events_of h).
Proof.
  induction h as [|v h IH]; [reflexivity|]. cbn [length]. change (S (length h)) with (1 + length h)%nat. rewrite sumR_split. cbn [sumR nth Nat.add events_of fold_right]. fold (events_of h). rewrite plus_IZR, <- IH. ring.
Qed.
Lemma norm_of_nrm h : norm_of h = nrm (length h) (fun i => IZR (nth i h 0%Z)).
Proof.
  unfold norm_of. rewrite norm_nrm, map_length. unfold nrm. f_equal. apply sumR_ext. intros i I.
  rewrite (nth_indep _ (0, 0) (real (IZR 0))) by (now rewrite map_length). rewrite (map_nth (fun v => real (IZR v))), size_sq. cbn [real fst snd]. ring.
Qed.
Lemma nonneg_nth h i : Forall (fun v => 0 <= v)%Z h -> (0 <= nth i h 0)%Z.
Proof. intros F. destruct (Nat.lt_ge_cases i (length h)) as [L|L]; [|rewrite nth_overflow by lia; lia]. exact (proj1 (Forall_forall _ _) F _ (nth_In _ _ L)). Qed.
(** ** The error *)
Section Error.
Variables (eps mu : R) (n a b : Z) (T : transforms) (M : fpu).
Hypotheses (E0 : 0 <= eps) (M0 : 0 <= mu) (GT : good_transforms eps mu n a b T) (US : uses T n a b M) (EV : Z.even n = true) (N2 : (2 <= n)%Z).
Variables (h k : list Z).
Hypotheses (HH : histogram_of n a h) (HK : histogram_of n b k).
Let m := Z.to_nat (n / 2).
Lemma m_n : (1 <= m)%nat /\ Z.to_nat n = (2 * m)%nat /\ length h = (2 * m)%nat /\ length k = (2 * m)%nat.
Proof.
  destruct HH as (LH & _). destruct HK as (LK & _). unfold len in *. apply Z.even_spec in EV as (q & Q). unfold m.
  assert (n / 2 = q)%Z by (rewrite Q, Z.mul_comm; apply Z.div_mul; lia). lia.
Qed.
Let A i := nth i (rfft h) (0, 0).
Let B i := nth i (rfft k) (0, 0).
Let A' i := nth i (c_rfft T h) (0, 0).
Let B' i := nth i (c_rfft T k) (0, 0).
Lemma nrm_pos N f : 0 <= nrm N f. Proof. apply sqrt_pos. Qed.
(** the products *)
Lemma products_error : sumR (m + 1) (fun i => size (csub (c_mul T (conj (A' i)) (B' i)) (cmul (conj (A i)) (B i)))) <=
  spectrum_error eps mu * (nrm (m + 1) (fun i => size (A i)) * nrm (m + 1) (fun i => size (B i))) /\
  length (c_rfft T h) = (m + 1)%nat /\ length (c_rfft T k) = (m + 1)%nat.
Proof.
  destruct m_n as (M1 & MN & LH & LK). destruct GT as (GR & GM & _).
  assert (H2 : (2 * m / 2 = m)%nat) by (rewrite Nat.mul_comm; apply Nat.div_mul; lia).
  assert (HH' : histogram_of n (Z.max a b) h) by (destruct HH as (x & y & z); repeat split; [assumption..|lia]).
  assert (HK' : histogram_of n (Z.max a b) k) by (destruct HK as (x & y & z); repeat split; [assumption..|lia]).
  destruct (relative_nrm eps (c_rfft T h) (rfft h) (m + 1)%nat) as (LA & RA); [rewrite length_rfft, LH, H2; reflexivity|now apply GR|].
  destruct (relative_nrm eps (c_rfft T k) (rfft k) (m + 1)%nat) as (LB & RB); [rewrite length_rfft, LK, H2; reflexivity|now apply GR|].
  split; [|split; assumption].
  set (nA := nrm (m + 1) (fun i => size (A i))) in *. set (nB := nrm (m + 1) (fun i => size (B i))) in *.
  fold A' B' in RA, RB. change (nrm (m + 1) (fun i => size (csub (A' i) (A i))) <= eps * nA) in RA. change (nrm (m + 1) (fun i => size (csub (B' i) (B i))) <= eps * nB) in RB.
  set (dA := nrm (m + 1) (fun i => size (csub (A' i) (A i)))) in *. set (dB := nrm (m + 1) (fun i => size (csub (B' i) (B i)))) in *.
  assert (TR : forall x y, 0 <= size x /\ size x <= size (csub x y) + size y).
  { intros x y. split; [apply size_nonneg|]. pose proof (size_add (csub x y) y) as Q. unfold csub in Q. cbn [fst snd] in Q.
    replace (fst x - fst y + fst y) with (fst x) in Q by ring. replace (snd x - snd y + snd y) with (snd x) in Q by ring. destruct x. exact Q. }
  assert (NA' : nrm (m + 1) (fun i => size (A' i)) <= (1 + eps) * nA) by (apply Rle_trans with (dA + nA); [apply minkowski; intros i _; apply TR|lra]).
  assert (NB' : nrm (m + 1) (fun i => size (B' i)) <= (1 + eps) * nB) by (apply Rle_trans with (dB + nB); [apply minkowski; intros i _; apply TR|lra]).
  apply Rle_trans with (sumR (m + 1) (fun i => mu * (size (A' i) * size (B' i)) + (size (csub (A' i) (A i)) * size (B' i) + size (A i) * size (csub (B' i) (B i))))).
  { apply sumR_le. intros i _. eapply Rle_trans; [apply (size_csub _ (cmul (conj (A' i)) (B' i)))|]. apply Rplus_le_compat; [rewrite <- (size_conj (A' i)); apply GM|].
    eapply Rle_trans; [apply (size_csub _ (cmul (conj (A i)) (B' i)))|]. apply Req_le. f_equal.
    - rewrite <- (size_conj (csub (A' i) (A i))), <- size_mul. f_equal. unfold csub, cmul, conj. cbn [fst snd]. f_equal; ring.
    - rewrite <- (size_conj (A i)), <- size_mul. f_equal. unfold csub, cmul, conj. cbn [fst snd]. f_equal; ring. }
  rewrite !sumR_plus, sumR_scale.
  pose proof (cauchy (m + 1) (fun i => size (A' i)) (fun i => size (B' i))) as C1. pose proof (cauchy (m + 1) (fun i => size (csub (A' i) (A i))) (fun i => size (B' i))) as C2.
  pose proof (cauchy (m + 1) (fun i => size (A i)) (fun i => size (csub (B' i) (B i)))) as C3. cbv beta in C1, C2, C3. fold nA dA dB in C1, C2, C3.
  assert (PA : 0 <= nA) by apply nrm_nonneg. assert (PB : 0 <= nB) by apply nrm_nonneg. assert (PdA : 0 <= dA) by apply nrm_nonneg. assert (PdB : 0 <= dB) by apply nrm_nonneg.
  pose proof (nrm_nonneg (m + 1) (fun i => size (A' i))) as PA'. pose proof (nrm_nonneg (m + 1) (fun i => size (B' i))) as PB'.
  assert (B1 : nrm (m + 1) (fun i => size (A' i)) * nrm (m + 1) (fun i => size (B' i)) <= ((1 + eps) * nA) * ((1 + eps) * nB)) by (apply Rmult_le_compat; assumption).
  assert (B2 : dA * nrm (m + 1) (fun i => size (B' i)) <= (eps * nA) * ((1 + eps) * nB)) by (apply Rmult_le_compat; assumption).
  assert (B3 : nA * dB <= nA * (eps * nB)) by (apply Rmult_le_compat_l; assumption).
  assert (B4 : mu * sumR (m + 1) (fun i => size (A' i) * size (B' i)) <= mu * (((1 + eps) * nA) * ((1 + eps) * nB))) by (apply Rmult_le_compat_l; [assumption|lra]).
  unfold spectrum_error. 
  replace ((mu * (1 + eps) * (1 + eps) + eps * (1 + eps) + eps) * (nA * nB)) with (mu * ((1 + eps) * nA * ((1 + eps) * nB)) + (eps * nA * ((1 + eps) * nB) + nA * (eps * nB))) by ring.
  lra.
Qed.
Lemma error_nonneg : 0 <= spectrum_error eps mu.
Proof. unfold spectrum_error. assert (0 <= mu * (1 + eps)) by nra. assert (0 <= mu * (1 + eps) * (1 + eps)) by nra. nra. Qed.
Lemma correlation_nonneg j : 0 <= IZR (correlation h k j).
Proof.
  apply (IZR_le 0). destruct HH as (_ & FH & _). destruct HK as (_ & FK & _). unfold correlation.
  enough (Q : forall N g, (forall i, 0 <= g i)%Z -> (0 <= sum_below N g)%Z) by (apply Q; intros i; apply Z.mul_nonneg_nonneg; now apply nonneg_nth).
  clear. induction N as [|N IH]; intros g G; cbn [sum_below]; [lia|]. specialize (IH g G). specialize (G N). lia.
Qed.
Lemma result_bound : length (xc M h k) = length h /\ forall i, (i < length h)%nat ->
  Rabs (Q2R (nth i (xc M h k) 0%Q) - IZR (correlation h k i)) <= result_error eps mu n (events_of h) (events_of k) (norm_of h) (norm_of k).
Proof.
  destruct m_n as (M1 & MN & LH & LK). destruct products_error as (PE & LA & LB). pose proof error_nonneg as EN.
  set (N := (2 * m)%nat) in *. assert (NR : 0 < INR N) by (apply lt_0_INR; lia).
  assert (H2 : (N / 2 = m)%nat) by (unfold N; rewrite Nat.mul_comm; apply Nat.div_mul; lia).
  set (P := map (fun c => cmul (conj (fst c)) (snd c)) (combine (rfft h) (rfft k))).
  assert (LP : length P = (m + 1)%nat) by (unfold P; rewrite map_length, combine_length, !length_rfft, LH, LK, H2; lia).
  assert (LP' : length (c_product T h k) = (m + 1)%nat) by (unfold c_product; rewrite map_length, combine_length, LA, LB; lia).
  assert (NP : forall i, (i < m + 1)%nat -> nth i P (0, 0) = cmul (conj (A i)) (B i)).
  { intros i I. unfold P. rewrite (nth_indep _ (0, 0) (cmul (conj (fst ((0, 0), (0, 0)))) (snd ((0, 0), (0, 0))))) by (change (i < length P)%nat; lia).
    rewrite (map_nth (fun c => cmul (conj (fst c)) (snd c))), combine_nth by (rewrite !length_rfft, LH, LK; reflexivity). reflexivity. }
  assert (NP' : forall i, (i < m + 1)%nat -> nth i (c_product T h k) (0, 0) = c_mul T (conj (A' i)) (B' i)).
  { intros i I. unfold c_product. rewrite (nth_indep _ (0, 0) (c_mul T (conj (fst ((0, 0), (0, 0)))) (snd ((0, 0), (0, 0))))) by (change (i < length (c_product T h k))%nat; lia).
    rewrite (map_nth (fun c => c_mul T (conj (fst c)) (snd c))), combine_nth by exact (eq_trans LA (eq_sym LB)). reflexivity. }
  (* the exact inverse of the exact products *)
  assert (RV : forall j, (j < N)%nat -> Rabs (value m P j) = IZR (correlation h k j)).
  { intros j J. destruct (c97 h k ltac:(congruence) ltac:(lia) ltac:(rewrite LH; apply Nat.even_spec; exists m; reflexivity)) as (ys & XE & LY & V).
    unfold xcorr_fft in XE. fold P in XE. rewrite (irfft_value m P LP M1) in XE. cbn [bind] in XE. fold N in XE. assert (YE : ys = map Rabs (map (value m P) (seq 0 N))) by (injection XE as XE; symmetry; exact XE).
    specialize (V j ltac:(lia)). rewrite YE, map_map in V.
    rewrite (nth_indep _ 0 (Rabs (value m P 0))) in V by (now rewrite map_length, seq_length). rewrite (map_nth (fun x => Rabs (value m P x))), seq_nth in V by assumption.
    cbn [Nat.add] in V. rewrite V, abs_IZR. apply Rabs_right. apply Rle_ge, correlation_nonneg. }
  set (c := 2 * spectrum_error eps mu * (norm_of h * norm_of k)).
  assert (XN : 0 <= norm_of h) by apply sqrt_pos. assert (YN : 0 <= norm_of k) by apply sqrt_pos.
  assert (C0 : 0 <= c) by (unfold c; apply Rmult_le_pos; [lra|now apply Rmult_le_pos]).
  (* first the products *)
  assert (D1 : forall j, Rabs (value m (c_product T h k) j - value m P j) <= c).
  { intros j. eapply Rle_trans; [apply value_diff; assumption|]. fold N.
    rewrite (sumR_ext (m + 1) _ (fun i => size (csub (c_mul T (conj (A' i)) (B' i)) (cmul (conj (A i)) (B i))))) by (intros i I; rewrite NP, NP' by assumption; reflexivity).
    pose proof (parseval h m LH M1) as PA. pose proof (parseval k m LK M1) as PB. fold N in PA, PB. 
    pose proof (norm_of_nrm h) as NH. pose proof (norm_of_nrm k) as NK. rewrite LH in NH. rewrite LK in NK. fold N in NH, NK. rewrite <- NH in PA. rewrite <- NK in PB.
    fold A in PA. fold B in PB.
    change (nrm (m + 1) (fun i => size (A i)) <= sqrt (INR N) * norm_of h) in PA. change (nrm (m + 1) (fun i => size (B i)) <= sqrt (INR N) * norm_of k) in PB.
    assert (PP : nrm (m + 1) (fun i => size (A i)) * nrm (m + 1) (fun i => size (B i)) <= INR N * (norm_of h * norm_of k)).
    { rewrite <- (sqrt_sqrt (INR N)) by lra. replace (sqrt (INR N) * sqrt (INR N) * (norm_of h * norm_of k)) with (sqrt (INR N) * norm_of h * (sqrt (INR N) * norm_of k)) by ring.
      apply Rmult_le_compat; [apply nrm_nonneg|apply nrm_nonneg|assumption|assumption]. }
    pose proof (Rmult_le_compat_l _ _ _ EN PP) as PQ. 
    replace c with (2 / INR N * (spectrum_error eps mu * (INR N * (norm_of h * norm_of k)))) by (unfold c; field; lra).
    apply Rmult_le_compat_l; [apply Rlt_le, Rdiv_lt_0_compat; lra|]. lra. }
  (* then the inverse *)
  pose proof (proj2 (proj2 GT) h k _ HH HK (irfft_value m _ LP' M1)) as RI. fold N in RI.
  apply (relative_nrm _ _ _ N) in RI as (LI & RI); [|rewrite !map_length, seq_length; reflexivity]. rewrite map_length in LI.
  set (r := c_irfft T (c_product T h k)) in *.
  assert (RN : forall i, (i < N)%nat -> nth i (map real (map (value m (c_product T h k)) (seq 0 N))) (0, 0) = real (value m (c_product T h k) i)).
  { intros i I. rewrite map_map. rewrite (nth_indep _ (0, 0) (real (value m (c_product T h k) 0))) by (now rewrite map_length, seq_length). rewrite (map_nth (fun x => real (value m (c_product T h k) x))), seq_nth by assumption. reflexivity. }
  assert (RR : forall i, (i < N)%nat -> nth i (map real r) (0, 0) = real (nth i r 0)).
  { intros i I. rewrite (nth_indep _ (0, 0) (real 0)) by (rewrite map_length; lia). apply map_nth. }
  assert (RI' : nrm N (fun i => Rabs (nth i r 0 - value m (c_product T h k) i)) <= eps * nrm N (fun i => Rabs (value m (c_product T h k) i))).
  { eapply Rle_trans; [|eapply Rle_trans; [exact RI|]]; apply Req_le.
    - unfold nrm. f_equal. apply sumR_ext. intros i I. rewrite RN, RR by assumption. unfold csub, real. cbn [fst snd]. rewrite Rminus_0_r. change (?x, 0) with (real x). rewrite size_real. reflexivity.
    - f_equal. unfold nrm. f_equal. apply sumR_ext. intros i I. rewrite RN by assumption. rewrite size_real. reflexivity. }
  assert (NV : nrm N (fun i => Rabs (value m (c_product T h k) i)) <= IZR (events_of h) * IZR (events_of k) + sqrt (INR N) * c).
  { apply Rle_trans with (nrm N (fun i => IZR (correlation h k i)) + nrm N (fun i => c)).
    - apply minkowski. intros i I. split; [apply Rabs_pos|]. rewrite <- RV by assumption. specialize (D1 i).
      pose proof (Rabs_triang_inv (value m (c_product T h k) i) (value m P i)). lra.
    - apply Rplus_le_compat.
      + eapply Rle_trans; [apply nrm_sum; intros; apply correlation_nonneg|]. rewrite (correlation_sum h k N LH LK). rewrite <- LH at 1. rewrite <- LK, !events_sum. apply Req_le. reflexivity.
      + apply nrm_bounded; [assumption|intros; lra]. }
  assert (LX : length (xc M h k) = N) by (pose proof (f_equal (@length R) (US h k HH HK)) as Q; rewrite !map_length in Q; fold r in Q; congruence).
  split; [congruence|]. rewrite LH. intros i I.
  assert (XV : Q2R (nth i (xc M h k) 0%Q) = Rabs (nth i r 0)).
  { pose proof (f_equal (fun l => nth i l 0) (US h k HH HK)) as Q. cbv beta in Q. fold r in Q. rewrite (nth_indep (map Q2R _) 0 (Q2R 0)) in Q by (rewrite map_length; lia).
    rewrite map_nth in Q. rewrite (nth_indep (map Rabs _) 0 (Rabs 0)) in Q by (rewrite map_length; lia). rewrite map_nth in Q. exact Q. }
  rewrite XV, <- RV by assumption.
  apply Rle_trans with (Rabs (nth i r 0 - value m P i)).
  { apply Rabs_le. pose proof (Rabs_triang_inv (nth i r 0) (value m P i)). pose proof (Rabs_triang_inv (value m P i) (nth i r 0)) as Q. rewrite (Rabs_minus_sym (value m P i)) in Q. lra. }
  replace (nth i r 0 - value m P i) with ((nth i r 0 - value m (c_product T h k) i) + (value m (c_product T h k) i - value m P i)) by ring.
  eapply Rle_trans; [apply Rabs_triang|]. specialize (D1 i).
  pose proof (nrm_term N (fun i => Rabs (nth i r 0 - value m (c_product T h k) i)) i I (Rabs_pos _)) as TM. cbv beta in TM.
  pose proof (Rmult_le_compat_l eps _ _ E0 NV) as EE.
  unfold result_error. fold c. replace (IZR n) with (INR N) by (rewrite INR_IZR_INZ; f_equal; lia). lra.
Qed.
End Error.
(** ** For all histograms *)
Lemma Q2R_abs q : Q2R (Qabs q) = Rabs (Q2R q).
Proof.
  destruct (Qlt_le_dec q 0) as [N|P].
  - rewrite (Qeq_eqR _ _ (Qabs_neg q (Qlt_le_weak _ _ N))), Q2R_opp. apply Qlt_Rlt in N. unfold Q2R at 2 in N. cbn [Qnum Qden] in N. rewrite Rabs_left by lra. reflexivity.
  - rewrite (Qeq_eqR _ _ (Qabs_pos q P)). apply Qle_Rle in P. unfold Q2R at 1 in P. cbn [Qnum Qden] in P. rewrite Rabs_right by lra. reflexivity.
Qed.
Lemma error_mono eps mu n a b a' b' x y x' y' : 0 <= eps -> 0 <= mu -> (0 <= a <= a')%Z -> (0 <= b <= b')%Z -> 0 <= x <= x' -> 0 <= y <= y' ->
  result_error eps mu n a b x y <= result_error eps mu n a' b' x' y'.
Proof.
  intros E M A B X Y. pose proof (error_nonneg eps mu E M) as S. unfold result_error.
  assert (XY : x * y <= x' * y') by (apply Rmult_le_compat; lra). pose proof (Rmult_le_compat_l (2 * spectrum_error eps mu) _ _ ltac:(lra) XY) as C.
  assert (AB : IZR a * IZR b <= IZR a' * IZR b') by (apply Rmult_le_compat; try apply (IZR_le 0); try apply IZR_le; lia).
  pose proof (Rmult_le_compat_l (sqrt (IZR n)) _ _ (sqrt_pos _) C) as C2. pose proof (Rmult_le_compat_l eps _ _ E (Rplus_le_compat _ _ _ _ AB C2)) as C3. lra.
Qed.
Lemma events_nonneg h : Forall (fun v => 0 <= v)%Z h -> (0 <= events_of h)%Z.
Proof. induction 1 as [|v h V _ IH]; cbn [events_of fold_right]; [lia|]. fold (events_of h). lia. Qed.
Lemma norm_events h : Forall (fun v => 0 <= v)%Z h -> 0 <= norm_of h <= IZR (events_of h).
Proof. intros F. split; [apply sqrt_pos|]. rewrite norm_of_nrm, <- events_sum. apply nrm_sum. intros i _. apply (IZR_le 0). now apply nonneg_nth. Qed.
Lemma all_histograms eps mu n a b T M e : 0 <= eps -> 0 <= mu -> good_transforms eps mu n a b T -> uses T n a b M -> Z.even n = true -> (2 <= n)%Z ->
  result_error eps mu n a b (IZR a) (IZR b) <= Q2R e -> accurate_to e n a b M.
Proof.
  intros E0 M0 GT US EV N2 RE h k HH HK. destruct (result_bound eps mu n a b T M E0 M0 GT US EV N2 h k HH HK) as (L & B). split; [assumption|]. intros i I. specialize (B i I).
  destruct HH as (LH & FH & SH). destruct HK as (LK & FK & SK). fold (events_of h) in SH. fold (events_of k) in SK.
  pose proof (norm_events h FH) as NH. pose proof (norm_events k FK) as NK. pose proof (events_nonneg h FH) as PH. pose proof (events_nonneg k FK) as PK.
  pose proof (IZR_le _ _ SH) as SHR. pose proof (IZR_le _ _ SK) as SKR.
  assert (MO : result_error eps mu n (events_of h) (events_of k) (norm_of h) (norm_of k) <= result_error eps mu n a b (IZR a) (IZR b)) by (apply error_mono; try assumption; lra || lia).
  apply Rle_Qle. rewrite Q2R_abs. rewrite Q2R_minus. replace (Q2R (inject_Z (correlation h k i))) with (IZR (correlation h k i)) by (unfold Q2R, inject_Z; cbn [Qnum Qden]; rewrite Rinv_1; ring). lra.
Qed.
