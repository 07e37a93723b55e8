(** Transforms with a relative error of 2^-40, and a run with them. *)
From Coq Require Import QArith Qabs Qreals Reals Lra Lia.
From Verif Require Import Float Base TimestampsModel TimestampsSpec UtilsModel UtilsSpec FpfindModel FpfindSpec FpfindRefute FftModel FftProofs FftErrSpec FftErrProofs PairSpec
  MainModel MainSpec2 AccuracySpec SwapSpec SwapCheck ExistSpec ExistCheck ExistCase SkipSpec.
From Verif Require ExistProofs.
Local Open Scope R_scope.

Definition cscale (s : R) (z : C) : C := (s * fst z, s * snd z).
(** both transforms too large by the factor [s] *)
Definition scaled (s : R) : transforms :=
  mkTransforms (fun h => map (cscale s) (rfft h)) cmul (fun X => match irfft X with Ok ys => map (Rmult s) ys | Err _ => [] end).
Definition scaled_xc (s : Q) (a b : list Z) : list Q := map (fun x => Qred (s * x * s * s)) (exact_xc a b).
Lemma relative_scaled s X : 1 <= s -> relative (s - 1) (map (cscale s) X) X.
Proof.
  intros S. split; [apply map_length|]. apply Req_le. unfold norm.
  assert (E : fold_right (fun z t => fst z * fst z + snd z * snd z + t) 0 (map (fun c => csub (fst c) (snd c)) (combine (map (cscale s) X) X)) = (s - 1) * (s - 1) * fold_right (fun z t => fst z * fst z + snd z * snd z + t) 0 X).
  { induction X as [|z X IH]; cbn [map combine fold_right]; [ring|]. rewrite IH. unfold csub, cscale. cbn [fst snd]. ring. }
  rewrite E, sqrt_mult_alt by nra. rewrite sqrt_square by lra. reflexivity.
Qed.
Lemma csub_same x : size (csub x x) = 0.
Proof. unfold csub. rewrite !Rminus_diag_eq by reflexivity. apply size_0. Qed.
Lemma real_scaled s ys : map real (map (Rmult s) ys) = map (cscale s) (map real ys).
Proof. rewrite !map_map. apply map_ext. intros y. unfold real, cscale. cbn [fst snd]. f_equal. ring. Qed.
Lemma scaled_good s n a b : 1 <= s -> good_transforms (s - 1) 0 n a b (scaled s).
Proof.
  intros S. split; [|split].
  - intros h _. now apply relative_scaled.
  - intros x y. cbn [c_mul scaled]. rewrite csub_same. lra.
  - intros h k ys _ _ E. cbn [c_irfft scaled]. rewrite E, real_scaled. now apply relative_scaled.
Qed.
Lemma value_scaled m s (X Y : list C) j : (forall i, nth i X ((0, 0) : C) = cscale s (nth i Y ((0, 0) : C))) -> value m X j = s * value m Y j.
Proof.
  intros H. unfold value. rewrite !H, !sumR_scale. rewrite (sumR_ext (m - 1) _ (fun k => s * fst (cmul (nth (k + 1) Y (0, 0)) (expi (2 * PI * INR j * INR (k + 1) / INR (2 * m)))))).
  - rewrite sumR_scale. cbn [cscale fst]. unfold Rdiv. ring.
  - intros k _. rewrite H. unfold cmul, cscale. cbn [fst snd]. ring.
Qed.
Lemma product_scaled s h k : c_product (scaled s) h k = map (cscale (s * s)) (map (fun c => cmul (conj (fst c)) (snd c)) (combine (rfft h) (rfft k))).
Proof.
  unfold c_product. cbn [c_mul c_rfft scaled]. generalize (rfft h) (rfft k). intros X. induction X as [|x X IH]; intros Y; [reflexivity|]. destruct Y as [|y Y]; [reflexivity|].
  cbn [map combine fst snd]. f_equal; [|apply IH]. unfold cmul, conj, cscale. cbn [fst snd]. f_equal; ring.
Qed.
Lemma scaled_uses q n a b M : xc M = scaled_xc q -> (1 <= q)%Q -> Z.even n = true -> (2 <= n)%Z -> uses (scaled (Q2R q)) n a b M.
Proof.
  intros X Q EV N2 h k HH HK. rewrite X. set (s := Q2R q). assert (S : 1 <= s) by (apply Qle_Rle in Q; unfold Q2R at 1 in Q; cbn [Qnum Qden] in Q; unfold s; lra).
  destruct (m_n n a b EV N2 h k HH HK) as (M1 & MN & LH & LK). set (m := Z.to_nat (n / 2)) in *.
  assert (LP : length (map (fun c => cmul (conj (fst c)) (snd c)) (combine (rfft h) (rfft k))) = (m + 1)%nat).
  { rewrite map_length, combine_length, !length_rfft, LH, LK. rewrite (Nat.mul_comm 2), Nat.div_mul by lia. lia. }
  pose proof (c97_exact h k ltac:(congruence) ltac:(lia) ltac:(rewrite LH; apply Nat.even_spec; exists m; reflexivity)) as XE. unfold xcorr_fft in XE.
  rewrite (irfft_value m _ LP M1) in XE. cbn [bind] in XE. injection XE as XE.
  rewrite product_scaled. cbn [c_irfft scaled]. rewrite (irfft_value m) by (rewrite ?map_length in *; assumption).
  unfold scaled_xc. rewrite map_map. transitivity (map (fun y => s * s * s * y) (map Q2R (exact_xc h k))).
  { rewrite map_map. apply map_ext. intros y. rewrite (Qeq_eqR _ _ (Qred_correct _)), !Q2R_mult. fold s. ring. }
  set (P := map (fun c => cmul (conj (fst c)) (snd c)) (combine (rfft h) (rfft k))) in *.
  rewrite <- XE, !map_map. apply map_ext. intros j. rewrite (value_scaled m (s * s) (map (cscale (s * s)) P) P).
  - assert (0 <= s * s) by nra. assert (0 <= s * (s * s)) by nra. rewrite <- (Rmult_assoc s (s * s)), Rabs_mult, (Rabs_right (s * (s * s))) by lra. ring.
  - intros i. rewrite <- (map_nth (cscale (s * s))). apply f_equal. unfold cscale. cbn [fst snd]. f_equal; ring.
Qed.
(** the recordings of C112 *)
Definition S138 : Q := 1 + (1 # 2 ^ 40).
(** the significance of the numbers rounded to whole ones *)
Definition whole_zs (m : Q) (bg : list Q) : Q := let w x := inject_Z (Qround.Qfloor (x + (1 # 2))) in exact_zs (w m) (map w bg).
Definition M138 : fpu := mkFpu (fl 64) (fl 53) (scaled_xc S138) whole_zs.
Lemma stand138 : stand_out (1 # 1000) M138 P112 A112 B112 65536 (inject_Z D112) (1 # 16384) 1 8519680.
Proof. apply (stand_out_ok 4); vm_compute; reflexivity. Qed.
Lemma reach138 : within_reach M138 P112 A112 B112 65536 (inject_Z D112) (1 # 16384) 1 8519680.
Proof. apply (within_reach_ok 4). vm_compute. reflexivity. Qed.
Lemma significant138 : significant M138 P112 A112 B112 65536.
Proof. apply significant_ok. vm_compute. reflexivity. Qed.
Lemma surely138 : ends_surely M138 P112 65536.
Proof. split; vm_compute; [reflexivity|discriminate]. Qed.
Lemma must138 : must_find (1 # 1000) M138 o112 A112 B112 (inject_Z D112) (1 # 16384) 1 8519680.
Proof. split; [exact surely138|]. split; [exact (ExistProofs.singly_out _ _ _ _ _ _ _ _ _ _ stand138)|]. split; [exact reach138|exact significant138]. Qed.
Lemma good_xc138 : good_xc M138.
Proof. intros h k L _. cbn [xc M138]. unfold scaled_xc, exact_xc, circular. now rewrite !map_length, seq_length. Qed.
Lemma good_zs138 : good_zs M138.
Proof. intros m b. exact (FpfindProofs4.exact_good_zs (fl 64) (fl 53) (inject_Z (Qround.Qfloor (m + (1 # 2)))) (inject_Z (Qround.Qfloor (b + (1 # 2))))). Qed.
Lemma S138_1 : Q2R S138 - 1 = / 1099511627776.
Proof. unfold S138. rewrite Q2R_plus. unfold Q2R. cbn [Qnum Qden]. change (Z.pos (2 ^ 40)) with 1099511627776%Z. lra. Qed.
Lemma error138 : result_error (Q2R S138 - 1) 0 (2 ^ 7) 10 10 10 10 <= Q2R (1 # 1000).
Proof.
  rewrite S138_1. unfold result_error, spectrum_error. change (2 ^ 7)%Z with 128%Z.
  assert (SQ : 0 <= sqrt 128 <= 12) by (split; [apply sqrt_pos|]; apply le_of_squares; [lra|]; rewrite sqrt_sqrt; lra).
  set (q := sqrt 128) in *. unfold Q2R. cbn [Qnum Qden]. nra.
Qed.
(** ** fpfind with such transforms *)
Lemma c138 eps mu T e o evA evB M p : 0 <= eps -> 0 <= mu -> (1 <= buffer_order o)%Z -> good_transforms eps mu (2 ^ buffer_order o) (len evA) (len evB) T -> uses T (2 ^ buffer_order o) (len evA) (len evB) M ->
  result_error eps mu (2 ^ buffer_order o) (len evA) (len evB) (IZR (len evA)) (IZR (len evB)) <= Q2R e ->
  rt M = fl p -> rs M = fl 53 -> (54 <= p)%Z -> good_xc M -> good_zs M -> computes e o evA evB M p.
Proof.
  intros E0 M0 BO GT US RE RT RS P54 GX GZ.
  assert (EV : Z.even (2 ^ buffer_order o) = true) by (apply Z.even_spec; exists (2 ^ (buffer_order o - 1))%Z; rewrite <- Z.pow_succ_r by lia; f_equal; lia).
  assert (N2 : (2 <= 2 ^ buffer_order o)%Z) by (change 2%Z with (2 ^ 1)%Z at 1; apply Z.pow_le_mono_r; lia).
  split; [assumption|]. split; [assumption|]. split; [exact (all_histograms eps mu _ _ _ T M e E0 M0 GT US EV N2 RE)|]. split; [|auto].
  assert (PA : 0 <= IZR (len evA)) by (apply (IZR_le 0); unfold len; lia). assert (PB : 0 <= IZR (len evB)) by (apply (IZR_le 0); unfold len; lia).
  apply Rle_Qle. unfold Q2R at 1. cbn [Qnum Qden]. apply Rle_trans with (result_error eps mu (2 ^ buffer_order o) (len evA) (len evB) (IZR (len evA)) (IZR (len evB))); [|assumption].
  unfold result_error. pose proof (error_nonneg eps mu E0 M0) as EN. assert (AB : 0 <= IZR (len evA) * IZR (len evB)) by now apply Rmult_le_pos.
  assert (X1 : 0 <= 2 * spectrum_error eps mu * (IZR (len evA) * IZR (len evB))) by (apply Rmult_le_pos; lra).
  pose proof (Rmult_le_pos _ _ (sqrt_pos (IZR (2 ^ buffer_order o))) X1) as X2. pose proof (Rmult_le_pos eps _ E0 (Rplus_le_le_0_compat _ _ AB X2)) as X3. lra.
Qed.
Lemma recordings138 : recordings evA112 evB112 0 0.
Proof.
  destruct common112 as (EA & EB & NA & NB & _). split; [exact EA|]. split; [exact EB|]. split; [exact NA|]. split; [exact NB|]. split; [reflexivity|]. split; [lia|]. vm_compute. reflexivity.
Qed.
Lemma size137 : result_error (/ 2 ^ 50) (/ 2 ^ 50) (2 ^ 26) (2 ^ 20) (2 ^ 20) (IZR (2 ^ 20)) (IZR (2 ^ 20)) <= / 128.
Proof.
  unfold result_error, spectrum_error. change (2 ^ 20)%Z with 1048576%Z. change (2 ^ 26)%Z with (8192 * 8192)%Z. rewrite mult_IZR, sqrt_square by lra.
  replace (2 ^ 50) with 1125899906842624 by ring. lra.
Qed.
