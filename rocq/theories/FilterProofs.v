(** A filter convolves the correlation. *)
From Coq Require Import QArith Qreals Reals Lra Lia.
From Verif Require Import Base TimestampsModel UtilsModel UtilsSpec UtilsProofs2 FftModel FftProofs FilterModel FilterSpec.
Local Open Scope R_scope.

(** ** Sums around the circle *)
Lemma sumR_shift n g i : (i < n)%nat -> sumR n g = sumR n (fun m => g ((i + m) mod n)%nat).
Proof.
  intros I. replace n with (i + (n - i))%nat at 1 by lia. rewrite sumR_split. replace n with ((n - i) + i)%nat at 2 by lia. rewrite sumR_split, Rplus_comm. f_equal.
  - apply sumR_ext. intros m M. f_equal. symmetry. apply Nat.mod_small. lia.
  - apply sumR_ext. intros m M. f_equal. replace (i + (n - i + m))%nat with (m + 1 * n)%nat by lia. rewrite Nat.mod_add by lia. symmetry. apply Nat.mod_small. lia.
Qed.
Definition turn (n k : nat) (x : R) : R := 2 * PI * x * INR k / INR n.
Lemma turn_mod n k x : (0 < n)%nat -> forall y, cos (turn n k (INR (x mod n)) + y) = cos (turn n k (INR x) + y) /\ sin (turn n k (INR (x mod n)) + y) = sin (turn n k (INR x) + y).
Proof.
  intros N y. assert (NR : INR n <> 0) by (apply not_0_INR; lia).
  assert (E : turn n k (INR x) + y = (turn n k (INR (x mod n)) + y) + 2 * PI * IZR (Z.of_nat (x / n * k))).
  { rewrite <- INR_IZR_INZ, mult_INR. rewrite (Nat.div_mod x n) at 1 by lia. unfold turn. rewrite plus_INR, mult_INR. field. assumption. }
  rewrite E. destruct (trig_Z (Z.of_nat (x / n * k)) (turn n k (INR (x mod n)) + y)) as [-> ->]. now split.
Qed.
(** the spectrum is that of the correlation *)
Lemma spectrum_corr a b n k : length a = n -> length b = n -> (0 < n)%nat -> (k < n / 2 + 1)%nat ->
  spectrum a b k = (sumR n (fun m => IZR (correlation a b m) * cos (turn n k (INR m))), - sumR n (fun m => IZR (correlation a b m) * sin (turn n k (INR m)))).
Proof.
  intros LA LB N K. assert (NR : INR n <> 0) by (apply not_0_INR; lia). unfold spectrum. rewrite !(rfft_nth n) by assumption. unfold cmul, conj. cbn [fst snd].
  assert (CE : forall m, IZR (correlation a b m) = sumR n (fun i => IZR (nth i a 0%Z) * IZR (nth ((i + m) mod n) b 0%Z))).
  { intros m. unfold correlation. rewrite LA. rewrite <- sumR_IZR. apply sumR_ext. intros i _. apply mult_IZR. }
  assert (G : forall t : R -> R, (forall i m, (i < n)%nat -> t (turn n k (INR ((i + m) mod n)) - turn n k (INR i)) = t (turn n k (INR m))) ->
    sumR n (fun i => sumR n (fun l => IZR (nth i a 0%Z) * IZR (nth l b 0%Z) * t (turn n k (INR l) - turn n k (INR i)))) = sumR n (fun m => IZR (correlation a b m) * t (turn n k (INR m)))).
  { intros t T. rewrite (sumR_ext n (fun m => IZR (correlation a b m) * t (turn n k (INR m))) (fun m => sumR n (fun i => IZR (nth i a 0%Z) * IZR (nth ((i + m) mod n) b 0%Z) * t (turn n k (INR m))))).
    - symmetry. rewrite sumR_swap. symmetry. apply sumR_ext. intros i I. rewrite (sumR_shift n _ i I). apply sumR_ext. intros m M. cbv beta. rewrite (T i m I). reflexivity.
    - intros m _. rewrite CE, Rmult_comm, <- sumR_scale. apply sumR_ext. intros i _. lra. }
  assert (TC : forall i m, turn n k (INR (i + m)) - turn n k (INR i) = turn n k (INR m)) by (intros i m; unfold turn; rewrite plus_INR; field; assumption).
  f_equal.
  - rewrite <- (G cos).
    +
      transitivity (sumR n (fun i => sumR n (fun l => IZR (nth i a 0%Z) * cos (turn n k (INR i)) * (IZR (nth l b 0%Z) * cos (turn n k (INR l))))) +
                    sumR n (fun i => sumR n (fun l => IZR (nth i a 0%Z) * sin (turn n k (INR i)) * (IZR (nth l b 0%Z) * sin (turn n k (INR l)))))).
      * rewrite <- !sumR_mul. unfold cs, sn, turn. ring.
      * rewrite <- sumR_plus. apply sumR_ext. intros i _. rewrite <- sumR_plus. apply sumR_ext. intros l _. rewrite cos_minus. lra.
    + intros i m I. destruct (turn_mod n k (i + m) N (- turn n k (INR i))) as [E _]. unfold Rminus. rewrite E. f_equal. apply TC.
  - rewrite <- (G sin).
    + transitivity (- (sumR n (fun i => sumR n (fun l => IZR (nth i a 0%Z) * cos (turn n k (INR i)) * (IZR (nth l b 0%Z) * sin (turn n k (INR l))))) +
                    -1 * sumR n (fun i => sumR n (fun l => IZR (nth i a 0%Z) * sin (turn n k (INR i)) * (IZR (nth l b 0%Z) * cos (turn n k (INR l))))))).
      * rewrite <- !sumR_mul. unfold cs, sn, turn. ring.
      * f_equal. rewrite <- sumR_scale, <- sumR_plus. apply sumR_ext. intros i _. rewrite <- sumR_scale, <- sumR_plus. apply sumR_ext. intros l _. rewrite sin_minus. lra.
    + intros i m I. destruct (turn_mod n k (i + m) N (- turn n k (INR i))) as [_ E]. unfold Rminus. rewrite E. f_equal. apply TC.
Qed.
(** a term of the inverse transform of a product *)
Lemma product_term n c th t (F : C) :
  fst (cmul (cmul (sumR n (fun m => c m * cos (INR m * th)), - sumR n (fun m => c m * sin (INR m * th))) F) (expi t)) =
  sumR n (fun m => c m * fst (cmul F (expi (t - INR m * th)))).
Proof.
  destruct F as [p q]. unfold cmul, expi. cbn [fst snd].
  rewrite (sumR_ext n (fun m => c m * (p * cos (t - INR m * th) - q * sin (t - INR m * th)))
    (fun m => (p * cos t - q * sin t) * (c m * cos (INR m * th)) + (q * cos t + p * sin t) * (c m * sin (INR m * th)))).
  - rewrite sumR_plus, !sumR_scale. lra.
  - intros m _. rewrite cos_minus, sin_minus. lra.
Qed.
(** the inverse transform at a place of the circle *)
Definition wave (n h : nat) (F : nat -> C) (x : R) : R :=
  fst (cmul (F 0%nat) (expi (turn n 0 x))) + sumR (h - 1) (fun k => 2 * fst (cmul (F (k + 1)%nat) (expi (turn n (k + 1) x)))) + fst (cmul (F h) (expi (turn n h x))).
Lemma irfft_wave X h : length X = (h + 1)%nat -> (1 <= h)%nat -> exists ys, irfft X = Ok ys /\ length ys = (2 * h)%nat /\
  forall j, (j < 2 * h)%nat -> nth j ys 0 = wave (2 * h) h (fun k => nth k X (0, 0)) (INR j) / INR (2 * h).
Proof.
  intros L H. set (n := (2 * h)%nat). assert (NR : INR n <> 0) by (apply not_0_INR; lia). unfold irfft. rewrite L. replace (2 * (h + 1 - 1))%nat with n by lia. cbv zeta.
  replace (n =? 0)%nat with false by (symmetry; apply Nat.eqb_neq; lia). eexists. split; [reflexivity|]. rewrite map_length, seq_length. split; [reflexivity|]. intros j J.
  match goal with |- nth j (map ?g _) 0 = _ => rewrite (nth_indep _ 0 (g 0%nat)) by (now rewrite map_length, seq_length); rewrite (map_nth g), seq_nth by assumption end.
  cbn [Nat.add]. f_equal. unfold wave, turn. replace (h + 1 - 2)%nat with (h - 1)%nat by lia. replace (h + 1 - 1)%nat with h by lia.
  assert (E0 : fst (cmul (nth 0 X (0, 0)) (expi (2 * PI * INR j * INR 0 / INR n))) = fst (nth 0 X (0, 0))).
  { cbn [INR]. replace (2 * PI * INR j * 0 / INR n) with 0 by (field; assumption). unfold cmul, expi. cbn [fst snd]. rewrite cos_0, sin_0. lra. }
  assert (EHH : fst (cmul (nth h X (0, 0)) (expi (2 * PI * INR j * INR h / INR n))) = fst (nth h X (0, 0)) * (if Nat.even j then 1 else -1)).
  { replace (2 * PI * INR j * INR h / INR n) with (PI * INR j) by (unfold n; rewrite mult_INR; cbn [INR]; field; apply not_0_INR; lia).
    assert (SC : sin (PI * INR j) = 0 /\ cos (PI * INR j) = if Nat.even j then 1 else -1).
    { clear. induction j as [|j IH]; [cbn [INR Nat.even]; rewrite Rmult_0_r; split; [apply sin_0|apply cos_0]|].
      rewrite S_INR. replace (PI * (INR j + 1)) with (PI * INR j + PI) by lra. rewrite neg_sin, neg_cos. destruct IH as [-> ->]. rewrite Nat.even_succ, <- Nat.negb_even. destruct (Nat.even j); cbn [negb]; lra. }
    destruct SC as [S1 S2]. unfold cmul, expi. cbn [fst snd]. rewrite S1, S2. lra. }
  rewrite E0, EHH. reflexivity.
Qed.
Lemma wave_mod n h F x : (0 < n)%nat -> wave n h F (INR (x mod n)) = wave n h F (INR x).
Proof.
  intros N. unfold wave. assert (G : forall k, fst (cmul (F k) (expi (turn n k (INR (x mod n))))) = fst (cmul (F k) (expi (turn n k (INR x))))).
  { intros k. unfold cmul, expi. cbn [fst snd]. destruct (turn_mod n k x N 0) as [A B]. rewrite !Rplus_0_r in A, B. now rewrite A, B. }
  rewrite !G. f_equal. f_equal. apply sumR_ext. intros k _. now rewrite G.
Qed.
Lemma wave_periodic n h F x m : (0 < n)%nat -> (m <= n)%nat -> wave n h F (INR ((x + n - m) mod n)) = wave n h F (INR x - INR m).
Proof.
  intros N M. rewrite wave_mod by assumption. assert (NR : INR n <> 0) by (apply not_0_INR; lia). unfold wave.
  assert (G : forall k, fst (cmul (F k) (expi (turn n k (INR (x + n - m))))) = fst (cmul (F k) (expi (turn n k (INR x - INR m))))).
  { intros k. assert (E : turn n k (INR (x + n - m)) = turn n k (INR x - INR m) + 2 * PI * IZR (Z.of_nat k)).
    { rewrite <- INR_IZR_INZ, minus_INR, plus_INR by lia. unfold turn. field. assumption. }
    unfold cmul, expi. cbn [fst snd]. rewrite E. destruct (trig_Z (Z.of_nat k) (turn n k (INR x - INR m))) as [-> ->]. reflexivity. }
  rewrite !G. f_equal. f_equal. apply sumR_ext. intros k _. now rewrite G.
Qed.
(** waves of a product *)
Lemma wave_product n h (c : nat -> R) (X F : nat -> C) j : (0 < n)%nat ->
  (forall k, (k <= h)%nat -> X k = (sumR n (fun m => c m * cos (turn n k (INR m))), - sumR n (fun m => c m * sin (turn n k (INR m))))) ->
  wave n h (fun k => cmul (X k) (F k)) (INR j) = sumR n (fun m => c m * wave n h F (INR j - INR m)).
Proof.
  intros N HX. assert (NR : INR n <> 0) by (apply not_0_INR; lia).
  assert (T : forall k, (k <= h)%nat -> fst (cmul (cmul (X k) (F k)) (expi (turn n k (INR j)))) = sumR n (fun m => c m * fst (cmul (F k) (expi (turn n k (INR j - INR m)))))).
  { intros k K. rewrite (HX k K).
    rewrite (sumR_ext n (fun m => c m * cos (turn n k (INR m))) (fun m => c m * cos (INR m * (2 * PI * INR k / INR n)))) by (intros m _; do 2 f_equal; unfold turn; field; assumption).
    rewrite (sumR_ext n (fun m => c m * sin (turn n k (INR m))) (fun m => c m * sin (INR m * (2 * PI * INR k / INR n)))) by (intros m _; do 2 f_equal; unfold turn; field; assumption).
    rewrite product_term. apply sumR_ext. intros m _. do 4 f_equal. unfold turn. field. assumption. }
  unfold wave. rewrite (T 0%nat), (T h) by lia.
  rewrite (sumR_ext (h - 1) (fun k => 2 * fst (cmul (cmul (X (k + 1)%nat) (F (k + 1)%nat)) (expi (turn n (k + 1) (INR j)))))
    (fun k => sumR n (fun m => c m * (2 * fst (cmul (F (k + 1)%nat) (expi (turn n (k + 1) (INR j - INR m)))))))).
  - rewrite sumR_swap, <- !sumR_plus. apply sumR_ext. intros m _. rewrite sumR_scale. lra.
  - intros k K. rewrite T by lia. rewrite <- sumR_scale. apply sumR_ext. intros m _. lra.
Qed.
Lemma c159 a b F : length a = length b -> (2 <= length a)%nat -> Nat.even (length a) = true -> length F = (length a / 2 + 1)%nat ->
  exists h ys, irfft F = Ok h /\ get_xcorr_fft (rfft a) (rfft b) (Some F) = Ok ys /\ length h = length a /\ length ys = length a /\
    forall j, (j < length a)%nat -> nth j ys 0 = Rabs (convolved (length a) (fun m => IZR (correlation a b m)) (fun m => nth m h 0) j).
Proof.
  intros LB N2 EV LF. set (n := length a) in *. apply Nat.even_spec in EV as (h & EH).
  assert (HN : (n / 2 = h)%nat) by (rewrite EH, Nat.mul_comm; apply Nat.div_mul; lia). rewrite HN in LF.
  assert (LR : forall v, length (rfft v) = (length v / 2 + 1)%nat) by (intros v; unfold rfft; now rewrite map_length, seq_length).
  set (X := map (fun c => cmul (conj (fst c)) (snd c)) (combine (rfft a) (rfft b))).
  assert (LX : length X = (h + 1)%nat) by (unfold X; rewrite map_length, combine_length, !LR, <- LB; fold n; rewrite HN; lia).
  assert (NX : forall k, (k <= h)%nat -> nth k X (0, 0) = spectrum a b k).
  { intros k K. unfold X. rewrite (nth_indep _ (0, 0) (cmul (conj (fst ((0, 0), (0, 0)))) (snd ((0, 0), (0, 0))))) by (change (k < length X)%nat; rewrite LX; lia).
    rewrite (map_nth (fun c => cmul (conj (fst c)) (snd c))), combine_nth by (rewrite !LR; fold n; now rewrite LB). reflexivity. }
  set (Y := map (fun c => cmul (fst c) (snd c)) (combine X F)).
  assert (LY : length Y = (h + 1)%nat) by (unfold Y; rewrite map_length, combine_length, LX, LF; lia).
  assert (NY : forall k, (k <= h)%nat -> nth k Y (0, 0) = cmul (nth k X (0, 0)) (nth k F (0, 0))).
  { intros k K. unfold Y. rewrite (nth_indep _ (0, 0) (cmul (fst ((0, 0), (0, 0))) (snd ((0, 0), (0, 0))))) by (change (k < length Y)%nat; rewrite LY; lia).
    rewrite (map_nth (fun c => cmul (fst c) (snd c)) (combine X F) ((0, 0), (0, 0))), (combine_nth X F) by (now rewrite LX, LF). reflexivity. }
  destruct (irfft_wave F h LF ltac:(lia)) as (hs & IF & LH & VH). destruct (irfft_wave Y h LY ltac:(lia)) as (ys & IY & LYS & VY). rewrite <- EH in LH, LYS, VH, VY.
  exists hs, (map Rabs ys). split; [exact IF|]. split.
  { change (get_xcorr_fft (rfft a) (rfft b) (Some F)) with (let* fft := filtered X F in let* r := irfft fft in Ok (map Rabs r)).
    assert (FE : filtered X F = Ok Y) by (unfold filtered; rewrite LX, LF, Nat.eqb_refl; reflexivity). rewrite FE. cbn [bind]. rewrite IY. reflexivity. }
  split; [exact LH|]. split; [now rewrite map_length|]. intros j J. rewrite (nth_indep _ 0 (Rabs 0)) by (now rewrite map_length, LYS). rewrite map_nth. f_equal.
  assert (N0 : (0 < n)%nat) by lia. assert (NR : INR n <> 0) by (apply not_0_INR; lia). rewrite VY by assumption.
  assert (WE : wave n h (fun k => nth k Y (0, 0)) (INR j) = wave n h (fun k => cmul (nth k X (0, 0)) (nth k F (0, 0))) (INR j)).
  { unfold wave. rewrite !NY by lia. f_equal. f_equal. apply sumR_ext. intros k K. now rewrite NY by lia. }
  rewrite WE, (wave_product n h (fun m => IZR (correlation a b m)) (fun k => nth k X (0, 0)) (fun k => nth k F (0, 0)) j N0).
  - unfold convolved, Rdiv. rewrite Rmult_comm, <- sumR_scale. apply sumR_ext. intros m M. rewrite VH by (apply Nat.mod_upper_bound; lia).
    rewrite wave_periodic by lia. unfold Rdiv. lra.
  - intros k K. rewrite NX by assumption. apply spectrum_corr; [reflexivity|now symmetry|assumption|rewrite HN; lia].
Qed.

(** ** Other filters *)
Lemma c159_none A B : get_xcorr_fft A B None = xcorr_fft A B.
Proof. reflexivity. Qed.
Lemma cmul_1 x : cmul x (1, 0) = x.
Proof. destruct x as [p q]. unfold cmul. cbn [fst snd]. f_equal; lra. Qed.
Lemma map_repeat_r (X : list C) c : map (fun p => cmul (fst p) (snd p)) (combine X (repeat c (length X))) = map (fun x => cmul x c) X.
Proof. induction X as [|x X IH]; [reflexivity|]. cbn [length repeat combine map fst snd]. now rewrite IH. Qed.
Lemma filtered_repeat X c : filtered X (repeat c (length X)) = Ok (map (fun x => cmul x c) X).
Proof. unfold filtered. rewrite repeat_length, Nat.eqb_refl. now rewrite map_repeat_r. Qed.
Lemma filtered_one X c : filtered X [c] = Ok (map (fun x => cmul x c) X).
Proof. unfold filtered. destruct (length [c] =? length X)%nat eqn:E; [|reflexivity]. apply Nat.eqb_eq in E. destruct X as [|x [|y X]]; try discriminate E. reflexivity. Qed.
Lemma product_length a b : length a = length b -> length (map (fun c => cmul (conj (fst c)) (snd c)) (combine (rfft a) (rfft b))) = (length a / 2 + 1)%nat.
Proof. intros E. rewrite map_length, combine_length. unfold rfft. rewrite !map_length, !seq_length, E. lia. Qed.
Lemma c159_one a b c : length a = length b -> get_xcorr_fft (rfft a) (rfft b) (Some [c]) = get_xcorr_fft (rfft a) (rfft b) (Some (repeat c (length a / 2 + 1))).
Proof.
  intros E. unfold get_xcorr_fft. cbv zeta. rewrite <- (product_length a b E). now rewrite filtered_repeat, filtered_one.
Qed.
Lemma c159_ones a b : length a = length b -> get_xcorr_fft (rfft a) (rfft b) (Some (repeat (1, 0) (length a / 2 + 1))) = xcorr_fft (rfft a) (rfft b).
Proof.
  intros E. unfold get_xcorr_fft. cbv zeta. rewrite <- (product_length a b E). rewrite filtered_repeat. cbn [bind].
  rewrite (map_ext (fun x => cmul x (1, 0)) (fun x => x)) by apply cmul_1. rewrite map_id. reflexivity.
Qed.
Lemma c159_length a b F : length a = length b -> length F <> (length a / 2 + 1)%nat -> length F <> 1%nat -> get_xcorr_fft (rfft a) (rfft b) (Some F) = Err ValueError.
Proof.
  intros E N1 N2. unfold get_xcorr_fft. cbv zeta. unfold filtered. rewrite (product_length a b E). replace (length F =? length a / 2 + 1)%nat with false by (symmetry; now apply Nat.eqb_neq).
  destruct F as [|c [|d F]]; [reflexivity|now contradiction N2|reflexivity].
Qed.
Lemma c159_mean : exists ys, get_xcorr_fft (rfft [1; 0; 0; 0]%Z) (rfft [0; 1; 0; 0]%Z) (Some [(1, 0); (0, 0); (0, 0)]) = Ok ys /\ length ys = 4%nat /\ forall j, (j < 4)%nat -> nth j ys 0 = 1 / 4.
Proof.
  destruct (c159 [1; 0; 0; 0]%Z [0; 1; 0; 0]%Z [(1, 0); (0, 0); (0, 0)] eq_refl ltac:(cbn; lia) eq_refl eq_refl) as (h & ys & IH & G & LH & LY & V).
  exists ys. split; [exact G|]. split; [exact LY|]. intros j J. rewrite V by exact J.
  assert (HV : forall m, (m < 4)%nat -> nth m h 0 = 1 / 4).
  { unfold irfft in IH. cbn [length Nat.sub Nat.mul Nat.add Nat.eqb seq map sumR nth fst snd] in IH. injection IH as <-. unfold cmul. cbn [fst snd].
    intros m M. destruct m as [|[|[|[|m]]]]; [| | | |lia]; cbn [nth INR]; lra. }
  unfold convolved. cbn [length]. rewrite (sumR_ext 4 _ (fun m => 1 / 4 * IZR (correlation [1; 0; 0; 0]%Z [0; 1; 0; 0]%Z m))).
  - rewrite sumR_scale. cbn [sumR].
    replace (correlation [1; 0; 0; 0]%Z [0; 1; 0; 0]%Z 0) with 0%Z by reflexivity. replace (correlation [1; 0; 0; 0]%Z [0; 1; 0; 0]%Z 1) with 1%Z by reflexivity.
    replace (correlation [1; 0; 0; 0]%Z [0; 1; 0; 0]%Z 2) with 0%Z by reflexivity. replace (correlation [1; 0; 0; 0]%Z [0; 1; 0; 0]%Z 3) with 0%Z by reflexivity. rewrite Rabs_right; lra.
  - intros m M. rewrite HV by (apply Nat.mod_upper_bound; lia). lra.
Qed.
