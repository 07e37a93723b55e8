(** Specification of computed transforms: how far they are from the exact ones. *)
From Coq Require Import QArith Qreals Reals.
From Verif Require Import Base TimestampsModel UtilsModel UtilsSpec FpfindModel FpfindSpec FftModel.
Local Open Scope R_scope.

(** absolute value of a complex number, euclidean norm of a list *)
Definition size (z : C) : R := sqrt (fst z * fst z + snd z * snd z).
Definition norm (X : list C) : R := sqrt (fold_right (fun z s => fst z * fst z + snd z * snd z + s) 0 X).
Definition csub (x y : C) : C := (fst x - fst y, snd x - snd y).
Definition real (x : R) : C := (x, 0).
(** [X] has a relative error of at most [eps] with respect to [Y] *)
Definition relative (eps : R) (X Y : list C) : Prop :=
  length X = length Y /\ norm (map (fun c => csub (fst c) (snd c)) (combine X Y)) <= eps * norm Y.
(** Functions in floating point: scipy.fft.rfft, complex multiplication, scipy.fft.irfft (utils.py 194, 204, 207). *)
Record transforms := mkTransforms { c_rfft : list Z -> list C; c_mul : C -> C -> C; c_irfft : list C -> list R }.
(** np.conjugate(afft) * bfft as computed *)
Definition c_product (T : transforms) (h k : list Z) : list C :=
  map (fun c => c_mul T (conj (fst c)) (snd c)) (combine (c_rfft T h) (c_rfft T k)).
(** Both transforms have a relative error of at most [eps], multiplication one of at most [mu]. *)
Definition good_transforms (eps mu : R) (n a b : Z) (T : transforms) : Prop :=
  (forall h, histogram_of n (Z.max a b) h -> relative eps (c_rfft T h) (rfft h)) /\
  (forall x y, size (csub (c_mul T x y) (cmul x y)) <= mu * (size x * size y)) /\
  (forall h k ys, histogram_of n a h -> histogram_of n b k -> irfft (c_product T h k) = Ok ys ->
     relative eps (map real (c_irfft T (c_product T h k))) (map real ys)).
(** The correlation is computed by these functions. *)
Definition uses (T : transforms) (n a b : Z) (M : fpu) : Prop :=
  forall h k, histogram_of n a h -> histogram_of n b k -> map Q2R (xc M h k) = map Rabs (c_irfft T (c_product T h k)).
(** relative error of the products; error of the result, with the norms [x] and [y] of two histograms with [a] and [b] events *)
Definition spectrum_error (eps mu : R) : R := mu * (1 + eps) * (1 + eps) + eps * (1 + eps) + eps.
Definition result_error (eps mu : R) (n a b : Z) (x y : R) : R :=
  2 * spectrum_error eps mu * (x * y) + eps * (IZR a * IZR b + sqrt (IZR n) * (2 * spectrum_error eps mu * (x * y))).
(** the euclidean norm of a histogram; the number of its events *)
Definition norm_of (h : list Z) : R := norm (map (fun v => real (IZR v)) h).
Definition events_of (h : list Z) : Z := fold_right Z.add 0%Z h.
