(** Model of the transforms in lib/utils.py 170-208 over the real numbers: scipy.fft.rfft and irfft by their defining
    sums, and get_xcorr without a filter.  Floating point is not modelled here. *)
From Coq Require Import Reals.
From Verif Require Import Base TimestampsModel.
Local Open Scope R_scope.

(** complex numbers *)
Definition C : Type := R * R.
Definition cmul (x y : C) : C := (fst x * fst y - snd x * snd y, fst x * snd y + snd x * fst y).
Definition conj (x : C) : C := (fst x, - snd x).
Definition expi (t : R) : C := (cos t, sin t).
Fixpoint sumR (n : nat) (g : nat -> R) : R := match n with O => 0 | S k => sumR k g + g k end.
(** scipy.fft.rfft (194): the first n/2 + 1 of the sums over j of a[j] exp(-2 pi i j k / n) *)
Definition rfft (a : list Z) : list C :=
  let n := length a in
  map (fun k =>
         let term j := cmul (IZR (nth j a 0%Z), 0) (expi (- (2 * PI * INR j * INR k / INR n))) in
         (sumR n (fun j => fst (term j)), sumR n (fun j => snd (term j))))
      (seq 0 (n / 2 + 1)).
(** scipy.fft.irfft (207) of m values: N = 2 (m - 1) real ones; the imaginary parts of the first and the last value
    are not used.  No values: ValueError. *)
Definition irfft (X : list C) : pyres (list R) :=
  let m := length X in
  let N := (2 * (m - 1))%nat in
  if (N =? 0)%nat then Err ValueError
  else Ok (map (fun j =>
    (fst (nth 0 X (0, 0))
     + sumR (m - 2) (fun k => 2 * fst (cmul (nth (k + 1) X (0, 0)) (expi (2 * PI * INR j * INR (k + 1) / INR N))))
     + fst (nth (m - 1) X (0, 0)) * (if Nat.even j then 1 else -1)) / INR N) (seq 0 N)).
(** np.conjugate(afft) * bfft for arrays of one length, irfft, np.abs (203-208) *)
Definition xcorr_fft (afft bfft : list C) : pyres (list R) :=
  let* r := irfft (map (fun c => cmul (conj (fst c)) (snd c)) (combine afft bfft)) in
  Ok (map Rabs r).
