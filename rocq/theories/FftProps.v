(** The transforms: C97.  Real numbers, with the axioms of Coq.Reals. *)
From Coq Require Import QArith Qreals Reals.
From Verif Require Import Base TimestampsModel UtilsModel UtilsSpec FftModel FftProofs.
Local Open Scope R_scope.

(** C97 *)
Theorem C97 : forall a b, length a = length b -> (2 <= length a)%nat -> Nat.even (length a) = true ->
  exists ys, xcorr_fft (rfft a) (rfft b) = Ok ys /\ length ys = length a /\ forall k, (k < length a)%nat -> nth k ys 0 = IZR (Z.abs (correlation a b k)).
Proof. exact c97. Qed.
Print Assumptions C97.
(** the correlation used in the model of the search *)
Theorem C97_exact : forall a b, length a = length b -> (2 <= length a)%nat -> Nat.even (length a) = true ->
  xcorr_fft (rfft a) (rfft b) = Ok (map Q2R (exact_xc a b)).
Proof. exact c97_exact. Qed.
Print Assumptions C97_exact.
(** an odd number of bins loses one *)
Theorem C97_odd : forall a b, length a = length b -> Nat.even (length a) = false ->
  if (length a =? 1)%nat then xcorr_fft (rfft a) (rfft b) = Err ValueError
  else exists ys, xcorr_fft (rfft a) (rfft b) = Ok ys /\ length ys = (length a - 1)%nat.
Proof. exact c97_odd. Qed.
Print Assumptions C97_odd.
Example C97_case : (2 <= length [3; 0; 1; 2]%Z)%nat /\ Nat.even (length [3; 0; 1; 2]%Z) = true /\
  map (correlation [3; 0; 1; 2]%Z [0; 1; 2; 3]%Z) [0; 1; 2; 3]%nat = [8; 6; 8; 14]%Z.
Proof. split; [cbn; repeat constructor|]. split; reflexivity. Qed.
(** three bins: two values, and neither is of a delay *)
Example C97_odd_case : exists ys, xcorr_fft (rfft [1; 0; 0]%Z) (rfft [0; 0; 1]%Z) = Ok ys /\ ys = [1 / 4; 3 / 4] /\ map (correlation [1; 0; 0]%Z [0; 0; 1]%Z) [0; 1; 2]%nat = [0; 0; 1]%Z.
Proof. exact c97_three. Qed.
