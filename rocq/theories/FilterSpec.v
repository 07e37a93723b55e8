(** Convolution around a circle. *)
From Coq Require Import Reals.
From Verif Require Import Base FftModel.
Local Open Scope R_scope.

(** the sum, over the places of a circle of [n], of [c] there times [h] as far from there as place [j] is *)
Definition convolved (n : nat) (c h : nat -> R) (j : nat) : R := sumR n (fun m => c m * h ((j + n - m) mod n)%nat).
