(** Specification: significance computed with a small error. *)
From Coq Require Import QArith Qabs.
From Verif Require Import Base UtilsSpec.
Import ListNotations. Local Open Scope Z_scope.

(** The deviation of the background is not too small compared with its mean, which floating point would not resolve. *)
Definition resolved (bg : list Q) (mean var : Q) : Prop := is_mean bg mean /\ is_variance bg var /\ (0 < var)%Q /\ (mean * mean <= 16 * inject_Z (len bg) * var)%Q.
(** [s] standard deviations at most, or at least *)
Definition at_most (s d var : Q) : Prop := (d * d <= s * s * var)%Q.
Definition at_least (s d var : Q) : Prop := (s * s * var <= d * d)%Q.
(** [v] is the score of [m] over the background, to one part in a thousand and to 0.001 *)
Definition scores (m : Q) (bg : list Q) (v : Q) : Prop := forall mean var s, resolved bg mean var -> (mean <= m)%Q -> (0 <= s)%Q ->
  (at_least ((1001 # 1000) * s + (1 # 1000)) (m - mean) var -> (s <= v)%Q) /\ (at_most s (m - mean) var -> (v <= (1001 # 1000) * s + (1 # 1000))%Q).
