(** Specification of rounding to significant figures, independent of the model.  Texts are lists of codes, written as in [FpCliSpec]. *)
From Coq Require Import QArith Qabs.
From Verif Require Import Float Base FpCliSpec.
Import ListNotations. Local Open Scope Z_scope.

(** a number with at most [p] significant figures *)
Definition figures (p : Z) (y : Q) : Prop := exists m k, Z.abs m < 10 ^ p /\ (y == inject_Z m * power10 k)%Q.
(** No number with [p] figures is nearer to [x] than [y]; when two are equally near, [y] is the one with an even last figure. *)
Definition nearest (p : Z) (x y : Q) : Prop :=
  figures p y /\ (forall z, figures p z -> Qabs (y - x) <= Qabs (z - x))%Q /\
  (forall z, figures p z -> Qabs (y - x) == Qabs (z - x) -> ~ z == y ->
     exists m k, y == inject_Z (2 * m) * power10 k /\ Qabs (y - x) == (1 # 2) * power10 k)%Q.
(** [t] is a numeral for [q]: a sign, digits with or without a point, an exponent or none *)
Definition numeral (t : list Z) (q : Q) : Prop :=
  exists s neg m ds fs ex e, sign s neg /\ mantissa m ds fs /\ exponent ex e /\ t = s ++ m ++ ex /\
  (q == (if neg then -1 else 1) * (inject_Z (digits_value (ds ++ fs)) * power10 (e - len fs)))%Q.
(** a value of float64 of a size from 10^-307 on and below 10^308 *)
Definition common_float (x : Q) : Prop := (x == fl 53 x /\ power10 (-307) <= Qabs x < power10 308)%Q.
(** [y] is a multiple of 10^-[d] at a distance from [x] of at most half of it *)
Definition to_digits (d : Z) (x y : Q) : Prop := (exists m, y == inject_Z m * power10 (- d))%Q /\ (Qabs (y - x) <= (1 # 2) * power10 (- d))%Q.
