(** The exact result of a run of freqcd on a file: blocks of 1024 events, each corrected from the last event of the block before. *)
From Verif Require Import Base.
Import ListNotations.
Local Open Scope Z_scope.

Definition at_ (ts : list Z) (i : Z) : Z := nth (Z.to_nat i) ts 0.
(** the event block [k] is corrected from *)
Definition base (ts : list Z) (k : nat) : Z := at_ ts (match k with O => 0 | S j => 1024 * Z.of_nat k - 1 end).
(** f / 2^34 of [d] units of time, rounded down twice *)
Definition portion (f d : Z) : Z := d / 2 ^ 12 * f / 2 ^ 22.
(** correction up to the base of block [k] *)
Fixpoint gained (f : Z) (ts : list Z) (k : nat) : Z :=
  match k with O => 0 | S j => gained f ts j + portion f (base ts k - base ts j) end.
Definition exact_time (f : Z) (ts : list Z) (i : nat) : Z :=
  let k := (Z.to_nat (Z.of_nat i / 1024)) in
  at_ ts (Z.of_nat i) + portion f (at_ ts (Z.of_nat i) - base ts k) + gained f ts k.
