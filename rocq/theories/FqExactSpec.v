(** The exact result of a run of freqcd on a file together with a frequency file. *)
From Verif Require Import Base CdExactSpec.
Import ListNotations.
Local Open Scope Z_scope.

(** the value of the command line for the first block, the one of the frequency file for the others *)
Definition in_force (f g : Z) (k : nat) : Z := match k with O => f | S _ => g end.
(** correction up to the base of block [k] when block [j] is corrected by [F j] *)
Fixpoint gained_by (F : nat -> Z) (ts : list Z) (k : nat) : Z :=
  match k with O => 0 | S j => gained_by F ts j + portion (F j) (base ts k - base ts j) end.
Definition exact_time_by (F : nat -> Z) (ts : list Z) (i : nat) : Z :=
  let k := Z.to_nat (Z.of_nat i / 1024) in
  at_ ts (Z.of_nat i) + portion (F k) (at_ ts (Z.of_nat i) - base ts k) + gained_by F ts k.
