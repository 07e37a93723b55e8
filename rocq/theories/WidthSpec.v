(** Times and patterns of different lengths in the writers. *)
From Verif Require Import Base TimestampsModel.
Import ListNotations.
Local Open Scope Z_scope.

(** [n] times which the writers accept: some [n] patterns can be written with them *)
Definition writable (p : Z) (f : fmt) (t : tarr) (r : TSRES) (n : nat) : Prop := exists ps file, length ps = n /\ write p f t ps r = Ok file.
(** neither one pattern for each of the times nor one for all *)
Definition misfit (t : tarr) (pats : list Z) : Prop := length pats <> length (tvalues t) /\ length pats <> 1%nat.
