(** freqcd on the contents of timestamp files. *)
From Coq Require Import QArith.
From Verif Require Import Float Base TimestampsModel TimestampsSpec.
Local Open Scope Z_scope.

(** the word [v] with the time [t], modulo 2^54, in place of its own *)
Definition with_time (v t : Z) : Z := t mod 2 ^ 54 * 2 ^ 10 + v mod 2 ^ 10.
(** words of the second list are those of the first with other times, and the new times stand in the relation [R] to the old ones *)
Definition retimed (R : Z -> Z -> Prop) (vs ws : list Z) : Prop :=
  Forall2 (fun v w => exists t, w = with_time v t /\ R (time_of v) t) vs ws.
