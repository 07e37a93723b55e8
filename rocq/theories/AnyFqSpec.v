(** Frequency files of any content: what freqcd sees of them. *)
From Verif Require Import Base FreqcdSpec.
Import ListNotations.
Local Open Scope Z_scope.

(** With each block the 99 free bytes of the buffer are filled, less the unfinished line [p] kept there. A read without any newline is forgotten; otherwise what follows the last newline is kept.
    [seen p R k] is what is looked at of [R] with [k] blocks. *)
Fixpoint seen (p R : list Z) (k : nat) : list Z :=
  match k with
  | O => []
  | S j =>
      let d := take (99 - len p) R in
      let R' := drop (99 - len p) R in
      match lines d with [] => seen p R' j | _ => d ++ seen (last_line (p ++ d)) R' j end
  end.
(** [F k] is the value left by the lines in it *)
Definition seen_value (f : Z) (Zf : list Z) (F : nat -> Z) : Prop := forall k, after_lines f (lines (seen [] Zf k)) (F k).
(** The same by the rule freqcd really follows, for lines of any content *)
Definition seen_value_actual (f : Z) (Zf : list Z) (F : nat -> Z) : Prop := forall k, after_lines_actual f (lines (seen [] Zf k)) (F k).
(** No line used reads as -2^31, the one number whose magnitude is no int. *)
Definition no_extreme (Zf : list Z) : Prop := forall k, Forall (fun line => ~ taken line (- 2 ^ 31)) (lines (seen [] Zf k)).
