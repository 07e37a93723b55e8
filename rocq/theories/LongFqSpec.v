(** Frequency files of any length: with each block of events freqcd reads as much of the file as fits into its buffer. *)
From Verif Require Import Base FreqcdSpec.
Import ListNotations.
Local Open Scope Z_scope.

(** bytes taken from the frequency file before block [k]: the 99 free bytes of the buffer, less the unfinished line that is kept there *)
Fixpoint consumed (Zf : list Z) (k : nat) : Z :=
  match k with O => 0 | S j => let c := consumed Zf j in c + (99 - len (last_line (take c Zf))) end.
(** [F k] is the value left by the lines complete by then *)
Definition value_at (f : Z) (Zf : list Z) (F : nat -> Z) : Prop := forall k, after_lines f (lines (take (consumed Zf k) Zf)) (F k).
