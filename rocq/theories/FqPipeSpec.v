(** Frequency reads from a pipe or file that already has all of its text. *)
From Verif Require Import Base FreqcdModel FreqcdSpec.
Import ListNotations.
Local Open Scope Z_scope.

(** [greedy p R os]: [p] is an unfinished line, [R] the text still in the pipe; every read takes what fits into the 99 free bytes together with [p] *)
Fixpoint greedy (p R : list Z) (os : list obs) : Prop :=
  match os with
  | [] => True
  | o :: r => (rx_freq o = [] /\ greedy p R r) \/
              (rx_freq o = take (99 - len p) R /\ greedy (last_line (p ++ rx_freq o)) (drop (99 - len p) R) r)
  end.
(** text of lines of at most [n] characters, all terminated *)
Definition text_of_lines (n : Z) (F : list Z) : Prop := last_line F = [] /\ Forall (fun l => len l <= n) (lines F).
