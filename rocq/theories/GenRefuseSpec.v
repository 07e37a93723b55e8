(** Times of generate_freqcd_testcase which are no numbers. *)
From Verif Require Import Base FpCliSpec GenCliSpec.
Import ListNotations.
Local Open Scope Z_scope.

(** digits, with single underscores between them *)
Inductive numeral : list Z -> Z -> Prop :=
| N_digit c : is_digit c -> numeral [c] (c - 48)
| N_next l v c : numeral l v -> is_digit c -> numeral (l ++ [c]) (10 * v + (c - 48))
| N_under l v c : numeral l v -> is_digit c -> numeral (l ++ [95; c]) (10 * v + (c - 48)).
Definition is_blank (c : Z) : Prop := 9 <= c <= 13 \/ 28 <= c <= 32.
(** whole numbers as Python reads them: blanks, a sign, a numeral, blanks *)
Definition int_word (t : list Z) (z : Z) : Prop :=
  exists b1 s ds b2 v, t = b1 ++ s ++ ds ++ b2 /\ Forall is_blank b1 /\ Forall is_blank b2 /\ numeral ds v /\ ((s = [] \/ s = [43]) /\ z = v \/ s = [45] /\ z = - v).
Definition no_number (t : list Z) : Prop := forall z, ~ int_word t z.
(** -t with such a word, and nothing wrong and no -h before it *)
Definition asks_no_number (ss : list gask) : Prop :=
  exists s1 ws w s2, ss = s1 ++ GTimes ws :: s2 /\ Forall ggood s1 /\ ~ In GHelp s1 /\ In w ws /\ no_number w.
