(** Ways of writing requests on a command line, for any set of options: each request has a letter, a word (with its dashes) or both, and possibly an argument. *)
From Verif Require Import Base FpCliSpec.
Import ListNotations. Local Open Scope Z_scope.

Section Spelling.
Context {R : Type} (letter : R -> option Z) (word : R -> option (list Z)) (argument : R -> option (list Z)) (words : list (list Z)).
(** the name or a beginning of it that no other name has *)
Definition shortens (p : list Z) (a : R) : Prop :=
  2 < len p /\ exists w r, word a = Some w /\ w = p ++ r /\ forall v q, In v words -> v = p ++ q -> v = w.
Definition switch (a : R) (c : Z) : Prop := argument a = None /\ letter a = Some c.
(** The words [args] spell the requests [ss]. *)
Inductive spells : list (list Z) -> list R -> Prop :=
| P_end : spells [] []
| P_flags fs cs args ss : fs <> [] -> Forall2 switch fs cs -> spells args ss -> spells ((45 :: cs) :: args) (fs ++ ss)
| P_attached fs cs a c t args ss : Forall2 switch fs cs -> letter a = Some c -> argument a = Some t -> same_word t -> ascii_text t -> spells args ss ->
    spells ((45 :: cs ++ c :: t) :: args) (fs ++ a :: ss)
| P_detached fs cs a c t args ss : Forall2 switch fs cs -> letter a = Some c -> argument a = Some t -> own_word t -> ascii_text t -> spells args ss ->
    spells ((45 :: cs ++ [c]) :: t :: args) (fs ++ a :: ss)
| P_long_flag p a args ss : argument a = None -> shortens p a -> spells args ss -> spells (p :: args) (a :: ss)
| P_long p a t args ss : argument a = Some t -> shortens p a -> own_word t -> ascii_text t -> spells args ss -> spells (p :: t :: args) (a :: ss)
| P_letter_equals a c t args ss : letter a = Some c -> argument a = Some t -> ascii_text t -> spells args ss -> spells ((45 :: c :: 61 :: t) :: args) (a :: ss)
| P_equals p a t args ss : argument a = Some t -> shortens p a -> ascii_text t -> spells args ss -> spells ((p ++ 61 :: t) :: args) (a :: ss).
End Spelling.
(** what was written last *)
Definition last_given {R A} (pick : R -> option A) (ss : list R) : option A :=
  fold_left (fun acc s => match pick s with Some v => Some v | None => acc end) ss None.
