(** File names with blanks on freqcd's command line; full statement of C199. *)
From Verif Require Import Base FreqcdModel FreqcdSpec FreqcdCliSpec FreqcdCliStatements CdRunModel.
Import ListNotations.
Local Open Scope Z_scope.

Definition dash_i : list Z := [45; 105].
(** A name of up to 199 characters is used as it is. *)
Definition C199_statement : Prop := forall prog t, t <> [] -> len t <= 199 -> Forall (fun c => c <> 0) t -> answers [prog; dash_i; t] (Runs 0 t [] [] false).
(** [name] is the first word of [t] *)
Definition first_word (t name : list Z) : Prop := exists bl rest, t = bl ++ name ++ rest /\ Forall blank bl /\ name <> [] /\ Forall (fun c => ~ blank c) name /\
  match rest with c :: _ => blank c | [] => True end.
(** the same setting with names cut to their first words *)
Inductive cut : setting -> setting -> Prop :=
| C_same s : cut s s
| C_in t name : first_word t name -> cut (InName t) (InName name)
| C_out t name : first_word t name -> cut (OutName t) (OutName name)
| C_freq t name : first_word t name -> cut (FreqName t) (FreqName name).
