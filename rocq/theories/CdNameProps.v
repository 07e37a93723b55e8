(** File names with blanks on freqcd's command line: C199. *)
From Coq Require Import String List.
From Verif Require Import Base FreqcdModel FreqcdSpec FreqcdExamples FreqcdCliSpec FreqcdCliStatements CdRunModel CdNameSpec CdNameProofs.
Import ListNotations.
Local Open Scope Z_scope.

(** C199.  Full statement: [C199_statement].  It fails for names with blanks. *)
Theorem C199_refuted : ~ C199_statement.
Proof. exact C199_refuted_lemma. Qed.
Print Assumptions C199_refuted.
(** Only the first word of a name counts: the run is the one with that word. *)
Theorem C199_actual : forall strict junk ib ob fb prog args args' ss ss' fs stdin, writes args ss -> writes args' ss' -> Forall2 cut ss ss' ->
  freqcd_main strict junk ib ob fb (prog :: args) fs stdin = freqcd_main strict junk ib ob fb (prog :: args') fs stdin.
Proof. exact c199. Qed.
Print Assumptions C199_actual.
(** Values without a word are refused. *)
Theorem C199_blank : forall prog args s t, writes args [s] -> argument s = Some t -> Forall blank t ->
  answers (prog :: args) (Stops match s with InName _ => -2 | OutName _ => -8 | FreqName _ => -10 | _ => -4 end).
Proof. exact c199_blank. Qed.
Print Assumptions C199_blank.
Example C199_case : writes [dash_i; str " a b"] [InName (str " a b")] /\ writes [dash_i; str "a"] [InName (str "a")] /\ Forall2 cut [InName (str " a b")] [InName (str "a")] /\
  writes [dash_i; str "  "] [InName (str "  ")] /\ Forall blank (str "  ").
Proof.
  split; [apply writes_i|]. split; [apply writes_i|]. split; [constructor; [apply C_in; exact word_a|constructor]|]. split; [apply writes_i|]. repeat constructor.
Qed.
