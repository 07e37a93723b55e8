(** Specification of values after "=" on the command line of parse_timestamps, independent of argparse and of the model. *)
From Coq Require Import String.
From Verif Require Import Base CdRunModel TsCliModel FpCliSpec CliSpec TsCliSpec.
Import ListNotations. Local Open Scope Z_scope.

(** the word is the option's letter or its name, possibly shortened *)
Definition introduces (w : list Z) (a : want) : Prop := (exists c, tletter a = Some c /\ w = [45; c]) \/ shortens tword twords w a.
(** words all versions of argparse read alike: no "=" after a group of letters *)
Definition clear_word (w : list Z) : Prop := ascii_text w /\ forall c r, w = 45 :: c :: r -> c <> 45 -> In 61 (c :: r) -> c <> 61 /\ exists t, r = 61 :: t.
(** values which look like options: a dash and more, no negative number, no space *)
Definition dashed (t : list Z) : Prop := (exists r, t = 45 :: r) /\ t <> [45; 45] /\ ~ own_word t /\ ~ In 32 t /\ ~ In 10 t.
(** C149: "--option=value" and "--option value" are the same *)
Definition C149_statement : Prop := forall lg p path a1 s1 w a t rest fs, tspells a1 s1 -> introduces w a -> targument a = Some t -> clear_word t -> Forall clear_word rest ->
  trun lg p path (a1 ++ w :: t :: rest) fs = trun lg p path (a1 ++ (w ++ 61 :: t) :: rest) fs.
