(** C149: values after "=" on the command line of parse_timestamps. *)
From Coq Require Import String.
From Verif Require Import Base FreqcdExamples CdRunModel TsCliModel FpCliSpec FpCliCase CliSpec TsCliSpec TsCliCase EqSpec EqProofs EqCase.
Import ListNotations. Local Open Scope string_scope. Local Open Scope list_scope. Local Open Scope Z_scope.

(** C149.  Full statement: [C149_statement].  "--tfilter-start -1e3" is refused, "--tfilter-start=-1e3" is not. *)
Theorem C149_refuted : ~ C149_statement.
Proof. exact c149_refuted. Qed.
Print Assumptions C149_refuted.
(** Missing from the full statement: values which start with a dash and are not plain negative numbers.  What follows on the command line is arbitrary. *)
Theorem C149_partial : forall lg p path a1 s1 w a t rest fs, tspells a1 s1 -> introduces w a -> targument a = Some t -> own_word t -> ascii_text t -> Forall clear_word rest ->
  trun lg p path (a1 ++ w :: t :: rest) fs = trun lg p path (a1 ++ (w ++ 61 :: t) :: rest) fs.
Proof. exact c149_partial. Qed.
Print Assumptions C149_partial.
(** What happens with those values in a word of their own: exit code 2, whatever follows. *)
Theorem C149_actual : forall lg p path a1 s1 w a t rest fs, tspells a1 s1 -> ~ In WHelp s1 -> introduces w a -> targument a <> None -> dashed t -> clear_word t -> Forall clear_word rest ->
  said (trun lg p path (a1 ++ w :: t :: rest) fs) 2 fs [].
Proof. exact c149_actual. Qed.
Print Assumptions C149_actual.
(** Options without a value: "=" and anything after it is refused. *)
Theorem C149_flags : forall lg p path a1 s1 w a t rest fs, tspells a1 s1 -> ~ In WHelp s1 -> introduces w a -> targument a = None -> ascii_text t -> Forall clear_word rest ->
  said (trun lg p path (a1 ++ (w ++ 61 :: t) :: rest) fs) 2 fs [].
Proof. exact c149_flags. Qed.
Print Assumptions C149_flags.
(** parse_timestamps -A=1 --tfilter-s -1e3 a b *)
Example C149_case : tspells [str "-A=1"] [WFrom (str "1")] /\ introduces (str "--tfilter-s") (WStart (str "-1e3")) /\ introduces (str "-p") WPrint /\ dashed (str "-1e3") /\ own_word (str "-5") /\
  Forall clear_word (map str ["-1e3"; "a"; "b"]).
Proof.
  split; [exact from149|]. split; [exact (start149 _)|]. split; [exact print149|]. split; [exact dashed149|]. split; [right; right; left; exists (str "5"); repeat split; [discriminate|repeat constructor; discriminate]|].
  apply Forall_cons; [now apply clear_simple|]. apply Forall_cons; [now apply clear_simple|]. apply Forall_cons; [now apply clear_simple|constructor].
Qed.
(** parse_timestamps -A=1 --tfilter-s=-1e3 a b *)
Example C149_taken : command (map str ["-A=1"; "--tfilter-s=-1e3"; "a"; "b"]) [WFrom (str "1"); WStart (str "-1e3")] (str "a") (Some (str "b")) /\
  trun (fun x => x) 64 (fun x => x) (map str ["-A=1"; "--tfilter-s=-1e3"; "a"; "b"]) fs149 = Ends (mkEnd 0 (put fs149 (str "b") []) []).
Proof. exact taken149. Qed.
