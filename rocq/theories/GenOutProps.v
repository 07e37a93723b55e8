(** -o of generate_freqcd_testcase when events are read: C203. *)
From Coq Require Import QArith String List.
From Verif Require Import Float Base TimestampsModel TimestampsSpec FpfindModel FpfindSpec MiscModel MiscSpec CdRunModel FpCliSpec CliSpec FpCliProofs FpCliCase TsCliModel TsCliSpec GenCliModel GenCliSpec GenCliProofs3 GenCliCase GenOutSpec GenOutProofs.
Import ListNotations. Local Open Scope string_scope. Local Open Scope list_scope. Local Open Scope Z_scope.

(** C203.  Full statement: [C203_statement].  It fails: the times are printed, and the output file is emptied. *)
Theorem C203_refuted : ~ C203_statement.
Proof. exact c203_refuted. Qed.
Print Assumptions C203_refuted.
(** What the program does: *)
Theorem C203_actual : forall p tmp args ss fs lg evs o, 54 <= p -> with_input args ss [45] -> Forall ggood ss -> ~ In GHelp ss -> last_given gtimes_of ss = None -> last_given gout_of ss = Some o ->
  gasked GLegacy ss lg -> fs tmp = None -> o <> tmp -> Forall event_ok evs ->
  exists e, grun p tmp args fs (encode (A1 lg) (map word_of evs)) = Ends e /\ code e = 0 /\ numbers (map fst evs) (stdout e) /\ files e o = Some [] /\ forall m, m <> o -> files e m = fs m.
Proof. exact c203. Qed.
Print Assumptions C203_actual.
(** with the name of an input file, which standard input replaces (C132) *)
Theorem C203_file : forall p tmp args ss fs input lg evs o, 54 <= p -> with_input args ss input -> input <> [] -> input <> [45] -> Forall ggood ss -> ~ In GHelp ss -> last_given gtimes_of ss = None ->
  last_given gout_of ss = Some o -> gasked GLegacy ss lg -> Forall event_ok evs -> let X := encode (A1 lg) (map word_of evs) in
  exists e, grun p tmp args fs X = Ends e /\ code e = 0 /\ numbers (map fst evs) (stdout e) /\ files e input = Some X /\ (o <> input -> files e o = Some []) /\ forall m, m <> input -> m <> o -> files e m = fs m.
Proof. exact c203_file. Qed.
Print Assumptions C203_file.
(** -o a - *)
Example C203_case : with_input [codes "-o"; codes "a"; [45]] [GOut (codes "a")] [45] /\ Forall event_ok evs131 /\
  match grun 64 tmpname [codes "-o"; codes "a"; [45]] none_fs (encode (A1 false) (map word_of evs131)) with
  | Ends e => stdout e = lines_text (map codes ["5"; "1000000000"; "18014398509481983"]) /\ files e (codes "a") = Some []
  | _ => False
  end.
Proof. split; [apply input203; [right; now left|ascii]|]. split; [exact ok131|]. vm_compute. split; reflexivity. Qed.
(** -o a b *)
Example C203_file_case : with_input [codes "-o"; codes "a"; codes "b"] [GOut (codes "a")] (codes "b").
Proof. apply input203; [now apply own_simple|ascii]. Qed.
