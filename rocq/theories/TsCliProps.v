(** parse_timestamps from the command line to exit code, standard output and files: C118 - C122. *)
From Coq Require Import QArith String List Lia.
From Verif Require Import Float Base FreqcdExamples TimestampsModel TimestampsSpec TimestampsExamples ReportModel CdRunModel ArgModel FpCliSpec CliSpec TsCliModel TsCliSpec TsCliProofs3 TsCliCase.
Import ListNotations.
Local Open Scope string_scope. Local Open Scope list_scope.
Local Open Scope Z_scope.

(** C118 *)
Theorem C118 : forall lg p path args ss input output fs, command args ss input output -> Forall tgood ss ->
  (In WHelp ss -> trun lg p path args fs = Shows_help) /\
  (~ In WHelp ss -> last_given from_of ss = None -> said (trun lg p path args fs) 2 fs []) /\
  (~ In WHelp ss -> forall fin fout f memory, input_format ss fin -> output_format ss fout -> filter_asked ss f -> wanted WMemory ss memory ->
    (~ In WPrint ss -> output = None \/ output = Some [] -> said (trun lg p path args fs) 1 fs []) /\
    (input = [] \/ fs input = None -> said (trun lg p path args fs) 1 fs []) /\
    forall file, input <> [] -> fs input = Some file ->
      (In WPrint ss -> forall lines x c, print_main lg p memory fin f (path input) file = (lines, x) -> code_for x c -> said (trun lg p path args fs) c fs (lines_text lines)) /\
      (~ In WPrint ss -> forall name out x c, output = Some name -> name <> [] -> convert p memory fin fout f file = (out, x) -> code_for x c ->
        (memory = true -> x = None -> wrote (trun lg p path args fs) 0 fs name out) /\ (memory = true -> x <> None -> said (trun lg p path args fs) 1 fs []) /\
        (memory = false -> name <> input -> wrote (trun lg p path args fs) c fs name out))).
Proof. exact c118. Qed.
Print Assumptions C118.
(** No words; options only; a format which is none. *)
Theorem C118_nothing : forall lg p path fs, said (trun lg p path [] fs) 1 fs [].
Proof. exact c118_nothing. Qed.
Print Assumptions C118_nothing.
Theorem C118_no_file : forall lg p path args ss fs, tspells args ss -> args <> [] -> ~ In WHelp ss -> said (trun lg p path args fs) 2 fs [].
Proof. exact c118_no_file. Qed.
Print Assumptions C118_no_file.
Theorem C118_format : forall lg p path args ss i o fs a, command args ss i o -> ~ In WHelp ss -> In a ss ->
  match a with WFrom t | WTo t => ~ format_text t | _ => False end -> said (trun lg p path args fs) 2 fs [].
Proof. exact c118_refused. Qed.
Print Assumptions C118_format.
(** parse_timestamps -qXA1 a b -a 2 --pfilter-p 3 --pfilter-m --tfilter-s 9.5367431640625e-07 *)
Example C118_case : command args119 ss119 (str "a") (Some (str "b")) /\ Forall tgood ss119 /\ input_format ss119 (A1 true) /\ output_format ss119 A2 /\ filter_asked ss119 some_filter /\
  wanted WMemory ss119 false /\ tspells [str "-qXA1"] [WQuiet; WLegacyIn; WFrom (str "1")].
Proof. destruct converting119 as (A & B & _ & _ & C & D & E & F & _). repeat (split; [assumption|]). exact first119. Qed.

(** C119 *)
Theorem C119 : forall lg p path args ss i o fs fin fout f memory vs, 54 <= p -> converting args ss i o fs fin fout f memory vs -> memory = true \/ o <> i ->
  wrote (trun lg p path args fs) 0 fs o (encode fout (map (converted f) (filter (kept f) vs))).
Proof. exact c119. Qed.
Print Assumptions C119.
Example C119_case : converting args119 ss119 (str "a") (str "b") fs119 (A1 true) A2 some_filter false words_low /\
  encode A2 (map (converted some_filter) (filter (kept some_filter) words_low)) = str "0000003d09000002" ++ [10].
Proof. split; [exact converting119|vm_compute; reflexivity]. Qed.

(** C120.  Full statement: [C120_statement].  Streaming, the output is opened and emptied before the input is read. *)
Theorem C120_refuted : ~ C120_statement.
Proof. exact c120_refuted. Qed.
Print Assumptions C120_refuted.
(** Whatever the file holds, it is empty afterwards, and the exit code is 0. *)
Theorem C120_actual : forall lg p path args ss i fs fin fout f file, command args ss i (Some i) -> Forall tgood ss -> ~ In WHelp ss -> ~ In WPrint ss -> ~ In WMemory ss ->
  input_format ss fin -> output_format ss fout -> filter_asked ss f -> i <> [] -> fs i = Some file -> wrote (trun lg p path args fs) 0 fs i [].
Proof. exact c120_actual. Qed.
Print Assumptions C120_actual.
(** Missing from the full statement: runs without --inmemory. *)
Theorem C120_partial : forall lg p path args ss i fs fin fout f vs, 54 <= p -> converting args ss i i fs fin fout f true vs ->
  wrote (trun lg p path args fs) 0 fs i (encode fout (map (converted f) (filter (kept f) vs))).
Proof. exact c120_partial. Qed.
Print Assumptions C120_partial.
(** parse_timestamps -A1 x x *)
Example C120_case : converting (map str ["-A1"; "x"; "x"]) [WFrom (str "1")] (str "x") (str "x") fs120 (A1 false) (A1 false) plain_filter false [word_of (5, 1)].
Proof. exact converting120. Qed.

(** C121.  Full statement: [C121_statement].  Options between the file names are not accepted. *)
Theorem C121_refuted : ~ C121_statement.
Proof. exact c121_refuted. Qed.
Print Assumptions C121_refuted.
Theorem C121_actual : forall lg p path args ss i o fs, between args ss i o -> ~ In WHelp ss -> said (trun lg p path args fs) 2 fs [].
Proof. exact c121_actual. Qed.
Print Assumptions C121_actual.
(** Missing from the full statement: options between the file names.  How the options are written, and whether before or after the file names, makes no difference. *)
Theorem C121_partial : forall lg p path args args' ss i o fs, command args ss i o -> command args' ss i o -> trun lg p path args fs = trun lg p path args' fs.
Proof. exact c121_partial. Qed.
Print Assumptions C121_partial.
Example C121_case : between (map str ["-A1"; "a"; "-a2"; "b"]) [WFrom (str "1"); WTo (str "2")] (str "a") (str "b") /\
  command (map str ["-A1"; "-a2"; "a"; "b"]) [WFrom (str "1"); WTo (str "2")] (str "a") (Some (str "b")) /\ command (map str ["-A1"; "a"; "b"; "-a2"]) [WFrom (str "1"); WTo (str "2")] (str "a") (Some (str "b")).
Proof. split; [exact between121|]. split; [exact command121|exact command121']. Qed.

(** C122 *)
Theorem C122 : forall lg p path args1 ss1 args2 ss2 a b c fs fin fout f g m1 m2 evs, 54 <= p -> Forall event_ok evs -> filterless ss1 -> filterless ss2 ->
  converting args1 ss1 a b fs fin fout f m1 (map word_of evs) -> m1 = true \/ b <> a ->
  (forall fs', fs' b = Some (encode fout (map word_of evs)) -> converting args2 ss2 b c fs' fout fin g m2 (map word_of evs)) -> m2 = true \/ c <> b ->
  exists e1 e2, trun lg p path args1 fs = Ends e1 /\ code e1 = 0 /\ trun lg p path args2 (files e1) = Ends e2 /\ code e2 = 0 /\ files e2 c = fs a.
Proof. exact c122. Qed.
Print Assumptions C122.
(** parse_timestamps -A1 -a2 a b, then parse_timestamps --inmem -A2 b c *)
Example C122_case : Forall event_ok evs122 /\ filterless [WFrom (str "1"); WTo (str "2")] /\ filterless [WMemory; WFrom (str "2")] /\
  converting (map str ["-A1"; "-a2"; "a"; "b"]) [WFrom (str "1"); WTo (str "2")] (str "a") (str "b") fs122 (A1 false) A2 plain_filter false (map word_of evs122) /\
  (forall fs, fs (str "b") = Some (encode A2 (map word_of evs122)) ->
    converting (map str ["--inmem"; "-A2"; "b"; "c"]) [WMemory; WFrom (str "2")] (str "b") (str "c") fs A2 (A1 false) plain_filter true (map word_of evs122)).
Proof. split; [exact evs_low_ok|]. split; [repeat split|]. split; [repeat split|]. split; [exact converting_there|exact converting_back]. Qed.
