(** generate_freqcd_testcase from the command line: C130 - C133. *)
From Coq Require Import QArith String List.
From Verif Require Import Float Base TimestampsModel TimestampsSpec FpfindModel FpfindSpec MiscModel MiscSpec CdRunModel FpCliSpec CliSpec TsCliModel TsCliSpec GenCliModel GenCliSpec GenCliProofs3 GenCliCase.
Import ListNotations. Local Open Scope string_scope. Local Open Scope list_scope. Local Open Scope Z_scope.

(** C130.  Full statement: [C130_statement].  It fails: -x changes nothing. *)
Theorem C130_refuted : ~ C130_statement.
Proof. exact c130_refuted. Qed.
Print Assumptions C130_refuted.
(** without -x *)
Theorem C130_partial : forall p tmp args ss fs stdin ws zs, gcommand args ss -> Forall ggood ss -> ~ In GHelp ss -> last_given gtimes_of ss = Some ws -> Forall2 whole ws zs ->
  Forall (fun t => 0 <= t) zs -> ~ In GLegacy ss -> delivers (grun p tmp args fs stdin) 0 fs (last_given gout_of ss) [] (events_at false zs).
Proof. exact c130_partial. Qed.
Print Assumptions C130_partial.
(** What the program does with -t: -x or not, the words are in the new order; at a negative time it ends, and the events before it are written. *)
Theorem C130_actual : forall p tmp args ss fs stdin ws zs, gcommand args ss -> Forall ggood ss -> last_given gtimes_of ss = Some ws -> Forall2 whole ws zs ->
  (In GHelp ss -> grun p tmp args fs stdin = Shows_help) /\
  (~ In GHelp ss -> Forall (fun t => 0 <= t) zs -> delivers (grun p tmp args fs stdin) 0 fs (last_given gout_of ss) [] (events_at false zs)) /\
  (~ In GHelp ss -> forall zs1 z zs2, zs = zs1 ++ z :: zs2 -> Forall (fun t => 0 <= t) zs1 -> z < 0 -> delivers (grun p tmp args fs stdin) 1 fs (last_given gout_of ss) [] (events_at false zs1)).
Proof. exact c130_actual. Qed.
Print Assumptions C130_actual.
(** the first example of the script's header *)
Example C130_case : gcommand (args130 [codes "-x"]) (ss130 [GLegacy]) /\ Forall ggood (ss130 [GLegacy]) /\ last_given gtimes_of (ss130 [GLegacy]) = Some ws130 /\ Forall2 whole ws130 zs130 /\
  gcommand (args130 []) (ss130 []) /\
  match grun 64 tmpname (args130 []) none_fs [] with Ends e => files e (codes ".input") | _ => None end =
    Some [1;0;0;0;0;0;0;0; 1;0;0x28;0x6b;0xee;0;0;0; 1;0;0x50;0xd6;0xdc;1;0;0].
Proof. split; [exact (command130 _ _ x_command)|]. split; [apply good130x; repeat constructor|]. split; [reflexivity|]. split; [exact whole130|]. split; [exact (command130 [] [] G_end)|]. vm_compute. reflexivity. Qed.

(** C131 *)
Theorem C131 : forall p tmp args ss fs lg evs, 54 <= p -> with_input args ss [45] -> Forall ggood ss -> ~ In GHelp ss -> last_given gtimes_of ss = None -> last_given gout_of ss = None -> gasked GLegacy ss lg ->
  fs tmp = None -> Forall event_ok evs -> exists out, numbers (map fst evs) out /\ said (grun p tmp args fs (encode (A1 lg) (map word_of evs))) 0 fs out.
Proof. exact c131. Qed.
Print Assumptions C131.
Example C131_case : with_input [codes "-x"; codes "-"] [GLegacy] [45] /\ Forall event_ok evs131 /\ gasked GLegacy [GLegacy] true /\ none_fs tmpname = None /\
  shown (grun 64 tmpname [codes "-x"; codes "-"] none_fs (encode (A1 true) (map word_of evs131))) = Some (0, lines_text (map codes ["5"; "1000000000"; "18014398509481983"])).
Proof. split; [exact input131|]. split; [exact ok131|]. split; [split; [intros _; now left|reflexivity]|]. split; [reflexivity|]. vm_compute. reflexivity. Qed.

(** C132.  Full statement: [C132_statement].  Both lines fail: without arguments the help text is printed to standard error, and a file named is replaced by standard input. *)
Theorem C132_refuted : ~ C132_statement.
Proof. exact c132_refuted. Qed.
Print Assumptions C132_refuted.
Theorem C132_actual : forall p tmp fs stdin, said (grun p tmp [] fs stdin) 1 fs [].
Proof. exact c132_none. Qed.
Print Assumptions C132_actual.
Theorem C132_overwritten : forall p tmp args ss fs input lg evs, 54 <= p -> with_input args ss input -> input <> [] -> input <> [45] -> Forall ggood ss -> ~ In GHelp ss ->
  last_given gtimes_of ss = None -> last_given gout_of ss = None -> gasked GLegacy ss lg -> Forall event_ok evs -> let X := encode (A1 lg) (map word_of evs) in
  exists e, grun p tmp args fs X = Ends e /\ code e = 0 /\ numbers (map fst evs) (stdout e) /\ files e input = Some X /\ forall m, m <> input -> files e m = fs m.
Proof. exact c132_file. Qed.
Print Assumptions C132_overwritten.
(** generate_freqcd_testcase.py .input with nothing on standard input empties .input and prints nothing *)
Example C132_case : with_input [codes ".input"] [] (codes ".input") /\ stored (codes ".input") = Some (encode (A1 false) (map word_of evs131)) /\
  match grun 64 tmpname [codes ".input"] stored [] with Ends e => Some (code e, stdout e, files e (codes ".input")) | _ => None end = Some (0, [], Some []).
Proof. split; [apply input_alone; [now apply FpCliCase.own_simple|repeat constructor; discriminate]|]. split; [reflexivity|]. vm_compute. reflexivity. Qed.

(** C133 *)
Theorem C133 : forall p tmp args ss fs ls zs, gcommand args ss -> args <> [] -> Forall ggood ss -> ~ In GHelp ss -> last_given gtimes_of ss = None -> typed ls zs ->
  delivers (grun p tmp args fs (lines_text ls)) 1 fs (last_given gout_of ss) greeting (events_at false zs).
Proof. exact c133. Qed.
Print Assumptions C133.
(** -x is an argument, so that the program asks for times *)
Example C133_case : gcommand [codes "-x"] [GLegacy] /\ typed lines133 [12; 7; 20000000000000000] /\
  shown (grun 64 tmpname [codes "-x"] none_fs (lines_text lines133)) =
    Some (1, greeting ++ [1;48;0;0;0;0;0;0; 1;28;0;0;0;0;0;0] ++ events_at false [20000000000000000 - 2 ^ 54]).
Proof. split; [exact x_command|]. split; [exact typed133|]. vm_compute. reflexivity. Qed.
