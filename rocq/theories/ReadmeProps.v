(** parse_timestamps -p from the command line, and as the README writes it: C128. *)
From Coq Require Import QArith Qabs String List Lia.
From Verif Require Import Float Base FreqcdExamples CdRunModel CdRunProofs FpfindModel TimestampsModel TimestampsSpec FpfindSpec ReportModel ReportSpec ReportProofs2
  ArgModel FpCliSpec CliSpec FpCliCase TsCliModel TsCliSpec TsCliProofs3 TsCliCase ReadmeSpec ReadmeProofs.
Import ListNotations. Local Open Scope string_scope. Local Open Scope list_scope. Local Open Scope Z_scope.

(** C128 *)
Theorem C128 : forall lg p path args ss input output fs fin memory vs v0 v1, log10_ok lg -> 54 <= p -> command args ss input output -> Forall tgood ss -> ~ In WHelp ss -> In WPrint ss -> filterless ss ->
  input_format ss fin -> wanted WMemory ss memory -> input <> [] -> fs input = Some (encode fin vs) -> Forall TimestampsSpec.word_ok vs -> printable memory fin vs ->
  first vs = Some v0 -> final vs = Some v1 -> time_of v0 + 32 <= time_of v1 -> len (encode fin vs) <= 2 ^ 53 ->
  exists lines, said (trun lg p path args fs) 0 fs (lines_text lines) /\ statistics (path input) (len (encode fin vs)) (lg (len vs) + 1) vs v0 v1 lines.
Proof. exact c128. Qed.
Print Assumptions C128.
(** the README's command *)
Theorem C128_readme : forall lg p path name fs vs v0 v1, log10_ok lg -> 54 <= p -> file_name name -> name <> [] -> fs name = Some (encode (A1 true) vs) -> Forall TimestampsSpec.word_ok vs ->
  first vs = Some v0 -> final vs = Some v1 -> time_of v0 + 32 <= time_of v1 -> len (encode (A1 true) vs) <= 2 ^ 53 ->
  exists lines, said (trun lg p path (readme_parse name) fs) 0 fs (lines_text lines) /\ statistics (path name) (len (encode (A1 true) vs)) (lg (len vs) + 1) vs v0 v1 lines.
Proof. exact c128_readme. Qed.
Print Assumptions C128_readme.
Definition fs128 : filesys := fun n => if same n (str "a1X.dat") then Some (encode (A1 true) (map word_of [(256, 1); (512, 3); (640000000256, 4)])) else None.
Definition shown128 : list (list Z) := map str ["Name: a1X.dat"; "Filesize (MB): 0.000"; "Total events    : 3"; "  Channel 1     : 2"; "  Channel 2     : 1"; "  Channel 3     : 1"; "  Channel 4     : 0";
  "  Multi-channel : 1"; "  No channel    : 0"; "Duration (s) :     2.500000000"; "  ~ start    :     0.000000001"; "  ~ end      :     2.500000001"; "Event rate (/s) : 1"; "Detection patterns: [1, 3, 4]"].
Example C128_case : log10_ok (fun n => len (dec n) - 1) /\ file_name (str "a1X.dat") /\ Forall TimestampsSpec.word_ok (map word_of [(256, 1); (512, 3); (640000000256, 4)]) /\
  time_of (word_of (256, 1)) + 32 <= time_of (word_of (640000000256, 4)) /\
  match trun (fun n => len (dec n) - 1) 64 (fun x => x) (readme_parse (str "a1X.dat")) fs128 with Ends e => code e = 0 /\ CdRunModel.stdout e = lines_text shown128 | _ => False end.
Proof.
  split; [exact log10_exists|]. split; [now apply name_simple|]. split; [repeat constructor; vm_compute; congruence|]. split; [vm_compute; congruence|]. vm_compute. split; reflexivity.
Qed.
