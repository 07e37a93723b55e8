(** Where messages go: C156 to C158. *)
From Coq Require Import String List.
From Verif Require Import Base TimestampsModel MiscModel ReportModel LoggersModel LoggersSpec LoggersProofs FreqcdExamples.
Import ListNotations. Local Open Scope Z_scope.

(** C156.  [l] is what a run gives to its loggers, anything. *)
Theorem C156_refuted : ~ C156_statement.
Proof. exact c156_refuted. Qed.
Print Assumptions C156_refuted.
(** the file has all of fpfind's own records of the level, in order, and nothing else *)
Theorem C156_partial : forall isspace v p q l out, 0 <= v -> run isspace (mkOptions v (Some p) q) l = Ok out ->
  written_to (LogFile p) out = map (formatted isspace true) (flat_map (main_records (wanted v)) l).
Proof. exact c156_partial. Qed.
Print Assumptions C156_partial.
(** with or without a file, standard error has these, and the warnings of parse_epochs *)
Theorem C156_stderr : forall isspace v p q l out, 0 <= v -> run isspace (mkOptions v p q) l = Ok out ->
  written_to Stderr out = flat_map (stderr_texts isspace (wanted v)) l.
Proof. exact c156_stderr. Qed.
Print Assumptions C156_stderr.
Definition info156 : record := mkR 20 (str "20240123_075924") (str "  Reading from epoch directories...") NoDetails [].
Example C156_case : exists out, run tabs (mkOptions 1 (Some (str "log")) false) [Main info156; Root; Epochs warn156; Main detail158; Epochs info156] = Ok out /\
  written_to (LogFile (str "log")) out = [str "20240123_075924|   Reading from epoch directories..."; str "t| Interrupted" ++ 10 :: str " |   late dt = 0 ns"] /\
  written_to Stderr out = [str "20240123_075924|   Reading from epoch directories..."; str "20240123_075924| aabbccdd is not a Type2 header file";
    str "t| Interrupted" ++ 10 :: str " |   late dt = 0 ns"].
Proof. eexists. split; [reflexivity|]. split; vm_compute; reflexivity. Qed.

(** C157. *)
Theorem C157_refuted : ~ C157_statement.
Proof. exact c157_refuted. Qed.
Print Assumptions C157_refuted.
(** the option makes no difference *)
Theorem C157_actual : forall isspace v p q l, run isspace (mkOptions v p q) l = run isspace (mkOptions v p false) l.
Proof. exact c157_actual. Qed.
Print Assumptions C157_actual.
(** the half of the promise that holds: logging is not blocked *)
Theorem C157_partial : forall isspace v p l out, 0 <= v -> run isspace (mkOptions v (Some p) true) l = Ok out ->
  written_to (LogFile p) out = map (formatted isspace true) (flat_map (main_records (wanted v)) l).
Proof. exact c157_partial. Qed.
Print Assumptions C157_partial.
Example C157_case : run tabs (mkOptions 0 None true) [Main err157] = Ok [(Stderr, str "20240123_075924| Timestamp files/epochs must be supplied with -tT/-dD")].
Proof. vm_compute. reflexivity. Qed.

(** C158. *)
Theorem C158_refuted : ~ C158_statement.
Proof. exact c158_refuted. Qed.
Print Assumptions C158_refuted.
(** the form is that of the first call *)
Theorem C158_partial : forall isspace cs n lv h lvl r, stands_for lv lvl ->
  emit isspace (calls fresh (cs ++ [(n, lv, h)])) n r = if lvl <=? r_level r then [(Stderr, formatted isspace (first_form n cs h) r)] else [].
Proof. exact c158_partial. Qed.
Print Assumptions C158_partial.
Example C158_case : let cs := [(str "a", Label (str "debug"), true); (str "a.b", Label (str "error"), false); (str "a", NoLabel, false)] in
  emit tabs (calls fresh cs) (str "a") detail158 = [(Stderr, str "t| Interrupted" ++ 10 :: str " |   late dt = 0 ns")] /\
  emit tabs (calls fresh cs) (str "a.b") detail158 = [] /\ emit tabs (calls fresh cs) (str "a") info156 = [].
Proof. cbv zeta. split; [|split]; vm_compute; reflexivity. Qed.
