(** The stand-in script for freqcd: C164 to C166. *)
From Coq Require Import String.
From Verif Require Import Base FreqcdModel FreqcdExamples FreqcdCli FreqcdCliSpec CdRunModel CdRunSpec CdRunRefute StubModel StubSpec StubProofs.
Local Open Scope Z_scope.

(** C164.  Full statement: [C164_statement]. *)
Theorem C164_refuted : ~ C164_statement.
Proof. exact C164_refuted_lemma. Qed.
Print Assumptions C164_refuted.
(** with absolute names, or none *)
Theorem C164_partial : forall strict junk ib ob fb pl w cwd prog args ss f stdin,
  compiles pl (locate (root pl) prog) = true -> absolute prog -> asks args ss f ->
  (forall t, named ss t -> absolute t /\ t <> record_file pl) ->
  alike (record_file pl) (call strict junk ib ob fb pl w cwd prog args stdin)
    (call strict junk ib ob fb pl (compiled_at w prog) cwd prog args stdin).
Proof. exact C164_partial_lemma. Qed.
Print Assumptions C164_partial.
(** in general: as when called in the directory of the package *)
Theorem C164_actual : forall strict junk ib ob fb pl w cwd prog args ss f stdin,
  compiles pl (locate (root pl) prog) = true -> absolute prog -> compiled w prog = false -> asks args ss f ->
  (forall t, named ss t -> locate (root pl) t <> record_file pl) ->
  alike (record_file pl) (call strict junk ib ob fb pl w cwd prog args stdin)
    (call strict junk ib ob fb pl (compiled_at w prog) (root pl) prog args stdin).
Proof. exact C164_actual_lemma. Qed.
Print Assumptions C164_actual.
(** the compiled program and the runs of the other properties: names are those of files in the directory it is called in *)
Theorem C164_main : forall strict junk ib ob fb pl w cwd prog args ss args' ss' f stdin,
  compiled w (locate cwd prog) = true -> asks args ss f -> asks args' ss' f -> legacy_of ss' = legacy_of ss ->
  in_directory cwd (last_of in_of ss) (last_of in_of ss') -> in_directory cwd (last_of out_of ss) (last_of out_of ss') ->
  in_directory cwd (last_of freq_of ss) (last_of freq_of ss') ->
  match call strict junk ib ob fb pl w cwd prog args stdin, freqcd_main strict junk ib ob fb (prog :: args') (data w) stdin with
  | Some (Ok (e, _)), Some (Ok e') => e = e'
  | Some (Err e), Some (Err e') => e = e'
  | None, None => True
  | _, _ => False
  end.
Proof. exact C164_main_lemma. Qed.
Print Assumptions C164_main.
(** the same command in the same directory: the input file is not found, then it is *)
Example C164_case : asks argsI [InName (str "a")] 0 /\
  seen_call (call true None IB IB FB (there true) homes (str "/h") (str "/b/freqcd") argsI []) = Some (-3, []) /\
  seen_call (call true None IB IB FB (there true) (compiled_at homes (str "/b/freqcd")) (str "/h") (str "/b/freqcd") argsI []) = Some (0, []).
Proof. split; [exact asksI|]. split; [exact first_I|exact later_I]. Qed.
(** with an absolute name both calls find it *)
Example C164_absolute : asks argsJ [InName (str "/h/a")] 0 /\
  seen_call (call true None IB IB FB (there true) homes (str "/h") (str "/b/freqcd") argsJ []) = Some (0, []) /\
  seen_call (call true None IB IB FB (there true) (compiled_at homes (str "/b/freqcd")) (str "/h") (str "/b/freqcd") argsJ []) = Some (0, []).
Proof. split; [exact asksJ|]. split; vm_compute; reflexivity. Qed.

(** C165.  Full statement: [C165_statement]. *)
Theorem C165_refuted : ~ C165_statement.
Proof. exact C165_refuted_lemma. Qed.
Print Assumptions C165_refuted.
(** by an absolute name, or in the directory of the package *)
Theorem C165_partial : forall strict junk ib ob fb pl w cwd prog args stdin e done,
  compiles pl (locate (root pl) prog) = true -> call strict junk ib ob fb pl w cwd prog args stdin = Some (Ok (e, done)) ->
  absolute prog \/ cwd = root pl -> done (locate cwd prog) = true.
Proof. exact C165_partial_lemma. Qed.
Print Assumptions C165_partial.
(** by a relative name from elsewhere: never *)
Theorem C165_actual : forall strict junk ib ob fb pl w cwd prog args stdin e done,
  call strict junk ib ob fb pl w cwd prog args stdin = Some (Ok (e, done)) -> compiled w (locate cwd prog) = false ->
  locate cwd prog <> locate (root pl) prog -> done (locate cwd prog) = false.
Proof. exact C165_actual_lemma. Qed.
Print Assumptions C165_actual.
Example C165_case : exists e done, call true None IB IB FB (there true) homes (str "/h") (str "./freqcd") argsI [] = Some (Ok (e, done)) /\
  done (str "/h/./freqcd") = false /\ done (str "/r/./freqcd") = true.
Proof. eexists _, _. split; [vm_compute; reflexivity|]. split; reflexivity. Qed.

(** C166.  Full statement: [C166_statement]. *)
Theorem C166_refuted : ~ C166_statement.
Proof. exact C166_refuted_lemma. Qed.
Print Assumptions C166_refuted.
(** if the program is there or can be compiled *)
Theorem C166_partial : forall strict junk ib ob fb pl w cwd prog args stdin e done,
  call strict junk ib ob fb pl w cwd prog args stdin = Some (Ok (e, done)) ->
  compiled w (locate cwd prog) = true \/ compiles pl (locate (root pl) prog) = true -> code e <> 0 -> stdout e = [].
Proof. exact C166_partial_lemma. Qed.
Print Assumptions C166_partial.
(** if it cannot *)
Theorem C166_actual : forall strict junk ib ob fb pl w cwd prog args stdin,
  compiled w (locate cwd prog) = false -> compiles pl (locate (root pl) prog) = false ->
  exists e done, call strict junk ib ob fb pl w cwd prog args stdin = Some (Ok (e, done)) /\ code e = 1 /\ stdout e = complaint /\
    (forall m, m <> root pl ++ [47; 102; 114; 101; 113; 99; 100; 95; 112; 97; 116; 104] -> files e m = data w m) /\
    files e (root pl ++ [47; 102; 114; 101; 113; 99; 100; 95; 112; 97; 116; 104]) = Some (prog ++ [10]) /\ forall m, done m = compiled w m.
Proof. exact C166_actual_lemma. Qed.
Print Assumptions C166_actual.
Example C166_case : seen_call (call true None IB IB FB (there false) homes (str "/h") (str "/b/freqcd") argsI []) = Some (1, complaint).
Proof. reflexivity. Qed.
