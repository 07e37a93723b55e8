(** Runs of freqcd on files: C100 - C104. *)
From Coq Require Import String List.
From Verif Require Import Base FreqcdModel FreqcdSpec FreqcdExamples FreqcdRefute FreqcdCliSpec CdRunModel CdRunSpec CdRunStatements CdRunProofs CdRunProofs2 CdRunProofs3 CdRunRefute.
Import ListNotations.
Local Open Scope string_scope. Local Open Scope list_scope.
Local Open Scope Z_scope.

(** C100 *)
Theorem C100 : forall junk ib ob fb prog args ss f fs stdin X, alloc_ok ib ob fb -> asks args ss f ->
  input_of fs stdin ss = Some X -> event_file (legacy_of ss) X -> last_of freq_of ss = None -> separate (last_of in_of ss) (last_of out_of ss) ->
  exists e times, freqcd_main true junk ib ob fb (prog :: args) fs stdin = Some (Ok e) /\ code e = 0 /\ retimed_file fs (files e) (stdout e) ss X times /\
    forall i t0 t t', event_time (legacy_of ss) X 0 t0 -> event_time (legacy_of ss) X i t -> nth_error times i = Some t' -> accurate f t0 (Z.of_nat i / 1024 + 1) t t'.
Proof. exact on_file. Qed.
Print Assumptions C100.
Example C100_case : asks argsC ssC 12 /\ input_of disk [] ssC = Some two /\ event_file (legacy_of ssC) two /\ last_of freq_of ssC = None /\ separate (last_of in_of ssC) (last_of out_of ssC) /\
  seen_run (freqcd_main true None IB IB FB (str "freqcd" :: argsC) disk []) (str "a") = Some (0, Some two, ev 0 1 ++ ev (far + 24576) 2).
Proof. split; [exact asksC|]. split; [reflexivity|]. split; [exact (two_events _ eq_refl)|]. split; [reflexivity|]. split; [right; discriminate|]. vm_compute. reflexivity. Qed.

(** C101.  Full statement: [C101_statement].  The first 1024 events are corrected before the frequency file is read. *)
Theorem C101_refuted : ~ C101_statement.
Proof. exact C101_refuted_lemma. Qed.
Print Assumptions C101_refuted.
(** the value on the command line for the first 1024 events, the file's for the time since then *)
Theorem C101_actual : forall junk ib ob fb prog args ss f fs stdin X t Zf, alloc_ok ib ob fb -> asks args ss f ->
  input_of fs stdin ss = Some X -> event_file (legacy_of ss) X -> last_of freq_of ss = Some t -> fs t = Some Zf -> bytes_ok Zf -> len Zf <= 99 -> Forall plain_line (lines Zf) ->
  separate (last_of in_of ss) (last_of out_of ss) -> separate (last_of freq_of ss) (last_of out_of ss) ->
  exists e times g, after_lines f (lines Zf) g /\ freqcd_main true junk ib ob fb (prog :: args) fs stdin = Some (Ok e) /\ code e = 0 /\ retimed_file fs (files e) (stdout e) ss X times /\
    forall i t0 t t', event_time (legacy_of ss) X 0 t0 -> event_time (legacy_of ss) X i t -> nth_error times i = Some t' ->
      (Z.of_nat i < 1024 -> accurate f t0 1 t t') /\
      (1024 <= Z.of_nat i -> forall t1 t1', event_time (legacy_of ss) X (Z.to_nat 1023) t1 -> nth_error times (Z.to_nat 1023) = Some t1' -> accurate g t1 (Z.of_nat i / 1024) t (t' - (t1' - t1))).
Proof. exact on_file_freq. Qed.
Print Assumptions C101_actual.
(** 1026 events, frequency file "12": the last two are corrected, relative to event 1023. *)
Example C101_case : asks argsF ssF 0 /\ event_file (legacy_of ssF) two /\ Forall plain_line (lines twelve) /\ after_lines 0 (lines twelve) 12 /\
  leaves (seen_run (freqcd_main true None IB IB FB (str "freqcd" :: argsF) disk3 []) (str "b"))
    (fun Y => drop (8 * 1023) Y = ev (2 ^ 40 * 1023) 0 ++ ev (2 ^ 40 * 1024 + 768) 0 ++ ev (2 ^ 40 * 1025 + 1536) 0 /\ take (8 * 1024) Y = take (8 * 1024) many).
Proof. split; [exact asksF|]. split; [exact (two_events _ eq_refl)|]. split; [exact plain_12|]. split; [exact lines_twelve|]. vm_compute. split; reflexivity. Qed.

(** C102 *)
Theorem C102 : forall strict junk ib ob fb prog args ss fs stdin X, alloc_ok ib ob fb -> asks args ss 0 ->
  input_of fs stdin ss = Some X -> bytes_ok X -> X = [] \/ 8 <= len X -> last_of freq_of ss = None -> separate (last_of in_of ss) (last_of out_of ss) ->
  exists e, freqcd_main strict junk ib ob fb (prog :: args) fs stdin = Some (Ok e) /\ code e = 0 /\ left_behind fs (files e) (stdout e) ss (take (len X / 8 * 8) X).
Proof. exact main_copy. Qed.
Print Assumptions C102.
Example C102_case : asks argsN ssN 0 /\ input_of disk [] ssN = Some two /\ seen_run (freqcd_main true None IB IB FB (str "freqcd" :: argsN) disk []) (str "b") = Some (0, Some two, []).
Proof. split; [exact asksN|]. split; [reflexivity|]. vm_compute. reflexivity. Qed.

(** C103.  Full statement: [C103_statement].  The output is opened with O_TRUNC before anything is read. *)
Theorem C103_refuted : ~ C103_statement.
Proof. exact C103_refuted_lemma. Qed.
Print Assumptions C103_refuted.
(** Only the output file changes. *)
Theorem C103_partial : forall strict junk ib ob fb prog args ss f fs stdin e, asks args ss f -> freqcd_main strict junk ib ob fb (prog :: args) fs stdin = Some (Ok e) ->
  forall m, last_of out_of ss <> Some m -> files e m = fs m.
Proof. exact main_frame. Qed.
Print Assumptions C103_partial.
(** An input that is also the output is emptied, with exit code 0. *)
Theorem C103_actual : forall strict junk ib ob fb prog args ss f fs stdin t X, alloc_ok ib ob fb -> asks args ss f ->
  last_of in_of ss = Some t -> last_of out_of ss = Some t -> last_of freq_of ss = None -> fs t = Some X ->
  exists e, freqcd_main strict junk ib ob fb (prog :: args) fs stdin = Some (Ok e) /\ code e = 0 /\ stdout e = [] /\ files e t = Some [] /\ forall m, m <> t -> files e m = fs m.
Proof. exact main_same. Qed.
Print Assumptions C103_actual.
Example C103_case : asks argsS ssS 0 /\ last_of in_of ssS = Some (str "a") /\ last_of out_of ssS = Some (str "a") /\ disk (str "a") = Some two /\
  seen_run (freqcd_main true None IB IB FB (str "freqcd" :: argsS) disk []) (str "a") = Some (0, Some [], []).
Proof. split; [exact asksS|]. repeat split; vm_compute; reflexivity. Qed.

(** C104.  Full statement: [C104_statement].  The frequency file is opened after the output. *)
Theorem C104_refuted : ~ C104_statement.
Proof. exact C104_refuted_lemma. Qed.
Print Assumptions C104_refuted.
(** The one exception: exit code -11, the output file is emptied. *)
Theorem C104_partial : forall strict junk ib ob fb argv fs stdin e, freqcd_main strict junk ib ob fb argv fs stdin = Some (Ok e) -> code e <> 0 ->
  stdout e = [] /\ ((forall m, files e m = fs m) \/ code e = -11 /\ exists t, files e t = Some [] /\ forall m, m <> t -> files e m = fs m).
Proof. exact main_fails. Qed.
Print Assumptions C104_partial.
(** missing files: -3 for the input, -11 for the frequency file *)
Theorem C104_missing : forall strict junk ib ob fb prog args ss f fs stdin, asks args ss f ->
  (input_of fs stdin ss = None -> exists e, freqcd_main strict junk ib ob fb (prog :: args) fs stdin = Some (Ok e) /\ code e = -3 /\ stdout e = [] /\ forall m, files e m = fs m) /\
  (input_of fs stdin ss <> None -> forall t, last_of freq_of ss = Some t -> fs t = None -> last_of out_of ss <> Some t ->
     exists e, freqcd_main strict junk ib ob fb (prog :: args) fs stdin = Some (Ok e) /\ code e = -11 /\ left_behind fs (files e) (stdout e) ss []).
Proof. exact main_missing. Qed.
Print Assumptions C104_missing.
Example C104_case : seen_run (freqcd_main true None IB IB FB (str "freqcd" :: argsF) disk2 []) (str "b") = Some (-11, Some [], []) /\
  seen_run (freqcd_main true None IB IB FB (str "freqcd" :: argsN) (fun m => if same_name m (str "a") then None else disk m) []) (str "b") = Some (-3, Some (str "old"), []).
Proof. split; vm_compute; reflexivity. Qed.
