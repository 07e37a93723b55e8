(** The exact result of a run of freqcd with a frequency file: C188. *)
From Coq Require Import String List.
From Verif Require Import Base FreqcdModel FreqcdSpec FreqcdExamples FreqcdCliSpec CdRunModel CdRunSpec CdRunStatements FreqcdRefute CdRunRefute CdExactSpec FqExactSpec FqExactProofs.
Import ListNotations.
Local Open Scope Z_scope.

(** C188 *)
Theorem C188 : forall junk ib ob fb prog args ss f fs stdin X t Zf, alloc_ok ib ob fb -> asks args ss f -> input_of fs stdin ss = Some X -> event_file (legacy_of ss) X ->
  last_of freq_of ss = Some t -> fs t = Some Zf -> bytes_ok Zf -> len Zf <= 99 -> Forall plain_line (lines Zf) ->
  separate (last_of in_of ss) (last_of out_of ss) -> separate (last_of freq_of ss) (last_of out_of ss) ->
  let ts := map (ev_time (legacy_of ss)) (groups X) in
  exists e g, after_lines f (lines Zf) g /\ freqcd_main true junk ib ob fb (prog :: args) fs stdin = Some (Ok e) /\ code e = 0 /\
    retimed_file fs (files e) (stdout e) ss X (map (exact_time_by (in_force f g) ts) (seq 0 (length ts))).
Proof. exact c188. Qed.
Print Assumptions C188.
(** 1026 events, frequency file "12": events 1023, 1024 and 1025 *)
Example C188_case : asks argsF ssF 0 /\ input_of disk3 [] ssF = Some many /\ event_file (legacy_of ssF) many /\ last_of freq_of ssF = Some (str "c") /\ disk3 (str "c") = Some twelve /\
  Forall plain_line (lines twelve) /\ after_lines 0 (lines twelve) 12 /\
  map (exact_time_by (in_force 0 12) (map (fun k => 2 ^ 40 * Z.of_nat k) (seq 0 (Z.to_nat 1026)))) (map Z.to_nat [1023; 1024; 1025]) = [2 ^ 40 * 1023; 2 ^ 40 * 1024 + 768; 2 ^ 40 * 1025 + 1536].
Proof.
  split; [exact asksF|]. split; [reflexivity|]. split; [split; [apply bytes_okb; vm_compute; reflexivity|split; [vm_compute; reflexivity|vm_compute; repeat split; discriminate]]|].
  split; [reflexivity|]. split; [reflexivity|]. split; [exact plain_12|]. split; [exact lines_twelve|]. vm_compute. reflexivity.
Qed.
