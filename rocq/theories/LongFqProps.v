(** The exact result of a run of freqcd with a frequency file of any length: C191. *)
From Coq Require Import String List.
From Verif Require Import Base FreqcdModel FreqcdSpec FreqcdExamples FreqcdCliSpec CdRunModel CdRunSpec CdRunStatements FreqcdRefute CdRunRefute FpfindModel FqPipeSpec FqPipeProps CdExactSpec FqExactSpec LongFqSpec LongFqProofs3.
Import ListNotations.
Local Open Scope Z_scope.

(** C191 *)
Theorem C191 : forall junk ib ob fb prog args ss f fs stdin X t Zf, alloc_ok ib ob fb -> asks args ss f -> input_of fs stdin ss = Some X -> event_file (legacy_of ss) X ->
  last_of freq_of ss = Some t -> fs t = Some Zf -> bytes_ok Zf -> text_of_lines 98 Zf -> Forall plain_line (lines Zf) ->
  separate (last_of in_of ss) (last_of out_of ss) -> separate (last_of freq_of ss) (last_of out_of ss) ->
  let ts := map (ev_time (legacy_of ss)) (groups X) in
  exists e F, value_at f Zf F /\ freqcd_main true junk ib ob fb (prog :: args) fs stdin = Some (Ok e) /\ code e = 0 /\
    retimed_file fs (files e) (stdout e) ss X (map (exact_time_by F ts) (seq 0 (length ts))).
Proof. exact c191. Qed.
Print Assumptions C191.
(** 1026 events and the 197 bytes of test case 1 of tests/freqcd/test_freqcd_update.py: 99 bytes are taken with the first block, 95 more with the second *)
Definition disk191 : filesys := fun m => if same_name m (str "c") then Some text186 else disk3 m.
Example C191_case : asks argsF ssF 0 /\ input_of disk191 [] ssF = Some many /\ event_file (legacy_of ssF) many /\ last_of freq_of ssF = Some (str "c") /\ disk191 (str "c") = Some text186 /\
  bytes_ok text186 /\ text_of_lines 98 text186 /\ Forall plain_line (lines text186) /\
  map (consumed text186) [0%nat; 1%nat; 2%nat; 3%nat] = [0; 99; 194; 290] /\
  map (fun k => List.last (lines (take (consumed text186 k) text186)) []) [1%nat; 2%nat; 3%nat] = [str "17000"; str "33000"; str "34000"] /\
  separate (last_of in_of ssF) (last_of out_of ssF) /\ separate (last_of freq_of ssF) (last_of out_of ssF).
Proof.
  split; [exact asksF|]. split; [reflexivity|]. split; [split; [apply bytes_okb; vm_compute; reflexivity|split; [vm_compute; reflexivity|vm_compute; repeat split; discriminate]]|].
  split; [reflexivity|]. split; [reflexivity|]. split; [apply bytes_okb; vm_compute; reflexivity|]. split; [split; [vm_compute; reflexivity|vm_compute; repeat constructor; discriminate]|].
  split; [apply plain_byb; vm_compute; reflexivity|]. split; [vm_compute; reflexivity|]. split; [vm_compute; reflexivity|]. split; [exact sepF1|exact sepF2].
Qed.
