(** The exact result of a run of freqcd: C184. *)
From Coq Require Import String List.
From Verif Require Import Base FreqcdModel FreqcdSpec FreqcdExamples FreqcdCliSpec MiscModel CdRunModel CdRunSpec CdExactSpec CdExactProofs ChainCase ChainSpec.
Import ListNotations.
Local Open Scope Z_scope.

(** C184 *)
Theorem C184 : forall junk ib ob fb prog args ss f fs stdin X, alloc_ok ib ob fb -> asks args ss f ->
  input_of fs stdin ss = Some X -> event_file (legacy_of ss) X -> last_of freq_of ss = None -> separate (last_of in_of ss) (last_of out_of ss) ->
  let ts := map (ev_time (legacy_of ss)) (groups X) in
  exists e, freqcd_main true junk ib ob fb (prog :: args) fs stdin = Some (Ok e) /\ code e = 0 /\
    retimed_file fs (files e) (stdout e) ss X (map (exact_time f ts) (seq 0 (length ts))).
Proof. exact c184. Qed.
Print Assumptions C184.
(** the table in tests/freqcd/test_freqcd_overflow.py, in a file with an event at 0 *)
Definition edge : list Z := [0; 18014398508433408; 18014398508433409; 18014398508433410; 18014398509481983].
Example C184_case : event_file false (concat (map (fun t => ev t 1) edge)) /\
  map (fun t => t mod 2 ^ 54) (map (exact_time 1 edge) (seq 0 5)) = [0; 18014398509481983; 0; 1; 1048574] /\
  piped 1 (concat (map (fun t => ev t 1) edge)) = concat (map (fun t => ev t 1) [0; 18014398509481983; 0; 1; 1048574]).
Proof.
  split; [split; [apply Forall_forall; intros x I; vm_compute in I; repeat (destruct I as [<-|I]; [split; vm_compute; congruence|]); destruct I|split; [reflexivity|vm_compute; repeat split; discriminate]]|].
  split; vm_compute; reflexivity.
Qed.
