(** Frequency pipes: C186. *)
From Coq Require Import String List.
From Verif Require Import Base FreqcdModel FreqcdSpec FreqcdExamples FpfindModel FqPipeSpec FqPipeProofs.
Import ListNotations.
Local Open Scope Z_scope.

(** C186 *)
Theorem C186 : forall strict lg junk ib ob fb fc ts s' os st F, alloc_ok ib ob fb -> Forall tick_ok ts ->
  freqcd strict lg junk ib ob fb true fc ts = Ok (s', os, st) -> text_of_lines 98 F -> Forall plain_line (lines F) -> greedy [] F os -> received_freq os = F ->
  after_lines fc (lines F) (fcorr s').
Proof. exact c186. Qed.
Print Assumptions C186.
(** test case 1 of tests/freqcd/test_freqcd_update.py: the multiples of 1000 up to 34000 *)
Definition text186 : list Z := concat (map (fun i => dec (1000 * Z.of_nat i) ++ [10]) (seq 0 35)).
Definition ticks186 : list tick := [rdfq text186; rdfq (drop 99 text186); rdfq (drop 194 text186)].
Example C186_case : Forall tick_ok ticks186 /\ text_of_lines 98 text186 /\ len text186 = 197 /\
  match runF 12300 ticks186 with
  | Ok (s, os, _) => greedy [] text186 os /\ received_freq os = text186 /\ fcorr s = 34000
  | Err _ => False
  end.
Proof.
  split; [apply ticks_okb; vm_compute; reflexivity|]. split; [split; [vm_compute; reflexivity|vm_compute; repeat constructor; discriminate]|].
  split; [reflexivity|]. vm_compute. split; [right; split; [reflexivity|]; right; split; [reflexivity|]; right; split; [reflexivity|exact I]|]. split; reflexivity.
Qed.
(** a line of 99 characters is lost *)
Definition long186 : list Z := repeat 48 98 ++ [55; 10].
Example C186_long : match runF 12300 [rdfq long186; rdfq (drop 99 long186)] with
  | Ok (s, os, _) => received_freq os = long186 /\ lines long186 = [repeat 48 98 ++ [55]] /\ fcorr s = 12300
  | Err _ => False
  end.
Proof. vm_compute. repeat split. Qed.
