(** The recordings 19.9 us apart of SteadyCase: with a threshold of 3 the six common events are enough over the 49 pairs in 512 bins. *)
From Coq Require Import QArith Qabs Qround Qminmax Lqa List Lia.
From Coq Require Import ZifyBool.
From Verif Require Import Float Base TimestampsModel UtilsModel FpfindModel FpfindSpec AccuracySpec MainModel MainSpec2 RoundedSpec WholeSpec SkipSpec GroundSpec GroundCheck GroundCase SteadyCase PromSpec PromProofs.
Import ListNotations. Local Open Scope Z_scope.

Lemma pair_ok A B w m C lo hi a b : In a A -> In b B -> time_in 0 w (- m) a = true -> time_in 0 w (- m) b = true -> (lo <= turn C (b - a))%Q -> (turn C (b - a) <= hi)%Q -> pair_between A B w m C lo hi.
Proof. intros. exists a, b. auto 6. Qed.
Lemma fair139 n : fair_zs n M139.
Proof. exact (exact_fair n (fl 64) (fl 53) sparse_xc). Qed.
Lemma prominent141 : prominent 0 M139 P141 A141 B141 1024 D139 F141 (1 # 256) (1 # 128) W139 (2 ^ 26).
Proof.
  exists (17179869184 # 256)%Q, (17179869184 # 256)%Q. split; [vm_compute; reflexivity|]. split; [vm_compute; reflexivity|]. cbv zeta.
  split; [discriminate|]. split; [vm_compute; reflexivity|]. split; [vm_compute; discriminate|]. split.
  - apply (pair_ok _ _ _ _ _ _ _ (nth 1 A141 0%Q) (nth 3 B141 0%Q)); try (apply nth_In; vm_compute; lia); vm_compute; try reflexivity; discriminate.
  - apply (pair_ok _ _ _ _ _ _ _ (nth 6 A141 0%Q) (nth 1 B141 0%Q)); try (apply nth_In; vm_compute; lia); vm_compute; try reflexivity; discriminate.
Qed.
