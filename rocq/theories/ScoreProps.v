(** C147, C148: the significance in floating point. *)
From Coq Require Import QArith Qabs.
From Verif Require Import Float Base UtilsModel UtilsSpec FpfindModel FpfindSpec PromSpec ScoreModel ScoreSpec ScoreProofs ScoreCase.
Import ListNotations. Local Open Scope Z_scope.

(** C147.  In doubles, with the sums in any order, the score is the exact one to one part in a thousand and to 0.001.  So a search with scores in doubles is one of C145 and C146. *)
Theorem C147 : (forall k m bg v, score_of (fl 53) k m bg v -> k <= 1024 -> len bg <= 2 ^ 32 -> scores m bg v) /\
  (forall M, in_doubles M -> good_zs M /\ forall n, n <= 2 ^ 32 -> fair_zs n M).
Proof. exact (conj c147_scores (fun M H => conj (c147_good M H) (fun n => c147_fair M n H))). Qed.
Print Assumptions C147.
(** a score of 6.786 *)
Example C147_case : in_doubles (MD (fl 64) (fl 53) exact_xc) /\ score_of (fl 53) 1024 20 [1; 2; 4; 8; 3]%Q (dscore 20 [1; 2; 4; 8; 3]%Q) /\ dscore 20 [1; 2; 4; 8; 3]%Q = fl 53 (6786 # 1000) /\
  resolved [1; 2; 4; 8; 3]%Q (18 # 5) (146 # 25) /\ at_least (6786 # 1000) (20 - (18 # 5)) (146 # 25) /\ at_most (6787 # 1000) (20 - (18 # 5)) (146 # 25).
Proof.
  split; [apply in_doubles_MD|]. split; [apply dscore_of; discriminate|]. split; [vm_compute; reflexivity|]. split.
  - split; [reflexivity|]. split; [|split; [reflexivity|discriminate]]. exists (18 # 5)%Q. split; reflexivity.
  - split; discriminate.
Qed.

(** C148.  The full statement: over a background of equal values the score is 0.
    [forall m bg v b, score_of (fl 53) 1024 m bg v -> Forall double bg -> Forall (fun y => y = b) bg -> v = 0]
    It holds for integers of at most 2^53 in total.  What is missing: it is false otherwise, as the mean of equal doubles need not be their value. *)
Theorem C148_partial : forall k m bg v c, score_of (fl 53) k m bg v -> Forall (fun y => y == inject_Z c)%Q bg -> Z.abs c * len bg <= 2 ^ 53 -> v = 0%Q.
Proof. exact c148. Qed.
Print Assumptions C148_partial.
Theorem C148_refuted : ~ (forall m bg v b, score_of (fl 53) 1024 m bg v -> Forall double bg -> Forall (fun y => y = b) bg -> v = 0%Q).
Proof. exact c148_false. Qed.
Print Assumptions C148_refuted.
(** 0.2 over three bins of 0.1, and 9 over three bins of 2 *)
Example C148_case : (7000000000000000 <= dscore (2 * tenth) [tenth; tenth; tenth])%Q /\ score_of (fl 53) 1024 9 [2; 2; 2]%Q (dscore 9 [2; 2; 2]%Q).
Proof. split; [vm_compute; discriminate|apply dscore_of; discriminate]. Qed.
