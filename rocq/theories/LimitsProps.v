(** Differences of time that survive read_T1. *)
From Coq Require Import QArith.
From Verif Require Import Base TimestampsModel EpochsModel TimestampsSpec EpochsSpec LimitsSpec LimitsProofs.
Import ListNotations.
Local Open Scope Z_scope.

(** C185.  Full statement: [C185_statement].  It fails with floats and full epochs: both 192 and 320 ps after the start of epoch ffffffff
    are halfway between neighbours in float128 and become 256 ps. *)
Theorem C185_refuted : ~ C185_statement.
Proof. exact c185_refuted. Qed.
Print Assumptions C185_refuted.
(** 33 units there *)
Theorem C185_partial : forall e evs full r fr, Forall (t1_ok e) evs -> Forall (fun ev => t1_word e ev <> 0) evs -> len evs < 2 ^ 32 ->
  exists T, read_T1 (t1_file e evs) full r fr = Ok (T, map snd evs) /\ told_apart evs (evalues T) (if full && fr then 33 else limit full r fr).
Proof. exact c185. Qed.
Print Assumptions C185_partial.
(** the times 0 and 32 of the test are told apart *)
Example C185_case : Forall (t1_ok (2 ^ 32 - 1)) close /\ Forall (fun ev => t1_word (2 ^ 32 - 1) ev <> 0) close /\ limit true PS125 false = 32 /\
  match read_T1 (t1_file (2 ^ 32 - 1) [(0, 1); (32, 1)]) true PS4 true with
  | Ok (ELD [x; y], _) => (x < y)%Q
  | _ => False
  end.
Proof. split; [apply close_ok|]. split; [apply close_ok|]. split; [reflexivity|]. vm_compute. reflexivity. Qed.
