(** Property theorems about epoch2date. *)
From Coq Require Import String.
From Verif Require Import Base FreqcdExamples TimestampsModel EpochsModel DateModel DateSpec DateProofs.
Import ListNotations.
Local Open Scope Z_scope.

(** C177 *)
Theorem C177 : forall name e, epoch2int name = Ok e -> 0 <= e < 2 ^ 32 -> exists d, epoch2date name = Ok d /\ starts_epoch e d.
Proof. exact c177. Qed.
Print Assumptions C177.
Theorem C177_order : forall name name' e e', epoch2int name = Ok e -> epoch2int name' = Ok e' -> 0 <= e -> e < e' -> e' < 2 ^ 32 ->
  exists d d', epoch2date name = Ok d /\ epoch2date name' = Ok d' /\ d < d'.
Proof. exact c177_order. Qed.
Print Assumptions C177_order.
Example C177_case : epoch2int (str "ba1f36c0") = Ok 3122607808 /\ epoch2date (str "ba1f36c0") = Ok 1676437301699281 /\ starts_epoch 3122607808 1676437301699281.
Proof. split; [vm_compute; reflexivity|]. split; [vm_compute; reflexivity|]. vm_compute. split; reflexivity. Qed.

(** C178.  Full statement: [C178_statement].  It fails as date2epoch drops the fraction of the second. *)
Theorem C178_refuted : ~ C178_statement.
Proof. exact c178_refuted. Qed.
Print Assumptions C178_refuted.
(** At most two epochs early, never late, and only right for epochs starting at a whole second or less than a microsecond before one. *)
Theorem C178_partial : forall name e, epoch2int name = Ok e -> 0 <= e < 2 ^ 32 ->
  exists d v, epoch2date name = Ok d /\ epoch2int (date2epoch (whole_seconds d)) = Ok v /\ e - 2 <= v <= e /\
    (v = e -> exists s, 0 <= 1000000000 * s - 536870912 * e < 1000).
Proof. exact c178. Qed.
Print Assumptions C178_partial.
Example C178_case : date2epoch (whole_seconds 1676437301699281) = str "ba1f36be" /\
  epoch2date (str "ba1f36c1") = Ok 1676437302236152 /\ date2epoch (whole_seconds 1676437302236152) = str "ba1f36c0".
Proof. repeat split; vm_compute; reflexivity. Qed.
