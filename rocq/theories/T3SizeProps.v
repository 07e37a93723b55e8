(** Property theorems about the size check of read_T3. *)
From Verif Require Import Base TimestampsModel EpochsModel TimestampsSpec EpochsSpec T3SizeSpec T3SizeProofs.
Import ListNotations.
Local Open Scope Z_scope.

(** C182.  Full statement: [C182_statement].  It fails for a file without entries, as in [c182_refuted], and with a zero entry in the last word:
    zeros that are entries are taken for padding, and four zero bytes are assumed for an empty file. *)
Theorem C182_refuted : ~ C182_statement.
Proof. exact c182_refuted. Qed.
Print Assumptions C182_refuted.
Theorem C182_partial : forall tag e b body vs, bytes_ok body -> holds_entries body vs -> len vs < 2 ^ 32 -> vs <> [] -> ~ zero_in_last vs ->
  exists h s, read_T3 (t3_header tag e (len vs) b ++ body) = Ok (h, s) /\ size_warning s = false.
Proof. exact c182. Qed.
Print Assumptions C182_partial.
(** exactly those files fail *)
Theorem C182_exact : forall tag e b body vs, bytes_ok body -> holds_entries body vs -> len vs < 2 ^ 32 ->
  exists h s, read_T3 (t3_header tag e (len vs) b ++ body) = Ok (h, s) /\ (size_warning s = true <-> vs = [] \/ zero_in_last vs).
Proof. exact c182_exact. Qed.
Print Assumptions C182_exact.
(** five entries with a zero in the first word, and the same with a zero as the last entry *)
Lemma case182 v : 0 <= v < 256 -> bytes_ok [20; 0; 37; 65; 0; 0; v; 40] /\ holds_entries [20; 0; 37; 65; 0; 0; v; 40] [65; 37; 0; 20; 40; v].
Proof.
  intros V. split; [repeat constructor; lia|]. unfold holds_entries, len. cbn [length]. split; [reflexivity|]. split; [lia|]. split; intros i I.
  - assert (C : i = 0 \/ i = 1 \/ i = 2 \/ i = 3 \/ i = 4 \/ i = 5) by lia. destruct C as [->|[->|[->|[->|[->| ->]]]]]; reflexivity.
  - assert (C : i = 6 \/ i = 7) by lia. destruct C as [->| ->]; reflexivity.
Qed.
Example C182_case : holds_entries [20; 0; 37; 65; 0; 0; 33; 40] [65; 37; 0; 20; 40; 33] /\ ~ zero_in_last [65; 37; 0; 20; 40; 33] /\
  holds_entries [20; 0; 37; 65; 0; 0; 0; 40] [65; 37; 0; 20; 40; 0] /\ zero_in_last [65; 37; 0; 20; 40; 0].
Proof.
  split; [apply case182; lia|]. split.
  - intros (i & I & _ & Z). change (4 * ((len [65; 37; 0; 20; 40; 33] - 1) / 4)) with 4 in I. change (len [65; 37; 0; 20; 40; 33]) with 6 in I.
    assert (C : i = 4 \/ i = 5) by lia. destruct C as [->| ->]; discriminate Z.
  - split; [apply case182; lia|]. exists 5. split; [split; vm_compute; [discriminate|reflexivity]|]. split; [lia|reflexivity].
Qed.
