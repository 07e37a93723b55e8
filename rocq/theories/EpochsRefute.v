(** Counterexamples to the full epoch-file statements. *)
From Coq Require Import QArith Lqa ZifyBool.
From Verif Require Import Float Base TimestampsModel TimestampsSpec EpochsModel EpochsSpec EpochsStatements EpochsProofs EpochsProofs2 EpochsProofs3 EpochsProofs4 EpochsProofs6 EpochsProofs7.
Local Open Scope Z_scope.
Ltac dec := unfold len in *; cbn in *; lia.

Definition one_event : list event := [(5, 1)].
Lemma one_event_ok e : Forall (t1_ok e) one_event.
Proof. constructor; [|constructor]. split; cbn [fst snd]; lia. Qed.
Lemma one_event_nz : Forall (fun ev => t1_word 1 ev <> 0) one_event.
Proof. constructor; [|constructor]. vm_compute. discriminate. Qed.
(** the file loses the low word of its last event *)
Lemma c34_refuted : ~ C34_statement.
Proof.
  intros H. specialize (H 1 one_event 24 false PS4 false (one_event_ok 1) one_event_nz ltac:(dec) ltac:(dec)).
  vm_compute in H. discriminate H.
Qed.
(** files with a header only *)
Definition t2_empty : list Z := t2_header 258 0 0 8 2 0.
Definition t4_empty : list Z := t4_header 260 0 0 8 2.
Lemma nil_no_terminator : ~ has_terminator [] 8 2.
Proof.
  apply (zeros_no_terminator [] 8 2 []); [lia|lia|constructor| |].
  - intros i I. dec.
  - intros i _. unfold bit_at, u32_at, byte_at. rewrite !nth_overflow by (dec). apply Z.bits_0.
Qed.
Lemma t2_empty_loops fuel full r fr : read_T2 fuel t2_empty full r fr = Err OutOfFuel.
Proof.
  unfold t2_empty. rewrite <- (app_nil_r (t2_header 258 0 0 8 2 0)).
  apply c37_T2_loops; [lia|lia|constructor|exact nil_no_terminator].
Qed.
Lemma t4_empty_loops fuel : read_T4 fuel t4_empty = Err OutOfFuel.
Proof.
  unfold t4_empty. rewrite <- (app_nil_r (t4_header 260 0 0 8 2)).
  apply c37_T4_loops; [lia|lia|constructor|exact nil_no_terminator].
Qed.
Lemma c37_refuted : ~ C37_statement.
Proof. intros H. destruct (H t2_empty) as [[fuel F] _]. apply (F false PS4 true). apply t2_empty_loops. Qed.

(** a T2 file with differences 5, 300 (extended) and 7 *)
Definition t2_body : list Z := [0; 0; 64; 5; 112; 32; 75; 0; 0; 0; 0; 4].
Definition t2_entries : list entry := [Short 5 1; Extended 300 2; Short 7 0].
Definition t2_example : list Z := t2_header 258 (2 ^ 17 + 3) 3 8 2 0 ++ t2_body.
Definition t4_example : list Z := t4_header 260 (2 ^ 17 + 3) 0 8 2 ++ t2_body.
Definition starts_withb (body : list Z) (l : list bool) : bool :=
  forallb (fun i => Bool.eqb (bit_at body (Z.of_nat i)) (nth i l false)) (seq 0 (length l)).
Lemma starts_withb_ok body l : starts_withb body l = true -> starts_with body l.
Proof.
  unfold starts_withb, starts_with. rewrite forallb_forall. intros H i I.
  specialize (H (Z.to_nat i)). rewrite Z2Nat.id in H by lia. apply Bool.eqb_prop, H, in_seq. unfold len in I. lia.
Qed.
Lemma t2_body_bytes : bytes_ok t2_body.
Proof. unfold t2_body, bytes_ok. repeat (apply Forall_cons; [unfold is_byte; lia|]). apply Forall_nil. Qed.
Lemma t2_entries_ok : Forall (entry_ok 8 2) t2_entries.
Proof. unfold t2_entries. repeat (apply Forall_cons; [unfold entry_ok; cbn [e_base]; lia|]). apply Forall_nil. Qed.
Lemma t2_starts : starts_with t2_body (entries_bits 8 2 t2_entries ++ terminator 8 2).
Proof. apply starts_withb_ok. vm_compute. reflexivity. Qed.
Lemma t2_example_ok : t2_encodes t2_example (2 ^ 17 + 3) 8 2 t2_entries.
Proof.
  exists 258, 3, 0, t2_body. split; [reflexivity|]. split; [exact t2_body_bytes|].
  split; [right; split; [reflexivity|lia]|]. split; [exact t2_entries_ok|exact t2_starts].
Qed.
Lemma t4_example_ok : t4_encodes t4_example 8 2 t2_entries.
Proof.
  exists 260, (2 ^ 17 + 3), 0, t2_body. split; [reflexivity|]. split; [exact t2_body_bytes|].
  split; [now left|]. split; [exact t2_entries_ok|exact t2_starts].
Qed.
Lemma t2_example_bounded : t2_bounded (2 ^ 17 + 3) t2_entries.
Proof. unfold t2_bounded. repeat (apply Forall_cons; [vm_compute; reflexivity|]). apply Forall_nil. Qed.
Lemma t2_example_full : Forall (fun t => t < 2 ^ 64) (t2_full_times (2 ^ 17 + 3) t2_entries).
Proof. repeat (apply Forall_cons; [vm_compute; reflexivity|]). apply Forall_nil. Qed.
Lemma c38_refuted : ~ C38_statement.
Proof.
  intros H. destruct (H t2_example (2 ^ 17 + 3) 8 2 t2_entries false PS4 false ltac:(lia) ltac:(lia) ltac:(lia)
    t2_example_ok t2_example_full t2_example_bounded) as (T & E & _).
  specialize (E 4%nat ltac:(dec)).
  rewrite (c38_ps4 t2_example (2 ^ 17 + 3) 8 2 t2_entries false ltac:(lia) ltac:(lia) ltac:(lia) t2_example_ok ltac:(discriminate) 4%nat ltac:(dec)) in E.
  discriminate E.
Qed.
(** 13 January 1970, 03:16:16 UTC *)
Lemma c42_refuted : ~ C42_statement.
Proof.
  intros H. destruct (H 1048576 ltac:(lia) ltac:(vm_compute; reflexivity)) as (name & <- & E & _).
  vm_compute in E. discriminate E.
Qed.
(** epochs 1ffff and 20000 *)
Definition wrap_dir : directory :=
  [(int2epoch (2 ^ 17 - 1), t1_file (2 ^ 17 - 1) one_event); (int2epoch (2 ^ 17), t1_file (2 ^ 17) one_event)].
Lemma wrap_dir_ok : ordered_dir wrap_dir (2 ^ 17 - 1) [one_event; one_event].
Proof.
  intros [|[|i]] evs I; cbn [nth_error] in I; [| |destruct i; discriminate I]; injection I as <-.
  - split; [vm_compute; reflexivity|]. split; [apply one_event_ok|]. split; [|split; [dec|dec]].
    constructor; [|constructor]. vm_compute. discriminate.
  - split; [vm_compute; reflexivity|]. split; [apply one_event_ok|]. split; [|split; [dec|dec]].
    constructor; [|constructor]. vm_compute. discriminate.
Qed.
Lemma c44_refuted : ~ C44_statement.
Proof.
  intros H. destruct (H 0%nat wrap_dir (2 ^ 17 - 1) [one_event; one_event] ltac:(lia) ltac:(dec) wrap_dir_ok) as (ts & E & S0).
  vm_compute in E. injection E as <-. specialize (S0 0%nat 1%nat ltac:(dec)). vm_compute in S0. now apply S0.
Qed.
Lemma c67_refuted : ~ C67_statement.
Proof.
  intros H. specialize (H 1 one_event (one_event_ok 1) ltac:(dec) (WU64 (map fst one_event)) ltac:(now right; right)).
  vm_compute in H. discriminate H.
Qed.
