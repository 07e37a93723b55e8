(** Statements that do not hold of the code, and counterexamples. *)
From Coq Require Import QArith Lqa Sorted.
From Verif Require Import Float Base TimestampsModel TimestampsSpec TimestampsProofs2 EpochsModel UtilsModel UtilsSpec MiscModel MiscSpec MiscProofs MiscProofs2.
Local Open Scope Z_scope.

Definition C64_statement : Prop := forall ts, Forall (fun t => 0 <= t) ts -> generate true ts = (encode (A1 true) (event_words ts), None).
Lemma c64_refuted : ~ C64_statement.
Proof. intros H. specialize (H [0] ltac:(repeat constructor; discriminate)). vm_compute in H. discriminate H. Qed.

Definition C65_statement : Prop := forall p x evs stdin, 54 <= p -> Forall event_ok evs -> let file := encode (A1 x) (map word_of evs) in
  decode_file p x (Some file) stdin = (Some file, Ok (map fst evs)).
Lemma c65_refuted : ~ C65_statement.
Proof.
  intros H. specialize (H 64 false [(5, 1)] [] ltac:(lia)).
  assert (O : Forall event_ok [(5, 1)]) by (repeat constructor; cbn; lia). specialize (H O). vm_compute in H. discriminate H.
Qed.

(** pairs of times less than [m] apart are counted in their bins, and no others *)
Definition C75_statement : Prop := forall N Ta m arr1 arr2 start delta c k, 0 < N -> (0 < delta)%Q -> 0 <= k < N -> sortedQ arr1 -> sortedQ arr2 ->
  counts (fun p => in_bin N delta k (fst p - snd p)%Q /\ (fst p - snd p < m)%Q) (list_prod (interval start Ta arr2) (interval start Ta arr1)) c ->
  nth (Z.to_nat k) (g2 N Ta m arr1 arr2 start delta) 0 = c.
Lemma c75_refuted : ~ C75_statement.
Proof.
  intros H. specialize (H 4 100%Q 10%Q [1%Q] [21%Q] 0%Q 1%Q 0 0).
  assert (X : nth (Z.to_nat 0) (g2 4 100 10 [1%Q] [21%Q] 0 1) 0 = 1) by (vm_compute; reflexivity).
  rewrite X in H. assert (1 = 0); [|lia]. apply H; [lia|reflexivity|lia|repeat constructor|repeat constructor|].
  change (list_prod (interval 0 100 [21%Q]) (interval 0 100 [1%Q])) with [(21%Q, 1%Q)]. apply counts_no; [|constructor].
  cbn [fst snd]. intros [_ L]. vm_compute in L. discriminate L.
Qed.

(** the correlation is returned and the arrays are as before *)
Definition C76_statement : Prop := forall rt alice bob acq, alice <> [] -> bob <> [] -> exists r, histogram_fft rt alice bob acq = (alice, bob, Ok r).
Lemma c76_actual rt alice bob acq : exists e, snd (histogram_fft rt alice bob acq) = Err e /\
  (alice <> [] -> bob <> [] -> e = TypeError).
Proof.
  unfold histogram_fft. destruct alice as [|a al]; [exists IndexError; split; [reflexivity|congruence]|].
  destruct bob as [|b bl]; [exists IndexError; split; [reflexivity|congruence]|]. exists TypeError. split; reflexivity.
Qed.
Lemma c76_refuted : ~ C76_statement.
Proof.
  intros H. destruct (H (fun x => x) [1%Q] [2%Q] None ltac:(discriminate) ltac:(discriminate)) as (r & E). vm_compute in E. discriminate E.
Qed.
Lemma c76_arrays a alice b bob acq : fst (histogram_fft (fun x => x) (a :: alice) (b :: bob) acq) =
  let s := ((if Qlt_le_dec a b then b else a) + match acq with Some x => x | None => 0 end)%Q in
  (map (fun t => t - s)%Q (a :: alice), map (fun t => t - s)%Q (b :: bob)).
Proof.
  unfold histogram_fft. change (getitem (a :: alice) 0) with (Ok (E := exn) a). change (getitem (b :: bob) 0) with (Ok (E := exn) b). cbv iota beta zeta.
  unfold Qltb. destruct (Qlt_le_dec a b) as [L|L].
  - replace (Qle_bool b a) with false; [reflexivity|]. symmetry. apply not_true_is_false. intros X. apply Qle_bool_iff in X. lra.
  - apply Qle_bool_iff in L. now rewrite L.
Qed.
