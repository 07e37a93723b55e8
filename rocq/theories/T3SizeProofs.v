(** Proof of C182. *)
From Verif Require Import Base TimestampsModel EpochsModel TimestampsSpec EpochsSpec EpochsProps T3SizeSpec.
Import ListNotations.
Local Open Scope Z_scope.

Lemma skipn_nth (l : list Z) k j : nth j (skipn k l) 0 = nth (k + j) l 0.
Proof.
  revert l. induction k as [|k IH]; intros [|x l]; cbn [skipn Nat.add nth]; auto.
  now destruct j.
Qed.
Lemma four (l : list Z) : len l = 4 -> exists a b c d, l = [a; b; c; d].
Proof.
  destruct l as [|a [|b [|c [|d [|x l]]]]]; unfold len; cbn [length]; intros; try lia. now exists a, b, c, d.
Qed.
Lemma last_word body : 4 <= len body -> len body mod 4 = 0 ->
  drop (len body - 4) body = [t3_entry body (len body - 1); t3_entry body (len body - 2); t3_entry body (len body - 3); t3_entry body (len body - 4)].
Proof.
  intros L M. set (n := len body) in *.
  assert (D : len (drop (n - 4) body) = 4).
  { unfold drop, len. rewrite skipn_length. unfold n, len in *. lia. }
  destruct (four _ D) as (a & b & c & d & E). rewrite E.
  assert (H : forall j, (j < 4)%nat -> nth j [a; b; c; d] 0 = byte_at body (n - 4 + Z.of_nat j)).
  { intros j J. rewrite <- E. unfold drop, byte_at. rewrite skipn_nth. f_equal. lia. }
  pose proof (H 0%nat ltac:(lia)) as H0. pose proof (H 1%nat ltac:(lia)) as H1.
  pose proof (H 2%nat ltac:(lia)) as H2. pose proof (H 3%nat ltac:(lia)) as H3. cbn [nth] in *.
  assert (T : forall i, 1 <= i <= 4 -> t3_entry body (n - i) = byte_at body (n - 4 + (i - 1))).
  { intros i I. unfold t3_entry. f_equal. Z.to_euclidean_division_equations. lia. }
  rewrite !T by lia. rewrite H0, H1, H2, H3. reflexivity.
Qed.
Lemma c182_exact tag e b body vs : bytes_ok body -> holds_entries body vs -> len vs < 2 ^ 32 ->
  exists h s, read_T3 (t3_header tag e (len vs) b ++ body) = Ok (h, s) /\ (size_warning s = true <-> vs = [] \/ zero_in_last vs).
Proof.
  intros B (M & L & E & P) N. assert (N0 : 0 <= len vs) by (unfold len; lia).
  destruct (C40 tag e (len vs) b body B M ltac:(lia) N) as (s & R & T).
  eexists _, s. split; [exact R|]. destruct T as (_ & _ & _ & _ & _ & _ & _ & _ & T). rewrite T. clear T R.
  destruct (len body =? 0) eqn:Z0.
  - apply Z.eqb_eq in Z0. split; [intros _; left|intros _; lia]. destruct vs; [reflexivity|]. unfold len in *. cbn [length] in *. lia.
  - apply Z.eqb_neq in Z0. assert (L4 : 4 <= len body) by (Z.to_euclidean_division_equations; lia).
    assert (NE : 1 <= len vs) by (Z.to_euclidean_division_equations; lia).
    rewrite (last_word body L4 M).
    assert (Q : 4 * ((len vs - 1) / 4) = len body - 4) by (Z.to_euclidean_division_equations; lia).
    assert (HZ : zero_in_last vs <-> exists k, 1 <= k <= 4 /\ len body - k < len vs /\ t3_entry body (len body - k) = 0).
    { unfold zero_in_last. rewrite Q. split.
      - intros (i & I & I0 & V). exists (len body - i). replace (len body - (len body - i)) with i by lia. rewrite E by lia. lia.
      - intros (k & K & K0 & V). exists (len body - k). rewrite <- E by lia. lia. }
    assert (NV : vs <> []) by (intros ->; unfold len in NE; cbn [length] in NE; lia).
    assert (EQ : (vs = [] \/ zero_in_last vs) <-> zero_in_last vs) by tauto. rewrite EQ, HZ. clear EQ HZ.
    assert (PZ : forall k, 1 <= k <= len body - len vs -> t3_entry body (len body - k) = 0) by (intros; apply P; lia).
    set (x1 := t3_entry body (len body - 1)) in *. set (x2 := t3_entry body (len body - 2)) in *.
    set (x3 := t3_entry body (len body - 3)) in *. set (x4 := t3_entry body (len body - 4)) in *.
    assert (K : (exists k, 1 <= k <= 4 /\ len body - k < len vs /\ t3_entry body (len body - k) = 0) <->
      (len body - 1 < len vs /\ x1 = 0) \/ (len body - 2 < len vs /\ x2 = 0) \/ (len body - 3 < len vs /\ x3 = 0) \/ (len body - 4 < len vs /\ x4 = 0)).
    { split.
      - intros (k & K1 & K2 & K3). assert (C : k = 1 \/ k = 2 \/ k = 3 \/ k = 4) by lia.
        destruct C as [-> | [-> | [-> | ->]]]; fold x1 in K3 || fold x2 in K3 || fold x3 in K3 || fold x4 in K3; tauto.
      - intros [(? & ?)|[(? & ?)|[(? & ?)|(? & ?)]]]; [exists 1|exists 2|exists 3|exists 4]; repeat split; try lia; assumption. }
    rewrite K. clear K.
    assert (P1 : 1 <= len body - len vs -> x1 = 0) by (intros; apply (PZ 1); lia).
    assert (P2 : 2 <= len body - len vs -> x2 = 0) by (intros; apply (PZ 2); lia).
    assert (P3 : 3 <= len body - len vs -> x3 = 0) by (intros; apply (PZ 3); lia).
    clearbody x1 x2 x3 x4. clear PZ P E.
    unfold count. cbn [filter]. set (lb := len body) in *. set (lv := len vs) in *. clearbody lb lv. clear - L NE P1 P2 P3 Z0.
    destruct (0 =? x1) eqn:E1, (0 =? x2) eqn:E2, (0 =? x3) eqn:E3, (0 =? x4) eqn:E4; unfold len; cbn [filter length];
      rewrite ?Z.eqb_eq, ?Z.eqb_neq in *; lia.
Qed.
Lemma c182 tag e b body vs : bytes_ok body -> holds_entries body vs -> len vs < 2 ^ 32 -> vs <> [] -> ~ zero_in_last vs ->
  exists h s, read_T3 (t3_header tag e (len vs) b ++ body) = Ok (h, s) /\ size_warning s = false.
Proof.
  intros B H N V Z. destruct (c182_exact tag e b body vs B H N) as (h & s & R & W). exists h, s. split; [exact R|].
  destruct (size_warning s); [|reflexivity]. destruct (proj1 W eq_refl); tauto.
Qed.
Lemma empty_entries : holds_entries [] [].
Proof. split; [reflexivity|]. split; [unfold len; cbn [length]; lia|]. split; unfold len; cbn [length]; intros; lia. Qed.
Lemma c182_refuted : ~ C182_statement.
Proof.
  intros F. destruct (F 259 0 8 [] [] ltac:(constructor) empty_entries ltac:(unfold len; cbn [length]; lia)) as (h & s & R & W).
  vm_compute in R. inv R. discriminate W.
Qed.
