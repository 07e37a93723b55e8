(** Shared vocabulary of the model: results with exceptions, bytes, machine integers.
    Nothing here models repository code by itself; the model files cite what they model. *)
From Coq Require Export ZArith List Bool Lia.
From Coq Require Import ZifyBool.
Export ListNotations.
#[export] Set Warnings "-notation-overridden".
Open Scope Z_scope.

(** Result of a computation that may fail with an error of type [E]. *)
Inductive res (E A : Type) : Type :=
| Ok (a : A)
| Err (e : E).
Arguments Ok {E A} a.
Arguments Err {E A} e.

Definition bind {E A B} (m : res E A) (k : A -> res E B) : res E B :=
  match m with Ok a => k a | Err e => Err e end.
Notation "'let*' x := m 'in' k" := (bind m (fun x => k))
  (at level 200, x pattern, m at level 100, k at level 200, right associativity).

Definition is_ok {E A} (m : res E A) : Prop := exists a, m = Ok a.

(** Python exceptions that the modelled code can raise. *)
Inductive exn : Type :=
| ValueError | TypeError | IndexError | StructError | FileNotFoundError
| ZeroDivisionError | AssertionError | OverflowError
| OutOfFuel   (* not a Python exception: the model's loop bound was exhausted *)
| Unspecified. (* not a Python exception: the model does not say what happens *)

Notation pyres := (res exn).

(** Lengths as integers. *)
Definition len {A} (l : list A) : Z := Z.of_nat (length l).

Lemma len_nil {A} : @len A [] = 0. Proof. reflexivity. Qed.
Lemma len_cons {A} (x : A) l : len (x :: l) = 1 + len l.
Proof. unfold len; cbn [length]; lia. Qed.
Lemma len_app {A} (l m : list A) : len (l ++ m) = len l + len m.
Proof. unfold len; rewrite app_length; lia. Qed.
Lemma len_nonneg {A} (l : list A) : 0 <= len l. Proof. unfold len; lia. Qed.
Lemma len_map {A B} (f : A -> B) l : len (map f l) = len l.
Proof. unfold len; rewrite map_length; lia. Qed.
Lemma len_0_nil {A} (l : list A) : len l = 0 -> l = [].
Proof. destruct l; [reflexivity | rewrite len_cons; pose proof (len_nonneg l); lia]. Qed.

Definition take {A} (n : Z) (l : list A) : list A := firstn (Z.to_nat n) l.
Definition drop {A} (n : Z) (l : list A) : list A := skipn (Z.to_nat n) l.

Lemma take_drop {A} n (l : list A) : take n l ++ drop n l = l.
Proof. apply firstn_skipn. Qed.
Lemma len_take {A} n (l : list A) : 0 <= n -> len (take n l) = Z.min n (len l).
Proof. intros; unfold len, take; rewrite firstn_length; lia. Qed.
Lemma len_drop {A} n (l : list A) : 0 <= n -> len (drop n l) = Z.max 0 (len l - n).
Proof. intros; unfold len, drop; rewrite skipn_length; lia. Qed.
Lemma take_all {A} n (l : list A) : len l <= n -> take n l = l.
Proof. unfold len, take; intros; apply firstn_all2; lia. Qed.
Lemma drop_all {A} n (l : list A) : len l <= n -> drop n l = [].
Proof. unfold len, drop; intros; apply skipn_all2; lia. Qed.
Lemma take_0 {A} n (l : list A) : n <= 0 -> take n l = [].
Proof. unfold take; intros; replace (Z.to_nat n) with 0%nat by lia; reflexivity. Qed.
Lemma drop_0 {A} n (l : list A) : n <= 0 -> drop n l = l.
Proof. unfold drop; intros; replace (Z.to_nat n) with 0%nat by lia; reflexivity. Qed.
Lemma take_app_le {A} n (l m : list A) : n <= len l -> take n (l ++ m) = take n l.
Proof.
  unfold take, len; intros; rewrite firstn_app.
  replace (Z.to_nat n - length l)%nat with 0%nat by lia.
  cbn [firstn]; apply app_nil_r.
Qed.
Lemma take_app_ge {A} n (l m : list A) : len l <= n -> take n (l ++ m) = l ++ take (n - len l) m.
Proof.
  unfold take, len; intros; rewrite firstn_app, firstn_all2 by lia.
  do 2 f_equal; lia.
Qed.
Lemma drop_app_le {A} n (l m : list A) : n <= len l -> drop n (l ++ m) = drop n l ++ m.
Proof.
  unfold drop, len; intros; rewrite skipn_app.
  replace (Z.to_nat n - length l)%nat with 0%nat by lia. reflexivity.
Qed.
Lemma drop_app_ge {A} n (l m : list A) : len l <= n -> drop n (l ++ m) = drop (n - len l) m.
Proof.
  unfold drop, len; intros; rewrite skipn_app, skipn_all2 by lia.
  cbn [app]; f_equal; lia.
Qed.
Lemma take_app_exact {A} n (l m : list A) : n = len l -> take n (l ++ m) = l.
Proof. intros ->; rewrite take_app_le by lia; apply take_all; lia. Qed.
Lemma drop_app_exact {A} n (l m : list A) : n = len l -> drop n (l ++ m) = m.
Proof. intros ->; rewrite drop_app_ge by lia; apply drop_0; lia. Qed.
Lemma drop_drop {A} a b (l : list A) : 0 <= a -> 0 <= b -> drop a (drop b l) = drop (a + b) l.
Proof.
  unfold drop; intros. rewrite Z2Nat.inj_add by lia.
  generalize (Z.to_nat a) as x; generalize (Z.to_nat b) as y; clear.
  intros y x; revert x l; induction y as [|y IH]; intros x l.
  - cbn [skipn]; f_equal; lia.
  - destruct l as [|c l]; [rewrite !skipn_nil; reflexivity|].
    replace (x + S y)%nat with (S (x + y)) by lia. cbn [skipn]. apply IH.
Qed.
Lemma take_take {A} a b (l : list A) : take a (take b l) = take (Z.min a b) l.
Proof. unfold take; rewrite firstn_firstn; f_equal; lia. Qed.
Lemma Forall_take {A} (P : A -> Prop) n l : Forall P l -> Forall P (take n l).
Proof.
  intros H; rewrite <- (take_drop n l) in H. apply Forall_app in H; tauto.
Qed.
Lemma Forall_drop {A} (P : A -> Prop) n l : Forall P l -> Forall P (drop n l).
Proof.
  intros H; rewrite <- (take_drop n l) in H. apply Forall_app in H; tauto.
Qed.
Lemma take_cons {A} n (x : A) l : 0 < n -> take n (x :: l) = x :: take (n - 1) l.
Proof.
  unfold take; intros; replace (Z.to_nat n) with (S (Z.to_nat (n - 1))) by lia. reflexivity.
Qed.
Lemma drop_cons {A} n (x : A) l : 0 < n -> drop n (x :: l) = drop (n - 1) l.
Proof.
  unfold drop; intros; replace (Z.to_nat n) with (S (Z.to_nat (n - 1))) by lia. reflexivity.
Qed.

(** ** Bytes *)
Definition is_byte (b : Z) : Prop := 0 <= b < 256.
Definition bytes_ok (l : list Z) : Prop := Forall is_byte l.

(** Little-endian value of a byte string ([int.from_bytes(.., "little")], C loads on x86). *)
Fixpoint le_dec (l : list Z) : Z :=
  match l with [] => 0 | b :: r => b + 256 * le_dec r end.
(** The [n] low bytes of [v], least significant first ([struct.pack], C stores on x86). *)
Fixpoint le_enc (n : nat) (v : Z) : list Z :=
  match n with O => [] | S k => v mod 256 :: le_enc k (v / 256) end.

Lemma le_enc_length n v : length (le_enc n v) = n.
Proof. revert v; induction n as [|n IH]; intros v; cbn [le_enc length]; [reflexivity|]. now rewrite IH. Qed.
Lemma le_enc_len n v : len (le_enc n v) = Z.of_nat n.
Proof. unfold len; now rewrite le_enc_length. Qed.
Lemma le_enc_bytes n v : bytes_ok (le_enc n v).
Proof.
  revert v; induction n as [|n IH]; intros v; cbn [le_enc]; constructor; [|apply IH].
  unfold is_byte. pose proof (Z.mod_pos_bound v 256). lia.
Qed.
Lemma le_dec_enc n v : le_dec (le_enc n v) = v mod 256 ^ Z.of_nat n.
Proof.
  revert v; induction n as [|n IH]; intros v; cbn [le_enc le_dec].
  - now rewrite Z.pow_0_r, Z.mod_1_r.
  - rewrite IH. replace (Z.of_nat (S n)) with (Z.succ (Z.of_nat n)) by lia.
    rewrite Z.pow_succ_r by lia.
    rewrite Z.rem_mul_r; [reflexivity | lia | apply Z.pow_pos_nonneg; lia].
Qed.
Lemma le_dec_bound l : bytes_ok l -> 0 <= le_dec l < 256 ^ len l.
Proof.
  induction 1 as [|b l Hb Hl IH]; cbn [le_dec]; [unfold len; cbn; lia|].
  rewrite len_cons, Z.pow_add_r by (pose proof (len_nonneg l); lia).
  change (256 ^ 1) with 256. unfold is_byte in Hb. nia.
Qed.
Lemma le_enc_dec l : bytes_ok l -> le_enc (length l) (le_dec l) = l.
Proof.
  induction 1 as [|b l Hb Hl IH]; cbn [le_dec le_enc length]; [reflexivity|].
  unfold is_byte in Hb.
  assert (E1 : (b + 256 * le_dec l) mod 256 = b)
    by (rewrite Z.mul_comm, Z.mod_add by lia; apply Z.mod_small; lia).
  assert (E2 : (b + 256 * le_dec l) / 256 = le_dec l)
    by (rewrite Z.mul_comm, Z.div_add by lia; rewrite Z.div_small by lia; lia).
  rewrite E1, E2, IH. reflexivity.
Qed.
Lemma le_dec_app l m : le_dec (l ++ m) = le_dec l + 256 ^ len l * le_dec m.
Proof.
  induction l as [|b l IH]; cbn [app le_dec].
  - unfold len; cbn [length]; change (256 ^ Z.of_nat 0) with 1; lia.
  - rewrite IH, len_cons, Z.pow_add_r by (pose proof (len_nonneg l); lia).
    change (256 ^ 1) with 256. ring.
Qed.

Lemma le_enc_app n m v : le_enc (n + m) v = le_enc n v ++ le_enc m (v / 256 ^ Z.of_nat n).
Proof.
  revert v; induction n as [|n IH]; intros v; cbn [le_enc app Nat.add].
  - change (256 ^ Z.of_nat 0) with 1. now rewrite Z.div_1_r.
  - rewrite IH. do 3 f_equal. replace (Z.of_nat (S n)) with (Z.succ (Z.of_nat n)) by lia.
    rewrite Z.pow_succ_r by lia. rewrite Z.div_div by lia. reflexivity.
Qed.
Lemma le_enc_mod n v m : (256 ^ Z.of_nat n | m) -> 0 < m -> le_enc n (v mod m) = le_enc n v.
Proof.
  revert v m; induction n as [|n IH]; intros v m D P; cbn [le_enc]; [reflexivity|].
  replace (Z.of_nat (S n)) with (Z.succ (Z.of_nat n)) in D by lia.
  rewrite Z.pow_succ_r in D by lia.
  assert (D256 : (256 | m)) by (eapply Z.divide_trans; [|exact D]; apply Z.divide_factor_l).
  destruct D256 as [q ->]. f_equal.
  - rewrite Z.mul_comm, Z.rem_mul_r by lia. rewrite Z.mul_comm, Z.mod_add by lia.
    apply Z.mod_mod; lia.
  - assert (Q : 0 < q) by lia.
    rewrite Z.mul_comm, Z.rem_mul_r by lia.
    rewrite Z.add_comm, Z.mul_comm, Z.div_add_l by lia.
    rewrite (Z.div_small (v mod 256)) by (apply Z.mod_pos_bound; lia). rewrite Z.add_0_r.
    apply IH; [|lia].
    rewrite (Z.mul_comm q) in D. apply Z.mul_divide_cancel_l in D; [assumption|lia].
Qed.

Lemma land_shl_low a b n : 0 <= n -> 0 <= b < 2 ^ n -> Z.land (a * 2 ^ n) b = 0.
Proof.
  intros Hn Hb. apply Z.bits_inj'. intros k Hk. rewrite Z.land_spec, Z.bits_0.
  destruct (Z.lt_ge_cases k n).
  - rewrite Z.mul_pow2_bits_low by lia. reflexivity.
  - replace (Z.testbit b k) with false; [now rewrite andb_false_r|].
    symmetry. destruct (Z.eq_dec b 0) as [->|]; [apply Z.bits_0|].
    apply Z.bits_above_log2; [lia|]. apply Z.log2_lt_pow2; [lia|].
    apply Z.lt_le_trans with (2 ^ n); [lia|]. apply Z.pow_le_mono_r; lia.
Qed.
Lemma lor_add a b n : 0 <= n -> 0 <= b < 2 ^ n -> Z.lor (a * 2 ^ n) b = a * 2 ^ n + b.
Proof.
  intros Hn Hb. rewrite <- Z.lxor_lor, <- Z.add_nocarry_lxor; [reflexivity| |];
  now apply land_shl_low.
Qed.

(** ** Machine integers *)
Definition u32 (x : Z) : Z := x mod 2 ^ 32.
Definition u64 (x : Z) : Z := x mod 2 ^ 64.
(** two's complement wrap to a signed 32-bit int *)
Definition s32 (x : Z) : Z := (x + 2 ^ 31) mod 2 ^ 32 - 2 ^ 31.
(** truncation to signed 64 bits *)
Definition s64 (x : Z) : Z := (x + 2 ^ 63) mod 2 ^ 64 - 2 ^ 63.
Definition fits_s64 (x : Z) : bool := (- 2 ^ 63 <=? x) && (x <? 2 ^ 63).

(** Non-decreasing lists of integers. *)
Fixpoint nondecr (l : list Z) : Prop :=
  match l with
  | [] => True
  | x :: r => match r with [] => True | y :: _ => x <= y end /\ nondecr r
  end.

Ltac inv H := inversion H; subst; clear H.

Arguments len : simpl never.
Arguments take : simpl never.
Arguments drop : simpl never.
Arguments le_enc : simpl never.
Arguments u32 : simpl never.
Arguments u64 : simpl never.
Arguments s32 : simpl never.
Arguments s64 : simpl never.
Global Hint Rewrite @len_app @len_cons @len_nil : lens.
