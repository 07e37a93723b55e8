(** The text written is a numeral for the number. *)
From Coq Require Import QArith Qabs Qpower Lqa String ZifyBool.
From Verif Require Import Float Base FpfindModel ReportModel FpCliSpec RoundModel RoundSpec RoundProofs RoundProofs2.
Import ListNotations. Local Open Scope Z_scope.

Lemma value_snoc a c : digits_value (a ++ [c]) = 10 * digits_value a + (c - 48).
Proof. unfold digits_value. rewrite fold_left_app. reflexivity. Qed.
Lemma value_app a b : digits_value (a ++ b) = digits_value a * 10 ^ len b + digits_value b.
Proof.
  induction b as [|c b IH] using rev_ind; [ rewrite app_nil_r, len_nil; change (digits_value []) with 0; lia | ].
  rewrite app_assoc, !value_snoc, IH, len_app, len_cons, len_nil. replace (len b + (1 + 0)) with (len b + 1) by lia.
  assert (0 <= len b) by (unfold len; lia). rewrite Z.pow_add_r by lia. change (10 ^ 1) with 10. lia.
Qed.
Lemma value_zeros j : digits_value (repeat 48 j) = 0.
Proof. induction j as [|j IH]; [ reflexivity | ]. change (repeat 48 (S j)) with ([48] ++ repeat 48 j). rewrite value_app, IH. reflexivity. Qed.
Lemma len_repeat {A} (a : A) j : len (repeat a j) = Z.of_nat j. Proof. unfold len. now rewrite repeat_length. Qed.
Lemma digits_zeros j : digits (repeat 48 j). Proof. apply Forall_forall. intros x H. apply repeat_spec in H. subst. unfold is_digit. lia. Qed.
Lemma decn_ok d : forall v, 0 <= v -> len (decn d v) = Z.of_nat d /\ digits (decn d v) /\ digits_value (decn d v) = v mod 10 ^ Z.of_nat d.
Proof.
  induction d as [|d IH]; intros v V. { repeat split; [ constructor | cbn; now rewrite Z.mod_1_r ]. }
  cbn [decn]. assert (V' : 0 <= v / 10) by (apply Z.div_pos; lia). destruct (IH _ V') as (A & B & C). pose proof (Z.mod_pos_bound v 10 ltac:(lia)).
  split; [ rewrite len_app, len_cons, len_nil, A; lia | ]. split; [ apply Forall_app; split; [ exact B | repeat constructor; unfold is_digit; lia ] | ].
  rewrite value_snoc, C, Nat2Z.inj_succ, Z.pow_succ_r by lia. rewrite Z.rem_mul_r by lia. lia.
Qed.
(** str() of a number *)
Lemma dec_digits v : 0 <= v -> digits (dec v) /\ dec v <> [] /\ digits_value (dec v) = v.
Proof.
  intros V. assert (G : forall fuel w, 0 <= w < 2 ^ Z.of_nat fuel -> 1 <= Z.of_nat fuel ->
    digits (FpfindModel.digits fuel w) /\ FpfindModel.digits fuel w <> [] /\ digits_value (FpfindModel.digits fuel w) = w).
  { induction fuel as [|f IH]; intros w H F; [ lia | ]. cbn [FpfindModel.digits]. destruct (Z.ltb_spec w 10) as [K|K].
    { split; [ repeat constructor; unfold is_digit; lia | split; [ discriminate | unfold digits_value; cbn [fold_left]; lia ] ]. }
    rewrite Nat2Z.inj_succ, Z.pow_succ_r in H by lia.
    assert (B : 0 <= w / 10 < 2 ^ Z.of_nat f) by (split; [ apply Z.div_pos; lia | apply Z.div_lt_upper_bound; lia ]).
    assert (F' : 1 <= Z.of_nat f) by (destruct f; [ change (2 ^ Z.of_nat 0) with 1 in *; lia | lia ]).
    destruct (IH _ B F') as (I1 & I2 & I3). pose proof (Z_div_mod_eq_full w 10). pose proof (Z.mod_pos_bound w 10 ltac:(lia)).
    split; [ apply Forall_app; split; [ exact I1 | repeat constructor; unfold is_digit; lia ] | ]. split; [ intros E; apply app_eq_nil in E; destruct E; discriminate | ].
    rewrite value_snoc, I3. lia. }
  unfold dec. destruct (Z.ltb_spec v 0); [ lia | ]. pose proof (Z.log2_nonneg v).
  destruct (Z.eq_dec v 0) as [->|N]; [ apply G; cbn; lia | ]. pose proof (Z.log2_spec v ltac:(lia)). apply G; rewrite Z2Nat.id by lia; unfold Z.succ in *; lia.
Qed.
Lemma strip0_spec s : exists j, s = strip0 s ++ repeat 48 j.
Proof.
  unfold strip0. set (go := fix go l := match l with 48 :: r => go r | _ => l end).
  assert (G : forall l, exists j, l = repeat 48 j ++ go l).
  { induction l as [|c l IH]; [ exists O; reflexivity | ]. destruct (Z.eq_dec c 48) as [->|N].
    - destruct IH as [j IH]. exists (S j). change (go (48 :: l)) with (go l). cbn [repeat app]. now rewrite <- IH.
    - exists O. cbn [repeat app]. assert (E : go (c :: l) = c :: l); [ | now rewrite E ].
      unfold go. destruct c as [|q|q]; try reflexivity. do 6 (destruct q as [q|q|]; try reflexivity). exfalso. apply N. reflexivity. }
  destruct (G (rev s)) as [j E]. exists j. rewrite <- (rev_involutive s) at 1. rewrite E at 1. rewrite rev_app_distr. f_equal.
  clear. induction j as [|j IH]; [ reflexivity | ]. cbn [repeat rev]. rewrite IH. clear. induction j as [|j IH]; [ reflexivity | ]. cbn [repeat app]. now rewrite IH.
Qed.
(** digits, a point and digits: the zeros at the end do not count *)
Lemma point_spec a b : digits a -> digits b -> a <> [] ->
  exists fs, mantissa (a ++ point b) a fs /\ (inject_Z (digits_value (a ++ fs)) * power10 (- len fs) == inject_Z (digits_value (a ++ b)) * power10 (- len b))%Q.
Proof.
  intros A B N. exists (strip0 b). destruct (strip0_spec b) as [j E]. set (s := strip0 b) in *.
  assert (S : digits s) by (rewrite E in B; apply Forall_app in B; apply B). split.
  - split; [ exact A | ]. split; [ exact S | ]. split; [ intros H; apply app_eq_nil in H; tauto | ]. unfold point. fold s. destruct s; [ left; rewrite app_nil_r; auto | right; reflexivity ].
  - rewrite E, app_assoc, (value_app (a ++ s)), value_zeros, (len_app s), !len_repeat, Z.add_0_r, inject_Z_mult, <- ten_Z by lia.
    change power10 with ten. replace (- len s) with (Z.of_nat j + - (len s + Z.of_nat j)) by lia. rewrite (ten_plus (Z.of_nat j)). ring.
Qed.
Lemma exponent_ok e : exponent (exponent_text e) e.
Proof.
  right. unfold exponent_text. exists 101. eexists. split; [ now left | ]. split; [ | reflexivity ].
  destruct (dec_digits (Z.abs e) ltac:(lia)) as (D1 & D2 & D3). set (z := if Z.abs e <? 10 then [48] else []).
  assert (Z1 : digits (z ++ dec (Z.abs e)) /\ digits_value (z ++ dec (Z.abs e)) = Z.abs e).
  { split; [ apply Forall_app; split; [ unfold z; destruct (_ <? _); repeat constructor; unfold is_digit; lia | exact D1 ] | ].
    rewrite value_app, D3. unfold z. destruct (_ <? _); reflexivity. }
  exists [if e <? 0 then 45 else 43], (e <? 0), (z ++ dec (Z.abs e)). destruct Z1 as [Z1 Z2]. rewrite Z2.
  split; [ destruct (e <? 0); constructor | ]. split; [ intros H; apply app_eq_nil in H; tauto | ]. split; [ exact Z1 | ]. split; [ reflexivity | ].
  destruct (Z.ltb_spec e 0); lia.
Qed.
Lemma take_drop_at n (ds : list Z) : 0 <= n <= len ds -> ds = take n ds ++ drop n ds /\ len (drop n ds) = len ds - n /\ len (take n ds) = n.
Proof.
  intros H. unfold take, drop. rewrite firstn_skipn. split; [ reflexivity | ]. unfold len in *. rewrite skipn_length, firstn_length. lia.
Qed.
Lemma g_numeral p x : 1 <= p -> ~ (x == 0)%Q -> numeral (g_text p x) (g_value p x).
Proof.
  intros P N. unfold g_text, g_value. destruct (Qeq_bool x 0) eqn:E0; [ apply Qeq_bool_iff in E0; contradiction | ].
  pose proof (figures_of_spec p x P N) as F. destruct (figures_of p x) as [m k]. destruct F as [F _].
  destruct (decn_ok (Z.to_nat p) (Z.abs m) ltac:(lia)) as (D1 & D2 & D3). rewrite Z2Nat.id in D1, D3 by lia. rewrite Z.mod_small in D3 by lia.
  set (ds := decn (Z.to_nat p) (Z.abs m)) in *. set (e := k + p - 1) in *.
  assert (SG : sign (if m <? 0 then [45] else []) (m <? 0)) by (destruct (m <? 0); constructor).
  assert (V : (inject_Z m * ten k == (if m <? 0 then -1 else 1) * (inject_Z (Z.abs m) * ten k))%Q).
  { destruct (Z.ltb_spec m 0); [ rewrite Z.abs_neq, inject_Z_opp by lia; ring | rewrite Z.abs_eq by lia; ring ]. }
  assert (G : forall a b ex ee, digits a -> digits b -> a <> [] -> exponent ex ee -> digits_value (a ++ b) = Z.abs m -> ee - len b = k ->
    numeral ((if m <? 0 then [45] else []) ++ (a ++ point b) ++ ex) (inject_Z m * ten k)).
  { intros a b ex ee A B NA EX DV L. destruct (point_spec a b A B NA) as (fs & M & W).
    exists (if m <? 0 then [45] else []), (m <? 0), (a ++ point b), a, fs, ex, ee.
    split; [ exact SG | ]. split; [ exact M | ]. split; [ exact EX | ]. split; [ reflexivity | ]. rewrite V. rewrite DV in W. change power10 with ten in *.
    assert (W2 : (inject_Z (digits_value (a ++ fs)) * ten (ee - len fs) == inject_Z (Z.abs m) * ten k)%Q).
    { replace (ee - len fs) with (- len fs + ee) by lia. rewrite ten_plus, Qmult_assoc, W, <- Qmult_assoc, <- ten_plus. replace (- len b + ee) with k by lia. reflexivity. }
    rewrite W2. reflexivity. }
  assert (EX0 : exponent [] 0) by (left; auto).
  destruct ((e <? -4) || (p <=? e)) eqn:C.
  - destruct (take_drop_at 1 ds ltac:(lia)) as (T1 & T2 & T3).
    assert (T : digits (take 1 ds) /\ digits (drop 1 ds)) by (apply Forall_app; rewrite <- T1; exact D2).
    rewrite (app_assoc (take 1 ds)). apply (G _ _ _ e); try tauto; [ intros H; rewrite H in T3; discriminate | apply exponent_ok | rewrite <- T1; exact D3 | unfold e; lia ].
  - destruct (Z.leb_spec 0 e).
    + destruct (take_drop_at (e + 1) ds ltac:(lia)) as (T1 & T2 & T3).
      assert (T : digits (take (e + 1) ds) /\ digits (drop (e + 1) ds)) by (apply Forall_app; rewrite <- T1; exact D2).
      rewrite <- (app_nil_r (take (e + 1) ds ++ _)). apply (G _ _ _ 0); try tauto; [ intros H'; rewrite H', len_nil in T3; lia | rewrite <- T1; exact D3 | unfold e in *; lia ].
    + rewrite <- (app_nil_r (48 :: _)). apply (G [48] _ _ 0); [ repeat constructor; unfold is_digit; lia | apply Forall_app; split; [ apply digits_zeros | exact D2 ] | discriminate | exact EX0 | | ].
      * change ([48] ++ repeat 48 (Z.to_nat (- e - 1)) ++ ds) with ((48 :: repeat 48 (Z.to_nat (- e - 1))) ++ ds). rewrite value_app, D3.
        change (48 :: repeat 48 (Z.to_nat (- e - 1))) with (repeat 48 (S (Z.to_nat (- e - 1)))). rewrite value_zeros. lia.
      * rewrite len_app, len_repeat, D1. unfold e in *. lia.
Qed.
