(** Binary floating point with an unbounded exponent: round-to-nearest-even to [p] bits.

    Python floats and numpy.float64 are [p = 53], x87 numpy.longdouble (x86-64 Linux) is
    [p = 64].  Values are exact rationals.  Overflow, underflow and signed zeros are not
    represented: no quantity in the modelled code leaves the normal range
    (values lie between 2^-200 and 2^200). *)
From Coq Require Export QArith Qabs Qround Qpower.
From Verif Require Import Base.
From Coq Require Import ZifyBool Lqa.
Local Open Scope Z_scope.

(** ** Rounding to an integer, ties to even *)
Definition rne_div (a b : Z) : Z :=
  let q := a / b in let r := a mod b in
  if 2 * r <? b then q else if b <? 2 * r then q + 1 else if Z.even q then q else q + 1.
Definition rneQ (x : Q) : Z := rne_div (Qnum x) (Zpos (Qden x)).

Lemma rne_div_scale k a b : 0 < k -> 0 < b -> rne_div (k * a) (k * b) = rne_div a b.
Proof.
  intros. unfold rne_div. rewrite Z.div_mul_cancel_l, Z.mul_mod_distr_l by lia.
  replace (2 * (k * (a mod b)) <? k * b) with (2 * (a mod b) <? b) by nia.
  replace (k * b <? 2 * (k * (a mod b))) with (b <? 2 * (a mod b)) by nia. reflexivity.
Qed.
#[global] Instance rneQ_comp : Proper (Qeq ==> eq) rneQ.
Proof.
  intros [a b] [c d] H. unfold Qeq in H. cbn in H. unfold rneQ. cbn [Qnum Qden].
  rewrite <- (rne_div_scale (Zpos d) a (Zpos b)), <- (rne_div_scale (Zpos b) c (Zpos d)) by lia.
  f_equal; lia.
Qed.
Lemma rne_div_err a b : 0 < b -> - b <= 2 * (rne_div a b * b - a) <= b.
Proof.
  intros. unfold rne_div. pose proof (Z.div_mod a b). pose proof (Z.mod_pos_bound a b).
  destruct (2 * (a mod b) <? b) eqn:E1; [nia|]. destruct (b <? 2 * (a mod b)) eqn:E2; [nia|].
  destruct (Z.even (a / b)); nia.
Qed.
Lemma rne_div_mult a b : 0 < b -> rne_div (a * b) b = a.
Proof.
  intros. unfold rne_div. rewrite Z.div_mul, Z.mod_mul by lia. replace (2 * 0 <? b) with true by lia. reflexivity.
Qed.
Lemma rne_div_opp a b : 0 < b -> rne_div (- a) b = - rne_div a b.
Proof.
  intros. unfold rne_div. destruct (Z.eq_dec (a mod b) 0) as [E|E].
  - rewrite (Z.div_opp_l_z a b), (Z.mod_opp_l_z a b), E by lia. replace (2 * 0 <? b) with true by lia. reflexivity.
  - rewrite (Z.div_opp_l_nz a b), (Z.mod_opp_l_nz a b) by lia.
    pose proof (Z.mod_pos_bound a b). set (r := a mod b) in *. set (q := a / b). clearbody r q.
    destruct (2 * r <? b) eqn:E1.
    + replace (2 * (b - r) <? b) with false by lia. replace (b <? 2 * (b - r)) with true by lia. lia.
    + destruct (b <? 2 * r) eqn:E2.
      * replace (2 * (b - r) <? b) with true by lia. lia.
      * replace (2 * (b - r) <? b) with false by lia. replace (b <? 2 * (b - r)) with false by lia.
        replace (Z.even (- q - 1)) with (negb (Z.even q)); [destruct (Z.even q); cbn; lia|].
        rewrite Z.negb_even, <- Z.even_succ. replace (- q - 1) with (- Z.succ q) by lia. symmetry; apply Z.even_opp.
Qed.
Lemma rne_div_mono a c b : 0 < b -> a <= c -> rne_div a b <= rne_div c b.
Proof.
  intros B L. pose proof (rne_div_err a b B). pose proof (rne_div_err c b B).
  destruct (Z_le_gt_dec (rne_div a b) (rne_div c b)) as [?|G]; [assumption|exfalso].
  (* the two results differ by exactly one and both are ties, hence a = c *)
  assert (a = c) by nia. subst. lia.
Qed.
Local Open Scope Q_scope.
Lemma rneQ_err x : Qabs (inject_Z (rneQ x) - x) <= 1 # 2.
Proof.
  destruct x as [a b]. unfold rneQ. cbn [Qnum Qden]. pose proof (rne_div_err a (Zpos b) eq_refl) as H.
  apply Qabs_Qle_condition. unfold Qle, Qminus, Qplus, Qopp, inject_Z. cbn [Qnum Qden]. lia.
Qed.
Lemma rneQ_inject z : rneQ (inject_Z z) = z.
Proof. unfold rneQ, inject_Z. cbn [Qnum Qden]. rewrite <- (Z.mul_1_r z) at 1. now apply rne_div_mult. Qed.
Lemma rneQ_opp x : rneQ (- x) = (- rneQ x)%Z.
Proof. unfold rneQ. cbn. now apply rne_div_opp. Qed.
Lemma rneQ_mono x y : x <= y -> (rneQ x <= rneQ y)%Z.
Proof.
  destruct x as [a b], y as [c d]. unfold Qle. cbn [Qnum Qden]. intros H. unfold rneQ. cbn [Qnum Qden].
  rewrite <- (rne_div_scale (Zpos d) a (Zpos b)), <- (rne_div_scale (Zpos b) c (Zpos d)) by lia.
  rewrite (Z.mul_comm (Zpos b) (Zpos d)). apply rne_div_mono; lia.
Qed.

(** ** Powers of two *)
Definition pow2 (e : Z) : Q := Qpower (2 # 1) e.
Lemma pow2_pos e : 0 < pow2 e.
Proof. apply Qpower_0_lt. reflexivity. Qed.
Lemma pow2_nz e : ~ pow2 e == 0.
Proof. pose proof (pow2_pos e). lra. Qed.
Lemma pow2_plus a b : pow2 (a + b) == pow2 a * pow2 b.
Proof. apply Qpower_plus. discriminate. Qed.
Lemma pow2_succ a : pow2 (a + 1) == 2 * pow2 a.
Proof. rewrite pow2_plus. change (pow2 1) with (2 # 1). lra. Qed.
Lemma pow2_Z e : (0 <= e)%Z -> pow2 e == inject_Z (2 ^ e).
Proof. intros. unfold pow2. rewrite Zpower_Qpower by assumption. reflexivity. Qed.
Lemma pow2_le a b : (a <= b)%Z -> pow2 a <= pow2 b.
Proof. intros. apply Qpower_le_compat_l; [assumption|discriminate]. Qed.
Lemma pow2_lt a b : (a < b)%Z -> pow2 a < pow2 b.
Proof. intros. apply Qpower_lt_compat_l; [assumption|reflexivity]. Qed.
Lemma pow2_lt_inv a b : pow2 a < pow2 b -> (a < b)%Z.
Proof. intros. eapply Qpower_lt_compat_l_inv; [eassumption|reflexivity]. Qed.
Lemma pow2_inv a : pow2 (- a) == / pow2 a.
Proof. apply Qpower_opp. Qed.
Lemma pow2_cancel a : pow2 (- a) * pow2 a == 1.
Proof. rewrite <- pow2_plus. replace (- a + a)%Z with 0%Z by lia. reflexivity. Qed.

(** Multiplying an inequality by a positive number. *)
Lemma Qmul_le k a b : 0 < k -> a <= b -> a * k <= b * k.
Proof. intros. apply Qmult_le_compat_r; lra. Qed.
Lemma Qmul_lt k a b : 0 < k -> a < b -> a * k < b * k.
Proof. intros. now apply Qmult_lt_compat_r. Qed.
Lemma Qmul_le_inv k a b : 0 < k -> a * k <= b * k -> a <= b.
Proof. intros. now apply (Qmult_le_r a b k). Qed.
Lemma Qmul_lt_inv k a b : 0 < k -> a * k < b * k -> a < b.
Proof. intros. now apply (Qmult_lt_r a b k). Qed.

(** ** floor(log2 |x|) *)
Definition qlog2 (x : Q) : Z :=
  let l := (Z.log2 (Z.abs (Qnum x)) - Z.log2 (Zpos (Qden x)))%Z in
  if Qle_bool (pow2 l) (Qabs x) then l else (l - 1)%Z.
Lemma qlog2_spec x : ~ x == 0 -> pow2 (qlog2 x) <= Qabs x < pow2 (qlog2 x + 1).
Proof.
  intros NZ. unfold qlog2. destruct x as [n d]. cbn [Qnum Qden].
  assert (N : (0 < Z.abs n)%Z).
  { destruct (Z.eq_dec n 0) as [->|]; [exfalso; apply NZ; reflexivity|lia]. }
  pose proof (Z.log2_spec _ N) as LN. pose proof (Z.log2_spec (Zpos d) eq_refl) as LD.
  pose proof (Z.log2_nonneg (Z.abs n)). pose proof (Z.log2_nonneg (Zpos d)).
  set (ln := Z.log2 (Z.abs n)) in *. set (ld := Z.log2 (Zpos d)) in *. clearbody ln ld.
  assert (AX : Qabs (n # d) * inject_Z (Zpos d) == inject_Z (Z.abs n)).
  { unfold Qabs, Qeq, Qmult, inject_Z. cbn [Qnum Qden]. lia. }
  set (x := Qabs (n # d)) in *. assert (X0 : 0 <= x) by apply Qabs_nonneg. clearbody x.
  assert (D1 : pow2 ld <= inject_Z (Zpos d) < pow2 (ld + 1)).
  { rewrite !pow2_Z by lia. rewrite <- Zle_Qle, <- Zlt_Qlt. lia. }
  assert (N1 : pow2 ln <= inject_Z (Z.abs n) < pow2 (ln + 1)).
  { rewrite !pow2_Z by lia. rewrite <- Zle_Qle, <- Zlt_Qlt. lia. }
  set (d' := inject_Z (Zpos d)) in *. set (n' := inject_Z (Z.abs n)) in *. clearbody d' n'.
  assert (HI : x < pow2 (ln - ld + 1)).
  { apply (Qmul_lt_inv (pow2 ld)); [apply pow2_pos|]. rewrite <- pow2_plus.
    replace (ln - ld + 1 + ld)%Z with (ln + 1)%Z by lia.
    apply Qle_lt_trans with (x * d'); [|rewrite AX; tauto]. rewrite !(Qmult_comm x). apply Qmult_le_compat_r; tauto. }
  assert (LO : pow2 (ln - ld - 1) <= x).
  { apply (Qmul_le_inv (pow2 (ld + 1))); [apply pow2_pos|]. rewrite <- pow2_plus.
    replace (ln - ld - 1 + (ld + 1))%Z with ln by lia.
    apply Qle_trans with (x * d'); [rewrite AX; tauto|]. rewrite !(Qmult_comm x).
    apply Qmult_le_compat_r; [apply Qlt_le_weak; tauto|assumption]. }
  destruct (Qle_bool (pow2 (ln - ld)) x) eqn:E.
  - apply Qle_bool_iff in E. split; assumption.
  - assert (~ pow2 (ln - ld) <= x) as E' by (intros H1; apply Qle_bool_iff in H1; congruence).
    apply Qnot_le_lt in E'. split; [assumption|]. replace (ln - ld - 1 + 1)%Z with (ln - ld)%Z by lia. assumption.
Qed.
Lemma qlog2_unique x e : pow2 e <= Qabs x < pow2 (e + 1) -> qlog2 x = e.
Proof.
  intros [H1 H2]. assert (NZ : ~ x == 0).
  { intros E. rewrite E in H1. change (Qabs 0) with 0 in H1. pose proof (pow2_pos e). lra. }
  destruct (qlog2_spec x NZ) as [H3 H4].
  assert (pow2 e < pow2 (qlog2 x + 1)) as A by (eapply Qle_lt_trans; eassumption).
  assert (pow2 (qlog2 x) < pow2 (e + 1)) as B by (eapply Qle_lt_trans; eassumption).
  apply pow2_lt_inv in A, B. lia.
Qed.
Lemma qlog2_eq x y : ~ x == 0 -> x == y -> qlog2 x = qlog2 y.
Proof. intros NZ E. symmetry. apply qlog2_unique. rewrite <- E. now apply qlog2_spec. Qed.

(** ** Rounding to [p] significant bits *)
Definition fl (p : Z) (x : Q) : Q :=
  if Qeq_bool x 0 then 0
  else let e := (qlog2 x - p + 1)%Z in Qred (inject_Z (rneQ (x * pow2 (- e))) * pow2 e).

Lemma fl_0 p x : x == 0 -> fl p x = 0.
Proof. intros E. unfold fl. apply Qeq_bool_iff in E. now rewrite E. Qed.
(** the value, given the exponent *)
Lemma fl_at p x e : pow2 (e + p - 1) <= Qabs x < pow2 (e + p) ->
  fl p x == inject_Z (rneQ (x * pow2 (- e))) * pow2 e.
Proof.
  intros H. assert (L : qlog2 x = (e + p - 1)%Z) by (apply qlog2_unique; now replace (e + p - 1 + 1)%Z with (e + p)%Z by lia).
  unfold fl. destruct (Qeq_bool x 0) eqn:E.
  - apply Qeq_bool_iff in E. rewrite E in H. change (Qabs 0) with 0 in H. pose proof (pow2_pos (e + p - 1)). lra.
  - rewrite L, Qred_correct. replace (e + p - 1 - p + 1)%Z with e by lia. reflexivity.
Qed.
Lemma fl_exp p x : ~ x == 0 -> exists e, pow2 (e + p - 1) <= Qabs x < pow2 (e + p).
Proof.
  intros NZ. exists (qlog2 x - p + 1)%Z. destruct (qlog2_spec x NZ).
  replace (qlog2 x - p + 1 + p - 1)%Z with (qlog2 x) by lia.
  replace (qlog2 x - p + 1 + p)%Z with (qlog2 x + 1)%Z by lia. auto.
Qed.
Lemma fl_eq p x y : x == y -> fl p x = fl p y.
Proof.
  intros E. unfold fl. destruct (Qeq_bool x 0) eqn:E1, (Qeq_bool y 0) eqn:E2.
  - reflexivity.
  - apply Qeq_bool_iff in E1. apply Qeq_bool_neq in E2. elim E2. now rewrite <- E.
  - apply Qeq_bool_iff in E2. apply Qeq_bool_neq in E1. elim E1. now rewrite E.
  - apply Qeq_bool_neq in E1. rewrite (qlog2_eq x y E1 E). apply Qred_complete. now rewrite E.
Qed.
#[global] Instance fl_comp p : Proper (Qeq ==> Qeq) (fl p).
Proof. intros x y E. now rewrite (fl_eq p x y E). Qed.

Lemma inject_abs z : Qabs (inject_Z z) == inject_Z (Z.abs z).
Proof. unfold Qabs, inject_Z. reflexivity. Qed.
Lemma fl_opp p x : fl p (- x) == - fl p x.
Proof.
  destruct (Qeq_dec x 0) as [E|NZ].
  - rewrite !fl_0 by (rewrite ?E; reflexivity). reflexivity.
  - destruct (fl_exp p x NZ) as [e H]. rewrite (fl_at p x e H).
    rewrite (fl_at p (- x) e) by now rewrite Qabs_opp.
    assert (EQ : - x * pow2 (- e) == - (x * pow2 (- e))) by lra. rewrite (rneQ_comp _ _ EQ), rneQ_opp, inject_Z_opp. lra.
Qed.
(** absolute error within the binade *)
Lemma fl_err_at p x e : pow2 (e + p - 1) <= Qabs x < pow2 (e + p) -> Qabs (fl p x - x) <= pow2 (e - 1).
Proof.
  intros H. rewrite (fl_at p x e H). set (y := x * pow2 (- e)).
  assert (X : x == y * pow2 e) by (unfold y; rewrite <- Qmult_assoc, pow2_cancel; lra).
  rewrite X. setoid_replace (inject_Z (rneQ y) * pow2 e - y * pow2 e) with ((inject_Z (rneQ y) - y) * pow2 e) by lra.
  rewrite Qabs_Qmult, (Qabs_pos (pow2 e)) by (apply Qlt_le_weak, pow2_pos).
  setoid_replace (pow2 (e - 1)) with ((1 # 2) * pow2 e).
  - apply Qmul_le; [apply pow2_pos|apply rneQ_err].
  - replace e with (e - 1 + 1)%Z at 2 by lia. rewrite pow2_succ. lra.
Qed.
(** relative error *)
Lemma fl_err p x : Qabs (fl p x - x) <= pow2 (- p) * Qabs x.
Proof.
  destruct (Qeq_dec x 0) as [E|NZ].
  - rewrite fl_0 by assumption. rewrite E. change (Qabs (0 - 0)) with 0. change (Qabs 0) with 0. lra.
  - destruct (fl_exp p x NZ) as [e H]. pose proof (fl_err_at p x e H).
    eapply Qle_trans; [eassumption|]. replace (e - 1)%Z with (- p + (e + p - 1))%Z by lia.
    rewrite pow2_plus. rewrite !(Qmult_comm (pow2 (- p))). apply Qmul_le; [apply pow2_pos|tauto].
Qed.
(** representable numbers are fixed *)
Lemma fl_exact p m e : (1 <= p)%Z -> (Z.abs m <= 2 ^ p)%Z -> fl p (inject_Z m * pow2 e) == inject_Z m * pow2 e.
Proof.
  intros P M. set (x := inject_Z m * pow2 e). destruct (Z.eq_dec m 0) as [->|MZ].
  - assert (x == 0) by (unfold x; change (inject_Z 0) with 0; lra). rewrite fl_0 by assumption. now symmetry.
  - assert (AX : Qabs x == inject_Z (Z.abs m) * pow2 e).
    { unfold x. rewrite Qabs_Qmult, inject_abs, (Qabs_pos (pow2 e)); [reflexivity|apply Qlt_le_weak, pow2_pos]. }
    assert (NZ : ~ x == 0).
    { intros E. rewrite E in AX. change (Qabs 0) with 0 in AX. pose proof (pow2_pos e) as PE.
      assert (1 <= inject_Z (Z.abs m)) as A by (change 1 with (inject_Z 1); rewrite <- Zle_Qle; lia).
      apply (Qmul_le _ _ _ PE) in A. lra. }
    destruct (fl_exp p x NZ) as [f H]. rewrite (fl_at p x f H).
    (* x is a multiple of 2^f: x = m * 2^(e-f) * 2^f *)
    assert (F : (f <= e)%Z \/ exists k, x * pow2 (- f) == inject_Z k).
    { destruct (Z_le_gt_dec f e) as [L|G]; [now left|right].
      (* |x| <= 2^(p+e) and |x| >= 2^(f+p-1), so f = e+1 and |m| = 2^p *)
      assert (B : Qabs x <= pow2 (p + e)).
      { rewrite AX, pow2_plus. apply Qmul_le; [apply pow2_pos|]. rewrite pow2_Z by lia. rewrite <- Zle_Qle. exact M. }
      assert (f = e + 1)%Z.
      { destruct (Z_lt_ge_dec (p + e) (f + p - 1)) as [L2|]; [|lia]. apply pow2_lt in L2. lra. }
      subst f. exists (m / 2)%Z.
      assert (AM : Z.abs m = (2 ^ p)%Z).
      { destruct (Z.eq_dec (Z.abs m) (2 ^ p)) as [?|N]; [assumption|exfalso].
        destruct H as [H _]. replace (e + 1 + p - 1)%Z with (p + e)%Z in H by lia.
        rewrite AX, pow2_plus in H. apply (Qmul_le_inv _ _ _ (pow2_pos e)) in H.
        rewrite pow2_Z, <- Zle_Qle in H by lia. lia. }
      assert (M2 : m = (2 * (m / 2))%Z).
      { assert (exists k, 2 ^ p = 2 * k)%Z as [k K].
        { exists (2 ^ (p - 1))%Z. rewrite <- Z.pow_succ_r by lia. f_equal. lia. }
        pose proof (Z.div_mod m 2). pose proof (Z.mod_pos_bound m 2). lia. }
      unfold x. rewrite M2 at 1. rewrite inject_Z_mult.
      replace (- (e + 1))%Z with (- e - 1)%Z by lia.
      assert (P1 : pow2 e * pow2 (- e - 1) == 1 # 2).
      { rewrite <- pow2_plus. replace (e + (- e - 1))%Z with (-1)%Z by lia. reflexivity. }
      rewrite <- !Qmult_assoc, P1. change (inject_Z 2) with 2. lra. }
    assert (K : exists k, x * pow2 (- f) == inject_Z k).
    { destruct F as [L|F]; [|exact F]. exists (m * 2 ^ (e - f))%Z. unfold x. rewrite inject_Z_mult, <- pow2_Z by lia.
      rewrite <- Qmult_assoc, <- pow2_plus. reflexivity. }
    destruct K as [k K]. rewrite (rneQ_comp _ _ K), rneQ_inject, <- K, <- Qmult_assoc, pow2_cancel. lra.
Qed.
Lemma fl_int p m : (1 <= p)%Z -> (Z.abs m <= 2 ^ p)%Z -> fl p (inject_Z m) == inject_Z m.
Proof.
  intros P M. pose proof (fl_exact p m 0 P M) as H. change (pow2 0) with 1 in H. rewrite Qmult_1_r in H. exact H.
Qed.
(** scaling by a power of two commutes with rounding *)
Lemma fl_scale p x k : fl p (x * pow2 k) == fl p x * pow2 k.
Proof.
  destruct (Qeq_dec x 0) as [E|NZ].
  - rewrite !fl_0 by (rewrite ?E; lra). lra.
  - destruct (fl_exp p x NZ) as [e H]. rewrite (fl_at p x e H).
    rewrite (fl_at p (x * pow2 k) (e + k)).
    + assert (EQ : x * pow2 k * pow2 (- (e + k)) == x * pow2 (- e)).
      { rewrite <- Qmult_assoc, <- pow2_plus. replace (k + - (e + k))%Z with (- e)%Z by lia. reflexivity. }
      rewrite (rneQ_comp _ _ EQ), pow2_plus. lra.
    + rewrite Qabs_Qmult, (Qabs_pos (pow2 k)) by (apply Qlt_le_weak, pow2_pos).
      replace (e + k + p - 1)%Z with (e + p - 1 + k)%Z by lia. replace (e + k + p)%Z with (e + p + k)%Z by lia.
      rewrite !(pow2_plus _ k). split; [apply Qmul_le|apply Qmul_lt]; try apply pow2_pos; tauto.
Qed.
(** monotonicity *)
Lemma fl_binade p x e : (1 <= p)%Z -> pow2 (e + p - 1) <= x < pow2 (e + p) ->
  pow2 (e + p - 1) <= fl p x <= pow2 (e + p).
Proof.
  intros P H. pose proof (pow2_pos (e + p - 1)). pose proof (pow2_pos e) as PE.
  assert (H' : pow2 (e + p - 1) <= Qabs x < pow2 (e + p)) by (rewrite Qabs_pos by lra; assumption).
  rewrite (fl_at p x e H').
  assert (L : (2 ^ (p - 1) <= rneQ (x * pow2 (- e)) <= 2 ^ p)%Z).
  { rewrite <- (rneQ_inject (2 ^ (p - 1))), <- (rneQ_inject (2 ^ p)).
    split; apply rneQ_mono; rewrite <- !pow2_Z by lia; apply (Qmul_le_inv (pow2 e)); try assumption;
      rewrite <- Qmult_assoc, ?pow2_cancel, Qmult_1_r, <- pow2_plus || rewrite <- pow2_plus, <- Qmult_assoc, pow2_cancel, Qmult_1_r.
    - replace (p - 1 + e)%Z with (e + p - 1)%Z by lia. tauto.
    - replace (p + e)%Z with (e + p)%Z by lia. lra. }
  replace (e + p - 1)%Z with (p - 1 + e)%Z by lia. replace (e + p)%Z with (p + e)%Z by lia.
  rewrite !pow2_plus, <- (Qmult_comm (pow2 e)). rewrite (pow2_Z (p - 1)), (pow2_Z p) by lia.
  rewrite !(Qmult_comm (pow2 e)). split; apply Qmul_le; try assumption; rewrite <- Zle_Qle; tauto.
Qed.
Lemma fl_pos p x : (1 <= p)%Z -> 0 < x -> 0 < fl p x.
Proof.
  intros P X. destruct (fl_exp p x) as [e H]; [lra|]. rewrite Qabs_pos in H by lra.
  pose proof (fl_binade p x e P H). pose proof (pow2_pos (e + p - 1)). lra.
Qed.
Lemma fl_mono_pos p x y : (1 <= p)%Z -> 0 < x -> x <= y -> fl p x <= fl p y.
Proof.
  intros P X L. destruct (fl_exp p x) as [e H]; [lra|]. destruct (fl_exp p y) as [f G]; [lra|].
  pose proof H as H0. pose proof G as G0. rewrite Qabs_pos in H0, G0 by lra.
  destruct (Z_le_gt_dec f e) as [FE|FE].
  - assert (f = e) as ->.
    { destruct (Z.eq_dec f e); [assumption|]. assert (f + p <= e + p - 1)%Z as A by lia. apply pow2_le in A. lra. }
    rewrite (fl_at p x e H), (fl_at p y e G). apply Qmul_le; [apply pow2_pos|].
    rewrite <- Zle_Qle. apply rneQ_mono. apply Qmul_le; [apply pow2_pos|assumption].
  - pose proof (fl_binade p x e P H0). pose proof (fl_binade p y f P G0).
    assert (e + p <= f + p - 1)%Z as A by lia. apply pow2_le in A. lra.
Qed.
Lemma fl_mono p x y : (1 <= p)%Z -> x <= y -> fl p x <= fl p y.
Proof.
  intros P L. destruct (Qlt_le_dec 0 x) as [X|X]; [now apply fl_mono_pos|].
  assert (FX : fl p x <= 0).
  { destruct (Qlt_le_dec x 0) as [N|N].
    - assert (0 < fl p (- x)) by (apply fl_pos; [assumption|lra]). rewrite fl_opp in H. lra.
    - rewrite fl_0 by lra. lra. }
  destruct (Qlt_le_dec y 0) as [Y|Y].
  - assert (fl p (- y) <= fl p (- x)) by (apply fl_mono_pos; [assumption|lra|lra]). rewrite !fl_opp in H. lra.
  - assert (0 <= fl p y).
    { destruct (Qlt_le_dec 0 y) as [Y0|Y0]; [apply Qlt_le_weak, fl_pos; assumption|]. rewrite fl_0 by lra. lra. }
    lra.
Qed.
Lemma fl_idem p x : (1 <= p)%Z -> fl p (fl p x) == fl p x.
Proof.
  intros P. destruct (Qeq_dec x 0) as [E|NZ]; [rewrite (fl_0 p x E); now rewrite fl_0 by reflexivity|].
  destruct (fl_exp p x NZ) as [e H]. rewrite (fl_at p x e H). apply fl_exact; [assumption|].
  assert (B : Qabs x * pow2 (- e) <= inject_Z (2 ^ p)).
  { rewrite <- pow2_Z by lia. apply (Qmul_le_inv (pow2 e)); [apply pow2_pos|].
    rewrite <- Qmult_assoc, pow2_cancel, <- pow2_plus, Qmult_1_r. replace (p + e)%Z with (e + p)%Z by lia. lra. }
  pose proof (pow2_pos (- e)) as PE.
  assert (U : x * pow2 (- e) <= inject_Z (2 ^ p)).
  { eapply Qle_trans; [|exact B]. apply Qmul_le; [assumption|apply Qle_Qabs]. }
  assert (V : inject_Z (- 2 ^ p) <= x * pow2 (- e)).
  { rewrite inject_Z_opp. assert (- Qabs x <= x) as A.
    { pose proof (Qle_Qabs (- x)) as A. rewrite Qabs_opp in A. lra. }
    apply (Qmul_le _ _ _ PE) in A. lra. }
  apply rneQ_mono in U, V. rewrite rneQ_inject in U, V. lia.
Qed.

(** ** Truncation towards zero *)
Local Open Scope Q_scope.
Definition qtrunc (x : Q) : Z := Z.quot (Qnum x) (Zpos (Qden x)).
Lemma qtrunc_bounds x k : (0 <= k)%Z -> inject_Z k <= x -> x < inject_Z (k + 1) -> qtrunc x = k.
Proof.
  destruct x as [n d]. unfold qtrunc, Qle, Qlt. cbn. intros K A B.
  symmetry. apply (Z.quot_unique n (Z.pos d) k (n - k * Z.pos d)); nia.
Qed.
Lemma qtrunc_opp x : qtrunc (- x) = (- qtrunc x)%Z.
Proof. destruct x as [n d]. unfold qtrunc. cbn. apply Z.quot_opp_l. lia. Qed.
Lemma qtrunc_mono x y : 0 <= x -> x <= y -> (qtrunc x <= qtrunc y)%Z.
Proof.
  destruct x as [n d], y as [m e]. unfold qtrunc, Qle. cbn. intros A B.
  rewrite !Z.quot_div_nonneg by nia.
  apply Z.div_le_lower_bound; [lia|].
  pose proof (Z.mul_div_le n (Z.pos d) ltac:(lia)).
  assert (0 <= n / Z.pos d)%Z by (apply Z.div_pos; lia).
  nia.
Qed.
Lemma qtrunc_eq x y : x == y -> qtrunc x = qtrunc y.
Proof.
  destruct x as [n d], y as [m e]. unfold qtrunc, Qeq. cbn. intros A.
  rewrite <- (Z.quot_mul_cancel_r n (Z.pos d) (Z.pos e)) by lia.
  rewrite <- (Z.quot_mul_cancel_r m (Z.pos e) (Z.pos d)) by lia. f_equal; lia.
Qed.
Lemma qtrunc_int x k : x == inject_Z k -> qtrunc x = k.
Proof. intros E. rewrite (qtrunc_eq _ _ E). unfold qtrunc. cbn. apply Z.quot_1_r. Qed.
