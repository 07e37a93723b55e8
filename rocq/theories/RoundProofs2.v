(** Writing a number, reading it and writing it again. *)
From Coq Require Import QArith Qabs Qpower Lqa String ZifyBool.
From Verif Require Import Float Base FpfindModel ReportModel FpCliSpec RoundModel RoundSpec RoundProofs.
Import ListNotations. Local Open Scope Q_scope.

Lemma qlog10_eq x y : ~ x == 0 -> x == y -> qlog10 x = qlog10 y.
Proof.
  intros N E. pose proof (qlog10_spec x N) as [A B]. pose proof (qlog10_spec y ltac:(rewrite <- E; exact N)) as [C D].
  assert (H : Qabs x == Qabs y) by (rewrite E; reflexivity). 
  assert (ten (qlog10 x) < ten (qlog10 y + 1)) by lra. assert (ten (qlog10 y) < ten (qlog10 x + 1)) by lra.
  apply ten_lt_inv in H0, H1. lia.
Qed.
Lemma g_value_comp p x y : (1 <= p)%Z -> ~ x == 0 -> x == y -> g_value p x == g_value p y.
Proof.
  intros P N E. assert (N' : ~ y == 0) by (rewrite <- E; exact N). rewrite !g_value_eq by assumption. rewrite (qlog10_eq x y N E).
  rewrite (rneQ_comp (x / ten (qlog10 y - p + 1)) (y / ten (qlog10 y - p + 1))) by (rewrite E; reflexivity). reflexivity.
Qed.
Lemma g_value_size p x : (1 <= p)%Z -> ~ x == 0 -> ten (qlog10 x) <= Qabs (g_value p x) <= ten (qlog10 x + 1).
Proof.
  intros P N. rewrite g_value_eq by assumption. rewrite Qabs_Qmult, inject_abs, (Qabs_pos (ten _)) by apply Qlt_le_weak, ten_pos.
  pose proof (g_n p x P N) as [A B]. set (k := (qlog10 x - p + 1)%Z) in *. rewrite Zle_Qle in A, B. pose proof (ten_pos k).
  replace (qlog10 x) with ((p - 1) + k)%Z at 1 by (unfold k; lia). replace (qlog10 x + 1)%Z with (p + k)%Z by (unfold k; lia).
  rewrite !ten_plus, (ten_Z p), (ten_Z (p - 1)) by lia. split; apply Qmult_le_compat_r; lra || assumption.
Qed.
Lemma g_value_nz p x : (1 <= p)%Z -> ~ x == 0 -> ~ g_value p x == 0.
Proof. intros P N E. pose proof (g_value_size p x P N) as [A _]. rewrite E in A. change (Qabs 0) with 0 in A. pose proof (ten_pos (qlog10 x)). lra. Qed.
(** the number written and the one written from something close to it *)
Lemma g_again p x x' : (1 <= p <= 15)%Z -> ~ x == 0 -> let y := g_value p x in Qabs (x' - y) <= pow2 (-53) * Qabs y -> g_value p x' == y.
Proof.
  intros P N y H. pose proof (g_value_nz p x ltac:(lia) N) as NY. fold y in NY.
  assert (PY : 0 < Qabs y) by (pose proof (Qabs_nonneg y); destruct (Qeq_dec (Qabs y) 0) as [E|]; [ qa y; lra | lra ]).
  change (pow2 (-53)) with (1 # 9007199254740992) in H.
  assert (N' : ~ x' == 0) by (intros E; qa (x' - y); qa y; lra).
  destruct (g_nearest p x ltac:(lia) N) as (Fy & _ & _). fold y in Fy.
  destruct (g_nearest p x' ltac:(lia) N') as (Fz & Nz & _). set (z := g_value p x') in *.
  destruct (Qeq_dec z y) as [|NE]; [ assumption | exfalso ].
  pose proof (spacing p y z ltac:(lia) Fy Fz NE) as S. specialize (Nz y Fy).
  assert (T : ten (- 15) <= ten (- p)) by (apply ten_le; lia). change (ten (- 15)) with (1 # 1000000000000000) in T.
  assert (Qabs y * (1 # 1000000000000000) <= Qabs y * ten (- p)) by (rewrite !(Qmult_comm (Qabs y)); apply Qmult_le_compat_r; lra).
  assert (Qabs (y - x') <= (1 # 9007199254740992) * Qabs y) by (rewrite Qabs_Qminus; exact H).
  assert (Qabs (z - y) <= Qabs (z - x') + Qabs (y - x')) by (qa (z - y); qa (z - x'); qa (y - x'); lra). lra.
Qed.
Lemma rneQ_close v m : Qabs (v - inject_Z m) < 1 # 2 -> rneQ v = m.
Proof.
  intros H. pose proof (rneQ_err v) as E. destruct (Z.eq_dec (rneQ v) m) as [|K]; [ assumption | ]. pose proof (inject_ne _ _ K).
  qa (v - inject_Z m); qa (inject_Z (rneQ v) - v); qa (inject_Z (rneQ v) - inject_Z m); lra.
Qed.
(** A value close enough to a float64 is read as it. *)
Lemma fl_back x y : x == fl 53 x -> Qabs (y - x) < pow2 (-54) * Qabs x -> fl 53 y == x.
Proof.
  intros D H. destruct (Qeq_dec x 0) as [E|N].
  { rewrite E in H. change (Qabs 0) with 0 in H. pose proof (Qabs_nonneg (y - 0)). lra. }
  destruct (fl_exp 53 x N) as [e B]. rewrite (fl_at 53 x e B) in D. set (m := rneQ (x * pow2 (- e))) in *.
  pose proof (pow2_pos e) as PE. pose proof (pow2_cancel e) as PC.
  replace (e + 53 - 1)%Z with (52 + e)%Z in B by lia. replace (e + 53)%Z with (53 + e)%Z in B by lia. rewrite !pow2_plus in B.
  change (pow2 52) with (inject_Z (2 ^ 52)) in B. change (pow2 53) with (inject_Z (2 ^ 53)) in B.
  set (Y := y * pow2 (- e)). assert (EY : y == Y * pow2 e) by (unfold Y; rewrite <- Qmult_assoc, PC; ring).
  assert (AX : Qabs x == Qabs (inject_Z m) * pow2 e) by (rewrite D, Qabs_Qmult, (Qabs_pos (pow2 e)) by lra; reflexivity).
  assert (AY : Qabs y == Qabs Y * pow2 e) by (rewrite EY, Qabs_Qmult, (Qabs_pos (pow2 e)) by lra; reflexivity).
  assert (AD : Qabs (y - x) == Qabs (Y - inject_Z m) * pow2 e).
  { rewrite <- (Qabs_pos (pow2 e)) by lra. rewrite <- Qabs_Qmult. apply Qabs_wd. rewrite EY, D at 1. ring. }
  rewrite AX in B. rewrite AX, AD in H.
  assert (M1 : inject_Z (2 ^ 52) <= Qabs (inject_Z m)) by (apply Qmult_le_r with (pow2 e); [ exact PE | apply B ]).
  assert (M2 : Qabs (inject_Z m) < inject_Z (2 ^ 53)) by (apply Qmult_lt_r with (pow2 e); [ exact PE | apply B ]).
  assert (M3 : Qabs (Y - inject_Z m) < pow2 (-54) * Qabs (inject_Z m)) by (apply Qmult_lt_r with (pow2 e); [ exact PE | rewrite <- Qmult_assoc; exact H ]).
  change (pow2 (-54)) with (1 # 18014398509481984) in M3. change (inject_Z (2 ^ 52)) with 4503599627370496 in M1. change (inject_Z (2 ^ 53)) with 9007199254740992 in M2.
  assert (M4 : Qabs (inject_Z m) <= 9007199254740991).
  { rewrite inject_abs in *. change 9007199254740992 with (inject_Z 9007199254740992) in M2. rewrite <- Zlt_Qlt in M2. change 9007199254740991 with (inject_Z 9007199254740991). rewrite <- Zle_Qle. lia. }
  assert (R : Qabs (Y - inject_Z m) < 1 # 2) by lra.
  destruct (Qlt_le_dec (Qabs Y) 4503599627370496) as [L|L].
  - rewrite (fl_at 53 y (e - 1)).
    + assert (Q1 : Qabs (inject_Z m) < 4503599627370497) by (qa (Y - inject_Z m); qa Y; qa (inject_Z m); lra).
      assert (E2 : y * pow2 (- (e - 1)) == 2 * Y) by (unfold Y; replace (- (e - 1))%Z with (- e + 1)%Z by lia; rewrite pow2_succ; ring).
      rewrite (rneQ_comp _ _ E2), (rneQ_close (2 * Y) (2 * m)).
      * rewrite inject_Z_mult. change (inject_Z 2) with 2. rewrite D. assert (pow2 e == 2 * pow2 (e - 1)) by (rewrite <- pow2_succ; replace (e - 1 + 1)%Z with e by lia; reflexivity). rewrite H0. ring.
      * rewrite inject_Z_mult. change (inject_Z 2) with 2.
        assert (Q2 : Qabs (inject_Z m) <= 4503599627370496).
        { rewrite inject_abs in *. change 4503599627370497 with (inject_Z 4503599627370497) in Q1. rewrite <- Zlt_Qlt in Q1. change 4503599627370496 with (inject_Z 4503599627370496). rewrite <- Zle_Qle. lia. }
        qa (2 * Y - 2 * inject_Z m); qa (Y - inject_Z m); lra.
    + replace (e - 1 + 53 - 1)%Z with (51 + e)%Z by lia. replace (e - 1 + 53)%Z with (52 + e)%Z by lia. rewrite !pow2_plus, AY.
      change (pow2 51) with 2251799813685248. change (pow2 52) with 4503599627370496.
      assert (2251799813685248 <= Qabs Y) by (qa (Y - inject_Z m); qa Y; qa (inject_Z m); lra).
      split; [ apply Qmult_le_compat_r; lra | apply Qmult_lt_compat_r; lra ].
  - rewrite (fl_at 53 y e).
    + fold Y. rewrite (rneQ_close Y m R). symmetry. exact D.
    + replace (e + 53 - 1)%Z with (52 + e)%Z by lia. replace (e + 53)%Z with (53 + e)%Z by lia. rewrite !pow2_plus, AY.
      change (pow2 52) with 4503599627370496. change (pow2 53) with 9007199254740992.
      assert (Qabs Y < 9007199254740992) by (qa (Y - inject_Z m); qa Y; qa (inject_Z m); lra).
      split; [ apply Qmult_le_compat_r; lra | apply Qmult_lt_compat_r; lra ].
Qed.
(** float64 numbers that neither vanish nor overflow when written *)
Lemma common_double y : ten (-307) <= Qabs y <= ten 308 -> double y = fl 53 y /\ infinite y = false.
Proof.
  intros [A B]. assert (L : pow2 (-1022) <= ten (-307)) by (apply Qle_bool_iff; vm_compute; reflexivity).
  assert (U : (101 # 100) * ten 308 < pow2 1024) by (apply Qnot_le_lt; intros K; apply Qle_bool_iff in K; vm_compute in K; discriminate).
  assert (D : double y = fl 53 y) by (unfold double; rewrite (proj2 (Qle_bool_iff _ _) (Qle_trans _ _ _ L A)); reflexivity).
  split; [ exact D | ]. unfold infinite. rewrite D. destruct (Qle_bool (pow2 1024) (Qabs (fl 53 y))) eqn:E; [ exfalso | reflexivity ].
  apply Qle_bool_iff in E. assert (F : Qabs (fl 53 y - y) <= (1 # 9007199254740992) * Qabs y) by exact (fl_err 53 y).
  set (t := ten 308) in *. clearbody t. set (w := pow2 1024) in *. clearbody w.
  qa (fl 53 y - y); qa y; qa (fl 53 y); lra.
Qed.
Lemma common_value p x : (1 <= p)%Z -> ten (-307) <= Qabs x < ten 308 -> ten (-307) <= Qabs (g_value p x) <= ten 308.
Proof.
  intros P [A B]. assert (N : ~ x == 0) by (intros E; rewrite E in A; change (Qabs 0) with 0 in A; pose proof (ten_pos (-307)); lra).
  pose proof (g_value_size p x P N) as [C D]. pose proof (qlog10_spec x N) as [E F].
  assert (L : ten (-307) < ten (qlog10 x + 1)) by lra. apply ten_lt_inv in L. assert (U : ten (qlog10 x) < ten 308) by lra. apply ten_lt_inv in U.
  split; [ apply Qle_trans with (ten (qlog10 x)); [ apply ten_le; lia | exact C ] | apply Qle_trans with (ten (qlog10 x + 1)); [ exact D | apply ten_le; lia ] ].
Qed.
(** ** Floats *)
Lemma round_again p x : (1 <= p)%Z -> p <> 16%Z -> common_float x -> g_value p (double (g_value p x)) == g_value p x.
Proof.
  intros P Q (D & C). change (power10 (-307)) with (ten (-307)) in C. change (power10 308) with (ten 308) in C.
  assert (N : ~ x == 0) by (intros E; rewrite E in C; change (Qabs 0) with 0 in C; pose proof (ten_pos (-307)); lra).
  destruct (common_double _ (common_value p x P C)) as [-> _].
  destruct (Z.le_gt_cases p 15) as [L|L].
  - apply g_again; [ lia | exact N | ]. apply (fl_err 53).
  - assert (E : fl 53 (g_value p x) == x).
    { apply fl_back; [ exact D | ]. pose proof (g_err p x P N) as E. pose proof (qlog10_spec x N) as [F _].
      assert (K : ten (qlog10 x - p + 1) <= ten (-16) * ten (qlog10 x)) by (rewrite <- ten_plus; apply ten_le; lia).
      change (ten (-16)) with (1 # 10000000000000000) in K. change (pow2 (-54)) with (1 # 18014398509481984). pose proof (ten_pos (qlog10 x)). lra. }
    symmetry. apply g_value_comp; [ exact P | exact N | symmetry; exact E ].
Qed.
