(** Numbers for which the double rounding of [round] shows. *)
From Coq Require Import QArith Qabs Lqa String ZifyBool.
From Verif Require Import Float Base FpfindModel ReportModel FpCliSpec RoundModel RoundSpec RoundProofs RoundProofs2 RoundProofs3 RoundProofs4.
Import ListNotations. Local Open Scope Z_scope.

(** the float64 after 10^23, 99999999999999991611392 + 2^24 *)
Definition above23 : Q := inject_Z 100000000000000008388608.
Lemma above23_common : common_float above23.
Proof.
  split; [ symmetry; apply Qeq_bool_iff; vm_compute; reflexivity | ].
  assert (E : (Qabs above23 == above23)%Q) by reflexivity. rewrite E.
  split; [ apply Qle_bool_iff; vm_compute; reflexivity | ]. change power10 with ten. rewrite ten_Z by lia. unfold above23. rewrite <- Zlt_Qlt. vm_compute. reflexivity.
Qed.
Lemma above23_round : round (NFloat above23) None (Some 16) None = Ok (RText (codes "9.999999999999999e+22")).
Proof. vm_compute. reflexivity. Qed.
(** the numeral found has another value than the nearest number *)
Lemma digits_no_e ds r : digits ds -> forall ds' r', digits ds' -> (forall c t, r = c :: t -> ~ is_digit c) -> (forall c t, r' = c :: t -> ~ is_digit c) ->
  ds ++ r = ds' ++ r' -> ds = ds' /\ r = r'.
Proof.
  induction ds as [|c ds IH]; intros D ds' r' D' R R' E.
  - destruct ds' as [|c' ds']; [ auto | ]. cbn in E. exfalso. apply (R _ _ E). now inversion D'.
  - destruct ds' as [|c' ds']; [ exfalso; cbn in E; symmetry in E; apply (R' _ _ E); now inversion D | ].
    cbn in E. injection E as -> E. inversion D; inversion D'; subst. destruct (IH ltac:(assumption) ds' r' ltac:(assumption) R R' E) as [-> ->]. auto.
Qed.
Lemma exponent_head ex e : exponent ex e -> forall c t, ex = c :: t -> ~ is_digit c /\ c <> 46.
Proof. intros [[-> _]|(c & r & H & _ & ->)] c' t E; [ discriminate | ]. injection E as <- <-. unfold is_digit. lia. Qed.
(** A numeral has one value. *)
Lemma numeral_unique t q q' : numeral t q -> numeral t q' -> (q == q')%Q.
Proof.
  intros (s & neg & m & ds & fs & ex & e & S & M & EX & T & Q) (s' & neg' & m' & ds' & fs' & ex' & e' & S' & M' & EX' & T' & Q').
  assert (HM : forall m ds fs, mantissa m ds fs -> exists c r, m = c :: r /\ (is_digit c \/ c = 46)).
  { intros a b c (D1 & D2 & N & [[-> ->]| ->]).
    - destruct b as [|x b]; [ rewrite app_nil_r in N; contradiction | ]. exists x, b. split; [ reflexivity | left; now inversion D1 ].
    - destruct b as [|x b]; [ exists 46, c; auto | ]. exists x, (b ++ 46 :: c). split; [ reflexivity | left; now inversion D1 ]. }
  assert (E1 : s = s' /\ neg = neg' /\ m ++ ex = m' ++ ex').
  { destruct (HM _ _ _ M) as (c & r & -> & C). destruct (HM _ _ _ M') as (c' & r' & -> & C'). rewrite T in T'. unfold is_digit in *.
    destruct S, S'; cbn [app] in T'; try discriminate T'; injection T'; intros; subst; first [ exfalso; lia | cbn [app]; repeat split; congruence ]. }
  destruct E1 as (-> & -> & E2). clear T T' S S'.
  assert (E3 : ds = ds' /\ fs = fs' /\ ex = ex').
  { destruct M as (D1 & D2 & _ & F). destruct M' as (D1' & D2' & _ & F').
    assert (X : forall c t, ex = c :: t -> ~ is_digit c) by (intros c t0 H; apply (exponent_head _ _ EX c t0 H)).
    assert (X' : forall c t, ex' = c :: t -> ~ is_digit c) by (intros c t0 H; apply (exponent_head _ _ EX' c t0 H)).
    assert (PT : forall l c t, 46 :: l = c :: t -> ~ is_digit c) by (intros l c t0 H; injection H as <- <-; unfold is_digit; lia).
    destruct F as [[-> ->]| ->], F' as [[-> ->]| ->]; rewrite <- ?app_assoc in E2; cbn [app] in E2.
    - destruct (digits_no_e _ _ D1 _ _ D1' X X' E2) as [-> ->]. auto.
    - destruct (digits_no_e _ _ D1 _ _ D1' X (PT _) E2) as [-> H]. exfalso. now apply (proj2 (exponent_head _ _ EX _ _ H)).
    - destruct (digits_no_e _ _ D1 _ _ D1' (PT _) X' E2) as [-> H]. symmetry in H. exfalso. now apply (proj2 (exponent_head _ _ EX' _ _ H)).
    - destruct (digits_no_e _ _ D1 _ _ D1' (PT _) (PT _) E2) as [-> H]. injection H as H. destruct (digits_no_e _ _ D2 _ _ D2' X X' H) as [-> ->]. auto. }
  destruct E3 as (-> & -> & ->).
  assert (WU : forall r a b, whole r a -> whole r b -> a = b).
  { intros r a b (s1 & n1 & d1 & S1 & N1 & D1 & T1 & V1) (s2 & n2 & d2 & S2 & N2 & D2 & T2 & V2). rewrite T1 in T2.
    destruct d1 as [|c d1]; [ contradiction | ]. destruct d2 as [|c' d2]; [ contradiction | ]. inversion D1; inversion D2; subst. unfold is_digit in *.
    destruct S1, S2; cbn [app] in T2; try discriminate T2; injection T2; intros; subst; first [ exfalso; lia | congruence ]. }
  assert (E4 : e = e').
  { destruct EX as [[-> ->]|(c & r & _ & W & ->)]; destruct EX' as [[E ->]|(c' & r' & _ & W' & E)]; try discriminate; [ reflexivity | ]. injection E as <- <-. exact (WU _ _ _ W W'). }
  subst e'. rewrite Q, Q'. reflexivity.
Qed.
Lemma wrote23 : numeral (codes "9.999999999999999e+22") (inject_Z 99999999999999990000000).
Proof.
  exists [], false, (codes "9.999999999999999"), [57], (repeat 57 15), (codes "e+22"), 22. split; [ constructor | ].
  split; [ split; [ repeat constructor; unfold is_digit; lia | ]; split; [ apply Forall_forall; intros x H; apply repeat_spec in H; subst; unfold is_digit; lia | ]; split; [ discriminate | right; reflexivity ] | ].
  split; [ right; exists 101, (codes "+22"); split; [ now left | ]; split; [ | reflexivity ]; exists [43], false, [50; 50]; split; [ constructor | ]; split; [ discriminate | ];
    split; [ repeat constructor; unfold is_digit; lia | ]; split; reflexivity | ].
  split; [ reflexivity | ]. apply Qeq_bool_iff. vm_compute. reflexivity.
Qed.
Lemma not_nearest23 y : numeral (codes "9.999999999999999e+22") y -> ~ nearest 16 above23 y.
Proof.
  intros N (_ & H & _). pose proof (numeral_unique _ _ _ N wrote23) as E.
  assert (F : figures 16 (inject_Z (10 ^ 23))) by (exists 1, 23; split; [ reflexivity | apply Qeq_bool_iff; vm_compute; reflexivity ]).
  specialize (H _ F). rewrite E in H. apply Qle_bool_iff in H. vm_compute in H. discriminate.
Qed.
Lemma int23_round : round (NInt (10 ^ 23)) None (Some 3) None = Ok (RInt 99999999999999991611392).
Proof. vm_compute. reflexivity. Qed.
Lemma int23_not_nearest : ~ nearest 3 (inject_Z (10 ^ 23)) (inject_Z 99999999999999991611392).
Proof.
  intros (_ & H & _). assert (F : figures 3 (inject_Z (10 ^ 23))) by (exists 1, 23; split; [ reflexivity | apply Qeq_bool_iff; vm_compute; reflexivity ]).
  specialize (H _ F). apply Qle_bool_iff in H. vm_compute in H. discriminate.
Qed.
Lemma int1024_round : round (NInt (2 ^ 1024)) None (Some 3) None = Err OverflowError.
Proof. vm_compute. reflexivity. Qed.
(** 0.1234 as a float *)
Definition x1234 : Q := fl 53 (1234 # 10000).
Lemma x1234_common : common_float x1234.
Proof.
  assert (E : (Qabs x1234 == x1234)%Q) by reflexivity.
  split; [ symmetry; apply fl_idem; lia | ]. rewrite E. split; [ apply Qle_bool_iff; vm_compute; reflexivity | ].
  apply Qnot_le_lt. intros K. apply Qle_bool_iff in K. vm_compute in K. discriminate.
Qed.
