(** The nearest number with p significant figures, and reading it back. *)
From Coq Require Import QArith Qabs Qpower Lqa String ZifyBool.
From Verif Require Import Float Base FpfindModel ReportModel FpCliSpec RoundModel RoundSpec.
Import ListNotations. Local Open Scope Q_scope.

Lemma ten_pos e : 0 < ten e. Proof. apply Qpower_0_lt. reflexivity. Qed.
Lemma ten_nz e : ~ ten e == 0. Proof. pose proof (ten_pos e). lra. Qed.
Lemma ten_plus a b : ten (a + b) == ten a * ten b. Proof. apply Qpower_plus. discriminate. Qed.
Lemma ten_Z e : (0 <= e)%Z -> ten e == inject_Z (10 ^ e). Proof. intros H. unfold ten. symmetry. apply Zpower_Qpower. exact H. Qed.
Lemma ten_ge1 a : (0 <= a)%Z -> 1 <= ten a.
Proof. intros H. rewrite ten_Z by exact H. change 1 with (inject_Z 1). rewrite <- Zle_Qle. pose proof (Z.pow_pos_nonneg 10 a). lia. Qed.
Lemma ten_le a b : (a <= b)%Z -> ten a <= ten b.
Proof.
  intros H. replace b with (a + (b - a))%Z by lia. rewrite ten_plus. pose proof (ten_ge1 (b - a) ltac:(lia)). pose proof (ten_pos a). nra.
Qed.
Lemma ten_S a : ten (a + 1) == 10 * ten a.
Proof. rewrite ten_plus. change (ten 1) with (inject_Z 10). unfold inject_Z. ring. Qed.
Lemma ten_lt a b : (a < b)%Z -> ten a < ten b.
Proof. intros H. apply Qlt_le_trans with (ten (a + 1)); [ | apply ten_le; lia ]. rewrite ten_S. pose proof (ten_pos a). lra. Qed.
Lemma ten_lt_inv a b : ten a < ten b -> (a < b)%Z.
Proof. intros H. destruct (Z.lt_ge_cases a b) as [|K]; [ assumption | ]. pose proof (ten_le _ _ K). lra. Qed.
Lemma ten_cancel a : ten (- a) * ten a == 1.
Proof. rewrite <- ten_plus. replace (- a + a)%Z with 0%Z by lia. reflexivity. Qed.
(** a multiple of a power is one of every smaller power *)
Lemma ten_mult m a b : (b <= a)%Z -> inject_Z m * ten a == inject_Z (m * 10 ^ (a - b)) * ten b.
Proof. intros H. replace a with ((a - b) + b)%Z at 1 by lia. rewrite ten_plus, ten_Z, inject_Z_mult by lia. ring. Qed.

(** ** The exponent of the first digit *)
Lemma digits_len fuel : forall v, (0 <= v < 2 ^ Z.of_nat fuel)%Z -> (1 <= Z.of_nat fuel)%Z ->
  let L := len (FpfindModel.digits fuel v) in (1 <= L)%Z /\ (v < 10 ^ L)%Z /\ ((0 < v)%Z -> (10 ^ (L - 1) <= v)%Z).
Proof.
  induction fuel as [|f IH]; intros v H F; [ lia | ]. cbn [FpfindModel.digits]. destruct (Z.ltb_spec v 10) as [K|K].
  { unfold len; cbn [length]. change (Z.of_nat 1) with 1%Z. change (10 ^ 1)%Z with 10%Z. change (10 ^ (1 - 1))%Z with 1%Z. lia. }
  rewrite Nat2Z.inj_succ, Z.pow_succ_r in H by lia.
  assert (B : (0 <= v / 10 < 2 ^ Z.of_nat f)%Z) by (split; [ apply Z.div_pos; lia | apply Z.div_lt_upper_bound; lia ]).
  assert (F' : (1 <= Z.of_nat f)%Z) by (destruct f; [ change (2 ^ Z.of_nat 0)%Z with 1%Z in *; lia | lia ]).
  destruct (IH _ B F') as (I1 & I2 & I3). rewrite len_app, len_cons, len_nil. set (L := len _) in *.
  replace (L + (1 + 0))%Z with (L + 1)%Z by lia. replace (L + 1 - 1)%Z with ((L - 1) + 1)%Z by lia. rewrite !Z.pow_add_r by lia. change (10 ^ 1)%Z with 10%Z.
  pose proof (Z_div_mod_eq_full v 10). pose proof (Z.mod_pos_bound v 10 ltac:(lia)).
  assert (P : (0 < v / 10)%Z) by (apply Z.div_str_pos; lia). specialize (I3 P). repeat split; lia.
Qed.
Lemma dec_len v : (0 < v)%Z -> let L := len (dec v) in (1 <= L)%Z /\ (10 ^ (L - 1) <= v < 10 ^ L)%Z.
Proof.
  intros H. unfold dec. destruct (Z.ltb_spec v 0); [ lia | ]. pose proof (Z.log2_nonneg v). pose proof (Z.log2_spec v H).
  destruct (digits_len (Z.to_nat (Z.log2 v + 1)) v) as (A & B & C); rewrite ?Z2Nat.id by lia; unfold Z.succ in *; lia.
Qed.
Lemma Qle_bool_false a b : Qle_bool a b = false -> b < a.
Proof. intros H. destruct (Qlt_le_dec b a) as [|K]; [ assumption | ]. apply Qle_bool_iff in K. congruence. Qed.
Lemma qlog10_spec x : ~ x == 0 -> ten (qlog10 x) <= Qabs x < ten (qlog10 x + 1).
Proof.
  intros H. destruct x as [n d]. assert (N : (0 < Z.abs n)%Z) by (unfold Qeq in H; cbn in H; lia).
  unfold qlog10. cbn [Qnum Qden]. destruct (dec_len _ N) as (A1 & A2). destruct (dec_len (Zpos d) ltac:(lia)) as (B1 & B2).
  set (a := len (dec (Z.abs n))) in *. set (b := len (dec (Zpos d))) in *.
  assert (E : Qabs (n # d) == inject_Z (Z.abs n) / inject_Z (Zpos d)) by (unfold Qabs; rewrite Qmake_Qdiv; reflexivity).
  assert (U : Qabs (n # d) * inject_Z (Zpos d) == inject_Z (Z.abs n)) by (rewrite E; field; unfold Qeq; cbn; lia).
  destruct A2 as [A2 A3]. destruct B2 as [B2 B3]. rewrite Zle_Qle in A2, B2. rewrite Zlt_Qlt in A3, B3.
  rewrite <- ten_Z in A2, A3, B2, B3 by lia. set (D := inject_Z (Zpos d)) in *. set (X := Qabs (n # d)) in *.
  assert (HX : 0 <= X) by apply Qabs_nonneg.
  assert (P1 : X < ten (a - b + 1)).
  { assert (T : ten a == ten (a - b + 1) * ten (b - 1)) by (rewrite <- ten_plus; apply Qeq_refl || (replace (a - b + 1 + (b - 1))%Z with a by lia; reflexivity)).
    rewrite T in A3. rewrite <- U in A3. pose proof (ten_pos (a - b + 1)). pose proof (ten_pos (b - 1)).
    destruct (Qlt_le_dec X (ten (a - b + 1))) as [|K]; [ assumption | ]. exfalso.
    assert (ten (a - b + 1) * ten (b - 1) <= X * D) by nra. lra. }
  assert (P2 : ten (a - b - 1) < X).
  { assert (T : ten (a - 1) == ten (a - b - 1) * ten b) by (rewrite <- ten_plus; replace (a - b - 1 + b)%Z with (a - 1)%Z by lia; reflexivity).
    rewrite T in A2. rewrite <- U in A2. pose proof (ten_pos (a - b - 1)). pose proof (ten_pos b).
    destruct (Qlt_le_dec (ten (a - b - 1)) X) as [|K]; [ assumption | ]. exfalso.
    assert (0 < D) by reflexivity. assert (X * D <= ten (a - b - 1) * D) by (apply Qmult_le_compat_r; lra).
    assert (ten (a - b - 1) * D < ten (a - b - 1) * ten b) by (rewrite !(Qmult_comm (ten (a - b - 1))); apply Qmult_lt_compat_r; lra). lra. }
  fold X. destruct (Qle_bool (ten (a - b)) X) eqn:Q.
  - apply Qle_bool_iff in Q. split; [ exact Q | exact P1 ].
  - apply Qle_bool_false in Q. split; [ apply Qlt_le_weak, P2 | ]. replace (a - b - 1 + 1)%Z with (a - b)%Z by lia. exact Q.
Qed.

(** ** The number written *)
Ltac qa a := let A := fresh "A" in pose proof (Qabs_case a (fun v => (0 <= a /\ v == a) \/ (a <= 0 /\ v == - a))
   (fun H => or_introl (conj H (Qeq_refl a))) (fun H => or_intror (conj H (Qeq_refl (- a))))) as A; destruct A as [[? ?]|[? ?]].
Lemma inject_ne a b : a <> b -> 1 <= Qabs (inject_Z a - inject_Z b).
Proof.
  intros H. destruct (Z.lt_ge_cases a b) as [K|K].
  - assert (E : (a + 1 <= b)%Z) by lia. rewrite Zle_Qle, inject_Z_plus in E. change (inject_Z 1) with 1 in E. qa (inject_Z a - inject_Z b); lra.
  - assert (E : (b + 1 <= a)%Z) by lia. rewrite Zle_Qle, inject_Z_plus in E. change (inject_Z 1) with 1 in E. qa (inject_Z a - inject_Z b); lra.
Qed.
Lemma near_int X n M : Qabs (inject_Z n - X) <= 1 # 2 -> Qabs (inject_Z n - X) <= Qabs (inject_Z M - X).
Proof.
  intros H. destruct (Z.eq_dec M n) as [->|K]; [ apply Qle_refl | ]. pose proof (inject_ne _ _ K).
  qa (inject_Z n - X); qa (inject_Z M - X); qa (inject_Z M - inject_Z n); lra.
Qed.
Lemma rne_div_tie a b : (0 < b)%Z -> (2 * Z.abs (rne_div a b * b - a) = b)%Z -> Z.even (rne_div a b) = true.
Proof.
  intros B E. unfold rne_div in *. pose proof (Z_div_mod_eq_full a b). pose proof (Z.mod_pos_bound a b B).
  set (q := (a / b)%Z) in *. set (r := (a mod b)%Z) in *. cbv zeta in *.
  destruct (Z.ltb_spec (2 * r) b); [ nia | ]. destruct (Z.ltb_spec b (2 * r)); [ nia | ].
  destruct (Z.even q) eqn:V; [ exact V | ]. rewrite Z.even_add, V. reflexivity.
Qed.
Lemma rneQ_tie X M : M <> rneQ X -> Qabs (inject_Z (rneQ X) - X) == Qabs (inject_Z M - X) ->
  Qabs (inject_Z (rneQ X) - X) == 1 # 2 /\ Z.even (rneQ X) = true.
Proof.
  intros K H. pose proof (rneQ_err X) as R. pose proof (inject_ne _ _ K) as G.
  assert (T : Qabs (inject_Z (rneQ X) - X) == 1 # 2) by
    (qa (inject_Z (rneQ X) - X); qa (inject_Z M - X); qa (inject_Z M - inject_Z (rneQ X)); lra).
  split; [ exact T | ]. clear K H R G. destruct X as [a b]. unfold rneQ in *. cbn [Qnum Qden] in *.
  apply rne_div_tie; [ lia | ]. set (n := rne_div a (Zpos b)) in *. unfold Qabs, Qminus, Qplus, Qopp, inject_Z, Qeq in T. cbn [Qnum Qden] in T.
  lia.
Qed.
Section Nearest.
Variables (p : Z) (x : Q).
Hypothesis (P : (1 <= p)%Z) (NZ : ~ x == 0).
Let k := (qlog10 x - p + 1)%Z.
Let X := x / ten k.
Let n := rneQ X.
Lemma g_x : x == X * ten k.
Proof. unfold X. field. apply ten_nz. Qed.
Lemma g_range : inject_Z (10 ^ (p - 1)) <= Qabs X < inject_Z (10 ^ p).
Proof.
  pose proof (qlog10_spec x NZ) as [A B].
  assert (E : Qabs x == Qabs X * ten k) by (rewrite <- (Qabs_pos (ten k)), <- Qabs_Qmult by apply Qlt_le_weak, ten_pos; apply Qabs_wd, g_x). rewrite E in A, B.
  replace (qlog10 x) with ((p - 1) + k)%Z in A by (unfold k; lia). replace (qlog10 x + 1)%Z with (p + k)%Z in B by (unfold k; lia).
  rewrite ten_plus, (ten_Z (p - 1)) in A by lia. rewrite ten_plus, (ten_Z p) in B by lia. pose proof (ten_pos k). split; [ apply Qmult_le_r with (ten k) | apply Qmult_lt_r with (ten k) ]; assumption.
Qed.
Lemma g_n : (10 ^ (p - 1) <= Z.abs n <= 10 ^ p)%Z.
Proof.
  pose proof g_range as [A B]. split.
  - destruct (Qlt_le_dec X 0) as [L|L].
    + rewrite Qabs_neg in A by lra. assert (E : X <= inject_Z (- 10 ^ (p - 1))) by (rewrite inject_Z_opp; lra).
      apply rneQ_mono in E. rewrite rneQ_inject in E. fold n in E. lia.
    + rewrite Qabs_pos in A by lra. apply rneQ_mono in A. rewrite rneQ_inject in A. fold n in A. lia.
  - destruct (Qlt_le_dec X 0) as [L|L].
    + rewrite Qabs_neg in B by lra. assert (E : inject_Z (- 10 ^ p) <= X) by (rewrite inject_Z_opp; lra).
      apply rneQ_mono in E. rewrite rneQ_inject in E. fold n in E.
      assert (F : X <= inject_Z 0) by (change (inject_Z 0) with 0; lra). apply rneQ_mono in F. rewrite rneQ_inject in F. fold n in F. lia.
    + rewrite Qabs_pos in B by lra. apply Qlt_le_weak, rneQ_mono in B. rewrite rneQ_inject in B. fold n in B.
      assert (F : inject_Z 0 <= X) by (change (inject_Z 0) with 0; lra). apply rneQ_mono in F. rewrite rneQ_inject in F. fold n in F. lia.
Qed.
Lemma figures_of_eq : figures_of p x = if Z.abs n =? 10 ^ p then (Z.sgn n * 10 ^ (p - 1), k + 1)%Z else (n, k).
Proof. reflexivity. Qed.
Lemma pow_split : (10 ^ p = 10 ^ (p - 1) * 10)%Z.
Proof. replace p with (p - 1 + 1)%Z at 1 by lia. rewrite Z.pow_add_r by lia. reflexivity. Qed.
(** p digits, the first not 0 *)
Lemma figures_of_spec : let (m, j) := figures_of p x in
  (10 ^ (p - 1) <= Z.abs m < 10 ^ p)%Z /\ inject_Z m * ten j == inject_Z n * ten k.
Proof.
  rewrite figures_of_eq. pose proof g_n. pose proof pow_split. pose proof (Z.pow_pos_nonneg 10 (p - 1) ltac:(lia) ltac:(lia)).
  destruct (Z.eqb_spec (Z.abs n) (10 ^ p)) as [E|E]; [ | split; [ lia | reflexivity ] ].
  split; [ rewrite Z.abs_mul, (Z.abs_eq (10 ^ (p - 1))) by lia; assert (Z.abs (Z.sgn n) = 1)%Z by lia; nia | ].
  rewrite ten_S. assert (F : n = (Z.sgn n * 10 ^ (p - 1) * 10)%Z) by lia. rewrite F at 2. rewrite (inject_Z_mult _ 10). change (inject_Z 10) with 10. ring.
Qed.
Lemma g_value_eq : g_value p x == inject_Z n * ten k.
Proof.
  unfold g_value. destruct (Qeq_bool x 0) eqn:E; [ apply Qeq_bool_iff in E; contradiction | ].
  pose proof figures_of_spec. destruct (figures_of p x) as [m j]. apply H.
Qed.
Lemma g_err : Qabs (g_value p x - x) <= (1 # 2) * ten k.
Proof.
  rewrite g_value_eq. setoid_replace (inject_Z n * ten k - x) with ((inject_Z n - X) * ten k) by (pose proof g_x as G; lra).
  rewrite Qabs_Qmult, (Qabs_pos (ten k)) by apply Qlt_le_weak, ten_pos. apply Qmult_le_compat_r; [ apply rneQ_err | apply Qlt_le_weak, ten_pos ].
Qed.
Lemma g_dist M : Qabs (inject_Z M * ten k - x) == Qabs (inject_Z M - X) * ten k.
Proof.
  setoid_replace (inject_Z M * ten k - x) with ((inject_Z M - X) * ten k) by (pose proof g_x as G; lra).
  rewrite Qabs_Qmult, (Qabs_pos (ten k)) by apply Qlt_le_weak, ten_pos. reflexivity.
Qed.
Lemma g_nearest : nearest p x (g_value p x).
Proof.
  split.
  { unfold g_value. destruct (Qeq_bool x 0) eqn:E; [ apply Qeq_bool_iff in E; contradiction | ].
    pose proof figures_of_spec. destruct (figures_of p x) as [m j]. exists m, j. split; [ lia | reflexivity ]. }
  assert (D : Qabs (g_value p x - x) == Qabs (inject_Z n - X) * ten k) by (rewrite g_value_eq; apply g_dist).
  assert (Z : forall z, figures p z -> (exists M, z == inject_Z M * ten k) \/ Qabs (g_value p x - x) < Qabs (z - x)).
  { intros z (m & j & B & E). change (power10 j) with (ten j) in E. destruct (Z.le_gt_cases k j) as [C|C].
    - left. exists (m * 10 ^ (j - k))%Z. rewrite E. apply ten_mult, C.
    - right. pose proof (qlog10_spec x NZ) as [A _].
      assert (S : Qabs z < ten (qlog10 x)).
      { rewrite E, Qabs_Qmult, (Qabs_pos (ten j)), inject_abs by apply Qlt_le_weak, ten_pos. rewrite Zlt_Qlt in B.
        apply Qlt_le_trans with (inject_Z (10 ^ p) * ten j); [ apply Qmult_lt_compat_r; [ apply ten_pos | exact B ] | ].
        rewrite <- ten_Z, <- ten_plus by lia. apply ten_le. unfold k in C. lia. }
      assert (W : forall s, inject_Z (s * 10 ^ (p - 1)) * ten k == inject_Z s * ten (qlog10 x)).
      { intros s. rewrite inject_Z_mult, <- ten_Z, <- Qmult_assoc, <- ten_plus by lia. replace (p - 1 + k)%Z with (qlog10 x) by (unfold k; lia). reflexivity. }
      assert (N : forall s, Qabs (g_value p x - x) <= Qabs (inject_Z s * ten (qlog10 x) - x)).
      { intros s. rewrite <- W, D, g_dist. apply Qmult_le_compat_r; [ apply near_int, rneQ_err | apply Qlt_le_weak, ten_pos ]. }
      pose proof (ten_pos (qlog10 x)) as T.
      destruct (Qlt_le_dec x 0) as [L|L].
      + pose proof (N (-1)%Z) as N1. change (inject_Z (-1)) with (- (1)) in N1.
        qa (- (1) * ten (qlog10 x) - x); qa (z - x); qa z; qa x; lra.
      + pose proof (N 1%Z) as N1. change (inject_Z 1) with 1 in N1.
        qa (1 * ten (qlog10 x) - x); qa (z - x); qa z; qa x; lra. }
  split.
  - intros z F. destruct (Z z F) as [[M E]|L]; [ | apply Qlt_le_weak, L ]. rewrite E, D, g_dist.
    apply Qmult_le_compat_r; [ apply near_int, rneQ_err | apply Qlt_le_weak, ten_pos ].
  - intros z F T U. destruct (Z z F) as [[M E]|L]; [ | lra ].
    rewrite E, D, g_dist in T. apply Qmult_inj_r in T; [ | apply ten_nz ].
    assert (V : M <> rneQ X) by (intros ->; apply U; rewrite E, g_value_eq; reflexivity).
    destruct (rneQ_tie X M V T) as [T1 T2]. apply Z.even_spec in T2. destruct T2 as [h H].
    exists h, k. split; [ rewrite g_value_eq; fold n in H; rewrite H; reflexivity | rewrite D; fold n in T1; rewrite T1; reflexivity ].
Qed.
End Nearest.

(** Two numbers with p figures are not too near. *)
Lemma spacing p y z : (1 <= p)%Z -> figures p y -> figures p z -> ~ z == y -> Qabs y * ten (- p) <= Qabs (z - y).
Proof.
  intros P (m & a & B & Ey) (m' & b & B' & Ez) N. change (power10 a) with (ten a) in Ey. change (power10 b) with (ten b) in Ez.
  assert (G : forall c M M', y == inject_Z M * ten c -> z == inject_Z M' * ten c -> ten c <= Qabs (z - y)).
  { intros c M M' E E'. setoid_replace (z - y) with ((inject_Z M' - inject_Z M) * ten c) by (rewrite E, E'; ring).
    rewrite Qabs_Qmult, (Qabs_pos (ten c)) by apply Qlt_le_weak, ten_pos. pose proof (ten_pos c).
    assert (K : M' <> M) by (intros ->; apply N; rewrite E, E'; reflexivity). pose proof (inject_ne _ _ K). nra. }
  assert (S : forall w M c, (Z.abs M < 10 ^ p)%Z -> w == inject_Z M * ten c -> Qabs w * ten (- p) < ten c).
  { intros w M c L E. rewrite E, Qabs_Qmult, inject_abs, (Qabs_pos (ten c)) by apply Qlt_le_weak, ten_pos. rewrite Zlt_Qlt, <- (ten_Z p) in L by lia.
    pose proof (ten_pos c). pose proof (ten_pos (- p)). pose proof (ten_cancel p). 
    assert (inject_Z (Z.abs M) * ten (- p) < 1) by nra. assert (inject_Z (Z.abs M) * ten c * ten (- p) == inject_Z (Z.abs M) * ten (- p) * ten c) by ring. nra. }
  pose proof (S y m a B Ey) as Sy. pose proof (S z m' b B' Ez) as Sz.
  destruct (Z.le_gt_cases a b) as [C|C].
  { apply Qle_trans with (ten a); [ lra | ]. apply (G a m (m' * 10 ^ (b - a))%Z); [ exact Ey | rewrite Ez; apply ten_mult, C ]. }
  assert (D : ten b <= Qabs (z - y)) by (apply (G b (m * 10 ^ (a - b))%Z m'); [ rewrite Ey; apply ten_mult; lia | exact Ez ]).
  destruct (Qlt_le_dec (ten b) (Qabs y * ten (- p))) as [H|H]; [ | lra ].
  assert (Lz : Qabs z < ten (p + b)).
  { rewrite Ez, Qabs_Qmult, inject_abs, (Qabs_pos (ten b)), ten_plus, (ten_Z p) by (lia || apply Qlt_le_weak, ten_pos).
    rewrite Zlt_Qlt in B'. apply Qmult_lt_compat_r; [ apply ten_pos | exact B' ]. }
  assert (Ly : ten (p + b) < Qabs y).
  { rewrite ten_plus. pose proof (ten_cancel p). pose proof (ten_pos p). assert (ten b * ten p < Qabs y * ten (- p) * ten p) by (apply Qmult_lt_compat_r; lra).
    assert (Qabs y * ten (- p) * ten p == Qabs y) by (rewrite <- Qmult_assoc, H0; ring). lra. }
  assert (T : Qabs y - Qabs z <= Qabs (z - y)) by (qa y; qa z; qa (z - y); lra).
  assert (Ay : Qabs y == inject_Z (Z.abs m) * ten a) by (rewrite Ey, Qabs_Qmult, inject_abs, (Qabs_pos (ten a)) by apply Qlt_le_weak, ten_pos; reflexivity).
  destruct (Z.le_gt_cases a (p + b)) as [K|K].
  - assert (E : ten (p + b) == inject_Z (10 ^ (p + b - a)) * ten a) by (rewrite <- ten_Z, <- ten_plus by lia; replace (p + b - a + a)%Z with (p + b)%Z by lia; reflexivity).
    assert (I : (10 ^ (p + b - a) < Z.abs m)%Z) by (rewrite Zlt_Qlt; apply Qmult_lt_r with (ten a); [ apply ten_pos | rewrite <- E, <- Ay; exact Ly ]).
    assert (J : (10 ^ (p + b - a) + 1 <= Z.abs m)%Z) by lia. rewrite Zle_Qle, inject_Z_plus in J. change (inject_Z 1) with 1 in J. pose proof (ten_pos a).
    assert (inject_Z (10 ^ (p + b - a)) * ten a + ten a <= Qabs y) by (rewrite Ay; nra). lra.
  - assert (E : ten (p + b) <= ten (a - 1)) by (apply ten_le; lia). assert (E2 : ten a == 10 * ten (a - 1)) by (rewrite <- ten_S; replace (a - 1 + 1)%Z with a by lia; reflexivity).
    assert (J : (1 <= Z.abs m)%Z). { destruct (Z.eq_dec m 0) as [->|]; [ | lia ]. change (inject_Z (Z.abs 0)) with 0 in Ay. pose proof (ten_pos (p + b)). lra. }
    rewrite Zle_Qle in J. change (inject_Z 1) with 1 in J. pose proof (ten_pos a). assert (ten a <= Qabs y) by (rewrite Ay; nra).
    assert (Q1 : ten (- p) <= ten (-1)) by (apply ten_le; lia). change (ten (-1)) with (1 # 10) in Q1. pose proof (Qabs_nonneg y). pose proof (ten_pos (- p)).
    assert (Qabs y * ten (- p) <= Qabs y * (1 # 10)) by nra. lra.
Qed.
