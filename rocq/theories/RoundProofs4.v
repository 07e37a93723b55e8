(** What round returns. *)
From Coq Require Import QArith Qabs Qpower Lqa String ZifyBool.
From Verif Require Import Float Base FpfindModel ReportModel FpCliSpec RoundModel RoundSpec RoundProofs RoundProofs2 RoundProofs3.
Import ListNotations. Local Open Scope Q_scope.

Lemma figures_comp p y z : y == z -> figures p y -> figures p z.
Proof. intros E (m & k & B & H). exists m, k. split; [ exact B | ]. rewrite <- E. exact H. Qed.
Lemma nearest_comp p x y x' y' : x == x' -> y == y' -> nearest p x y -> nearest p x' y'.
Proof.
  intros EX EY (F & N & T). split; [ exact (figures_comp p y y' EY F) | ]. split.
  - intros z Z. rewrite <- EX, <- EY. exact (N z Z).
  - intros z Z K1 K2. rewrite <- EX, <- EY in K1. rewrite <- EY in K2. destruct (T z Z K1 K2) as (m & k & A & B). exists m, k. rewrite <- EX, <- EY. split; assumption.
Qed.
Lemma numeral_comp t y y' : y == y' -> numeral t y -> numeral t y'.
Proof. intros E (s & neg & m & ds & fs & ex & e & A & B & C & D & F). exists s, neg, m, ds, fs, ex, e. rewrite <- E. repeat (split; [ assumption | ]). exact F. Qed.
Lemma common_nz x : common_float x -> ~ x == 0.
Proof. intros (_ & C & _) E. rewrite E in C. change (Qabs 0) with 0 in C. change (power10 (-307)) with (ten (-307)) in C. pose proof (ten_pos (-307)). lra. Qed.
Lemma round_float x p : common_float x -> (1 <= p)%Z -> p <> 16%Z ->
  exists t y, round (NFloat x) None (Some p) None = Ok (RText t) /\ numeral t y /\ nearest p x y.
Proof.
  intros C P Q. pose proof (common_nz x C) as N. pose proof (round_again p x P Q C) as R. destruct C as (D & C).
  destruct (common_double _ (common_value p x P C)) as [E I].
  exists (g_text p (double (g_value p x))), (g_value p x). split; [ | split ].
  - unfold round, round_sf. destruct (Z.ltb_spec p 0); [ lia | ]. rewrite (Z.max_r 1 p) by lia. cbv zeta. rewrite I. reflexivity.
  - apply (numeral_comp _ _ _ R). apply g_numeral; [ exact P | ]. intros K. rewrite E in K. pose proof (g_value_nz p x P N) as NY.
    pose proof (fl_err 53 (g_value p x)) as F. rewrite K in F. assert (F' : Qabs (0 - g_value p x) <= (1 # 9007199254740992) * Qabs (g_value p x)) by exact F.
    qa (0 - g_value p x); qa (g_value p x); apply NY; lra.
  - apply g_nearest; assumption.
Qed.
(** ** Whole numbers *)
Lemma whole_common n : n <> 0%Z -> (Z.abs n < 10 ^ 307)%Z -> ten (-307) <= Qabs (inject_Z n) < ten 307.
Proof.
  intros N B. rewrite inject_abs. split; [ | rewrite ten_Z by lia; rewrite <- Zlt_Qlt; exact B ].
  apply Qle_trans with (ten 0); [ apply ten_le; lia | ]. change (ten 0) with (inject_Z 1). rewrite <- Zle_Qle. lia.
Qed.
Lemma fl_whole n : exists w, fl 53 (inject_Z n) == inject_Z w.
Proof.
  destruct (Z.le_gt_cases (Z.abs n) (2 ^ 53)) as [L|L]; [ exists n; apply fl_int; lia | ].
  assert (N : ~ inject_Z n == 0) by (intros E; unfold Qeq, inject_Z in E; cbn [Qnum Qden] in E; lia).
  destruct (fl_exp 53 _ N) as [e B]. pose proof (fl_at 53 _ e B) as FA. rewrite inject_abs in B.
  assert (E : pow2 53 < pow2 (e + 53)) by (apply Qle_lt_trans with (inject_Z (Z.abs n)); [ rewrite pow2_Z by lia; rewrite <- Zle_Qle; lia | apply B ]).
  apply pow2_lt_inv in E. exists (rneQ (inject_Z n * pow2 (- e)) * 2 ^ e)%Z. rewrite FA, (pow2_Z e), inject_Z_mult by lia. reflexivity.
Qed.
(** a whole number is written as one *)
Lemma g_whole p n : (1 <= p)%Z -> n <> 0%Z -> let k := (qlog10 (inject_Z n) - p + 1)%Z in
  ((k <= 0)%Z /\ g_value p (inject_Z n) == inject_Z n) \/ ((0 < k)%Z /\ exists m, g_value p (inject_Z n) == inject_Z (m * 10 ^ k)).
Proof.
  intros P N k. assert (NZ : ~ inject_Z n == 0) by (intros E; unfold Qeq, inject_Z in E; cbn [Qnum Qden] in E; lia).
  pose proof (g_value_eq p _ P NZ) as G. fold k in G. destruct (Z.le_gt_cases k 0) as [K|K].
  - left. split; [ exact K | ]. assert (E : inject_Z n / ten k == inject_Z (n * 10 ^ (- k))).
    { rewrite inject_Z_mult, <- ten_Z by lia. pose proof (ten_nz k). pose proof (ten_cancel k) as C. setoid_replace (inject_Z n) with (inject_Z n * (ten (- k) * ten k)) at 1 by (rewrite C; ring). field. assumption. }
    rewrite G, (rneQ_comp _ _ E), rneQ_inject, inject_Z_mult, <- ten_Z, <- Qmult_assoc, ten_cancel by lia. ring.
  - right. split; [ lia | ]. exists (rneQ (inject_Z n / ten k)). rewrite G, inject_Z_mult, <- (ten_Z k) by lia. reflexivity.
Qed.
Lemma round_zero p : (1 <= p)%Z -> round (NInt 0) None (Some p) None = Ok (RInt 0).
Proof.
  intros P. unfold round, round_sf. destruct (Z.ltb_spec p 0); [ lia | ].
  assert (I : infinite (inject_Z 0) = false) by (vm_compute; reflexivity). rewrite I. cbv zeta.
  assert (G : g_value (Z.max 1 p) (double (inject_Z 0)) = 0) by reflexivity. rewrite G.
  assert (I' : infinite 0 = false) by (vm_compute; reflexivity). rewrite I'. reflexivity.
Qed.
Lemma nearest_zero p : (1 <= p)%Z -> nearest p 0 0.
Proof.
  intros P. split; [ exists 0%Z, 0%Z; split; [ pose proof (Z.pow_pos_nonneg 10 p); lia | reflexivity ] | ]. split.
  - intros z _. change (Qabs (0 - 0)) with 0. apply Qabs_nonneg.
  - intros z _ E K. change (Qabs (0 - 0)) with 0 in E. exfalso. apply K. qa (z - 0); lra.
Qed.
(** before the last step: the float64 from the text, not infinite *)
Lemma round_int_eq n p : n <> 0%Z -> (Z.abs n < 10 ^ 307)%Z -> (1 <= p)%Z ->
  let y := g_value p (fl 53 (inject_Z n)) in
  round (NInt n) None (Some p) None = Ok (RInt (qtrunc (fl 53 y))) /\ ~ fl 53 (inject_Z n) == 0 /\
  Qabs (fl 53 (inject_Z n) - inject_Z n) <= (1 # 9007199254740992) * Qabs (inject_Z n) /\ Qabs (fl 53 y - y) <= (1 # 9007199254740992) * Qabs y.
Proof.
  intros N B P y. pose proof (whole_common n N B) as W.
  assert (LT : 10 * ten 307 == ten 308) by (rewrite <- ten_S; reflexivity).
  assert (F : Qabs (fl 53 (inject_Z n) - inject_Z n) <= (1 # 9007199254740992) * Qabs (inject_Z n)) by exact (fl_err 53 _).
  pose proof (ten_pos 307) as PT. pose proof (ten_pos (-307)) as PM.
  destruct (common_double (inject_Z n)) as [D1 I1]; [ split; [ apply W | ]; set (t := ten 307) in *; set (t8 := ten 308) in *; clearbody t t8; destruct W; lra | ].
  destruct (fl_whole n) as [w EW].
  assert (NZ : ~ fl 53 (inject_Z n) == 0).
  { intros E. rewrite E in F. pose proof (whole_common n N B) as [L _]. set (m := ten (-307)) in *. clearbody m. qa (0 - inject_Z n); qa (inject_Z n); lra. }
  assert (NW : w <> 0%Z) by (intros ->; apply NZ; exact EW).
  assert (C : ten (-307) <= Qabs (fl 53 (inject_Z n)) < ten 308).
  { split.
    - assert (EA : Qabs (fl 53 (inject_Z n)) == Qabs (inject_Z w)) by (rewrite EW; reflexivity). rewrite EA, inject_abs.
      apply Qle_trans with (ten 0); [ apply ten_le; lia | ]. change (ten 0) with (inject_Z 1). rewrite <- Zle_Qle. lia.
    - destruct W as [_ W]. set (t := ten 307) in *. set (t8 := ten 308) in *. clearbody t t8. set (f := fl 53 (inject_Z n)) in *. qa (f - inject_Z n); qa f; qa (inject_Z n); lra. }
  destruct (common_double y (common_value p _ P C)) as [D2 I2].
  split; [ | split; [ exact NZ | split; [ exact F | exact (fl_err 53 y) ] ] ].
  unfold round, round_sf. destruct (Z.ltb_spec p 0); [ lia | ]. rewrite I1. rewrite (Z.max_r 1 p) by lia. cbv zeta. rewrite D1. fold y. rewrite I2, D2. reflexivity.
Qed.
Lemma round_int n p : (Z.abs n <= 2 ^ 53)%Z -> (1 <= p)%Z -> exists r, round (NInt n) None (Some p) None = Ok (RInt r) /\ nearest p (inject_Z n) (inject_Z r).
Proof.
  intros B P. destruct (Z.eq_dec n 0) as [->|N]; [ exists 0%Z; split; [ apply round_zero, P | apply nearest_zero, P ] | ].
  assert (B' : (Z.abs n < 10 ^ 307)%Z) by (apply Z.le_lt_trans with (2 ^ 53)%Z; [ exact B | vm_compute; reflexivity ]).
  destruct (round_int_eq n p N B' P) as (R & NZ & _). set (y := g_value p (fl 53 (inject_Z n))) in *.
  assert (E : fl 53 (inject_Z n) == inject_Z n) by (apply fl_int; lia).
  assert (NI : ~ inject_Z n == 0) by (rewrite <- E; exact NZ).
  assert (EY : y == g_value p (inject_Z n)) by (apply g_value_comp; assumption).
  assert (W : exists r, y == inject_Z r /\ fl 53 (inject_Z r) == inject_Z r).
  { destruct (g_whole p n P N) as [[_ G]|[K [m G]]].
    - exists n. split; [ rewrite EY; exact G | exact E ].
    - set (k := (qlog10 (inject_Z n) - p + 1)%Z) in *. exists (m * 10 ^ k)%Z. split; [ rewrite EY; exact G | ].
      assert (S : (m * 10 ^ k = (m * 5 * 10 ^ (k - 1)) * 2)%Z) by (replace k with (k - 1 + 1)%Z at 1 by lia; rewrite Z.pow_add_r by lia; change (10 ^ 1)%Z with 10%Z; ring).
      pose proof (g_value_size p _ P NI) as [_ U]. rewrite G, inject_abs in U. pose proof (qlog10_spec _ NI) as [L _]. rewrite inject_abs in L.
      assert (L2 : ten (qlog10 (inject_Z n)) < ten 16) by (apply Qle_lt_trans with (inject_Z (Z.abs n)); [ exact L | rewrite ten_Z by lia; rewrite <- Zlt_Qlt; apply Z.le_lt_trans with (2 ^ 53)%Z; [ exact B | reflexivity ] ]).
      apply ten_lt_inv in L2. assert (U2 : inject_Z (Z.abs (m * 10 ^ k)) <= ten 16) by (apply Qle_trans with (ten (qlog10 (inject_Z n) + 1)); [ exact U | apply ten_le; lia ]).
      rewrite ten_Z in U2 by lia. rewrite <- Zle_Qle in U2. rewrite S in *.
      assert (X : inject_Z (m * 5 * 10 ^ (k - 1) * 2) == inject_Z (m * 5 * 10 ^ (k - 1)) * pow2 1) by (rewrite inject_Z_mult; reflexivity).
      rewrite (fl_eq _ _ _ X), fl_exact, <- X; [ reflexivity | lia | ]. change (10 ^ 16)%Z with 10000000000000000%Z in U2. change (2 ^ 53)%Z with 9007199254740992%Z. lia. }
  destruct W as (r & W1 & W2). exists r. split.
  - rewrite R. f_equal. f_equal. apply qtrunc_int. rewrite (fl_eq _ _ _ W1). exact W2.
  - apply (nearest_comp p (inject_Z n) y); [ reflexivity | exact W1 | ]. apply (nearest_comp p (inject_Z n) (g_value p (inject_Z n))); [ reflexivity | symmetry; exact EY | ].
    apply g_nearest; assumption.
Qed.
(** the error for any whole number *)
Lemma round_int_err n p : (Z.abs n < 10 ^ 307)%Z -> (1 <= p)%Z -> exists r, round (NInt n) None (Some p) None = Ok (RInt r) /\
  Qabs (inject_Z r - inject_Z n) <= ((1 # 2) * power10 (1 - p) + (1 # 2 ^ 51)) * Qabs (inject_Z n).
Proof.
  intros B P. destruct (Z.eq_dec n 0) as [->|N]; [ exists 0%Z; split; [ apply round_zero, P | ]; change (Qabs (inject_Z 0)) with 0; change (Qabs (inject_Z 0 - inject_Z 0)) with 0; lra | ].
  destruct (round_int_eq n p N B P) as (R & NZ & E1 & E2). set (x := fl 53 (inject_Z n)) in *. set (y := g_value p x) in *.
  destruct (fl_whole n) as [w EW]. fold x in EW. assert (NW : w <> 0%Z) by (intros ->; apply NZ; exact EW).
  assert (Wy : exists v, y == inject_Z v).
  { assert (EY : y == g_value p (inject_Z w)) by (apply g_value_comp; assumption).
    destruct (g_whole p w P NW) as [[_ G]|[_ [m G]]]; eexists; rewrite EY; exact G. }
  destruct Wy as [v EV]. destruct (fl_whole v) as [r ER]. assert (EF : fl 53 y == inject_Z r) by (rewrite (fl_eq _ _ _ EV); exact ER).
  exists r. split; [ rewrite R; f_equal; f_equal; apply qtrunc_int, EF | ].
  pose proof (g_err p x P NZ) as E3. fold y in E3. pose proof (qlog10_spec x NZ) as [L _].
  assert (K : ten (qlog10 x - p + 1) == ten (1 - p) * ten (qlog10 x)) by (rewrite <- ten_plus; replace (1 - p + qlog10 x)%Z with (qlog10 x - p + 1)%Z by lia; reflexivity).
  assert (H1 : ten (1 - p) <= ten 0) by (apply ten_le; lia). change (ten 0) with 1 in H1. pose proof (ten_pos (1 - p)) as H0.
  change (power10 (1 - p)) with (ten (1 - p)). set (h := ten (1 - p)) in *. clearbody h. change (1 # 2 ^ 51) with (1 # 2251799813685248).
  rewrite K in E3. clear K. set (q := ten (qlog10 x)) in *. clearbody q. rewrite EF in E2. set (N' := Qabs (inject_Z n)) in *. set (X := Qabs x) in *.
  assert (HQ : h * q <= h * X) by (rewrite !(Qmult_comm h); apply Qmult_le_compat_r; lra).
  assert (X1 : X <= N' + (1 # 9007199254740992) * N') by (unfold X, N' in *; qa (x - inject_Z n); qa x; qa (inject_Z n); lra).
  assert (PN : 0 <= N') by apply Qabs_nonneg.
  assert (HX : h * X <= h * N' + (1 # 9007199254740992) * (h * N')) by (assert (h * X <= h * (N' + (1 # 9007199254740992) * N')) by (rewrite !(Qmult_comm h); apply Qmult_le_compat_r; lra); lra).
  assert (HN : h * N' <= N') by (setoid_replace N' with (1 * N') at 2 by ring; apply Qmult_le_compat_r; lra).
  assert (YX : Qabs y <= X + Qabs (y - x)) by (unfold X; qa y; qa x; qa (y - x); lra).
  assert (T : Qabs (inject_Z r - inject_Z n) <= Qabs (inject_Z r - y) + Qabs (y - x) + Qabs (x - inject_Z n)) by
    (qa (inject_Z r - inject_Z n); qa (inject_Z r - y); qa (y - x); qa (x - inject_Z n); lra).
  assert (Z : ((1 # 2) * h + (1 # 2251799813685248)) * N' == (1 # 2) * (h * N') + (1 # 2251799813685248) * N') by ring. rewrite Z. clear Z.
  set (hN := h * N') in *. clearbody hN. set (hX := h * X) in *. clearbody hX. lra.
Qed.
(** ** Without [sf] *)
Lemma round_whole n d : exists r, round (NInt n) (Some d) None None = Ok (RInt r) /\ ((0 <= d)%Z -> r = n) /\ ((d <= 0)%Z -> to_digits d (inject_Z n) (inject_Z r)).
Proof.
  unfold round, inbuilt_round. destruct (Z.leb_spec 0 d) as [L|L].
  - exists n. split; [ reflexivity | ]. split; [ auto | ]. intros H. assert (d = 0%Z) as -> by lia. unfold to_digits. change (power10 (- 0)) with 1. split; [ exists n; ring | ].
    setoid_replace (inject_Z n - inject_Z n) with 0 by ring. change (Qabs 0) with 0. lra.
  - eexists. split; [ reflexivity | ]. split; [ lia | ]. intros _. set (M := (10 ^ (- d))%Z). assert (PM : (0 < M)%Z) by (apply Z.pow_pos_nonneg; lia).
    assert (E : power10 (- d) == inject_Z M) by (apply ten_Z; lia). split.
    + exists (rne_div n M). rewrite E, inject_Z_mult. reflexivity.
    + rewrite E. pose proof (rne_div_err n M PM) as [A B]. set (v := (rne_div n M * M)%Z) in *.
      assert (A' : inject_Z (- M) <= inject_Z (2 * (v - n))) by (rewrite <- Zle_Qle; exact A). assert (B' : inject_Z (2 * (v - n)) <= inject_Z M) by (rewrite <- Zle_Qle; exact B).
      rewrite inject_Z_opp in A'. rewrite inject_Z_mult in A', B'. unfold Z.sub in A', B'. rewrite inject_Z_plus, inject_Z_opp in A', B'. change (inject_Z 2) with 2 in A', B'.
      qa (inject_Z v - inject_Z n); lra.
Qed.
Lemma round_plain x : exists r, round (NFloat x) None None None = Ok (RInt r) /\ to_digits 0 x (inject_Z r).
Proof.
  exists (rneQ x). split; [ reflexivity | ]. unfold to_digits. change (power10 (- 0)) with 1. split; [ exists (rneQ x); ring | ].
  pose proof (rneQ_err x). lra.
Qed.
