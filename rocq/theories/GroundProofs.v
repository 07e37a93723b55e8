(** Counting pairs in a window of recordings whose common events outnumber the accidental coincidences. *)
From Coq Require Import QArith Qabs Qround Lqa.
From Coq Require Import ZifyBool.
From Verif Require Import Float Base TimestampsModel UtilsModel UtilsSpec UtilsProofs FpfindModel FpfindSpec AccuracySpec AccuracyProofs PairSpec PairProofs SignalSpec SignalProofs RoundedSpec RoundedProofs WholeSpec
  SwapSpec ExistSpec GroundSpec.
Import ListNotations. Local Open Scope Z_scope.

(** ** Counting *)
Lemma forall2_app {X Y} (R : X -> Y -> Prop) a a' b b' : Forall2 R a a' -> Forall2 R b b' -> Forall2 R (a ++ b) (a' ++ b').
Proof. intros H K. induction H; cbn [app]; [exact K|now constructor]. Qed.
Lemma forall2_prod {X X' Y Y'} (R : X -> X' -> Prop) (S : Y -> Y' -> Prop) a a' b b' : Forall2 R a a' -> Forall2 S b b' ->
  Forall2 (fun c c' => R (fst c) (fst c') /\ S (snd c) (snd c')) (list_prod a b) (list_prod a' b').
Proof.
  intros H K. induction H as [|x x' a a' Hx H IH]; [constructor|]. cbn [list_prod]. apply forall2_app; [|exact IH]. clear IH H.
  induction K as [|y y' b b' Hy K IH]; [constructor|]. cbn [map]. constructor; [split; assumption|exact IH].
Qed.
Lemma count_le {X Y} (R : X -> Y -> Prop) (p : X -> bool) (p' : Y -> bool) l l' : Forall2 R l l' -> (forall x y, In x l -> R x y -> p' y = true -> p x = true) ->
  len (filter p' l') <= len (filter p l).
Proof.
  intros H. induction H as [|x y l l' Hx H IH]; intros I; [reflexivity|]. cbn [filter]. specialize (IH (fun u v Iu => I u v (or_intror Iu))).
  destruct (p' y) eqn:E.
  - rewrite (I x y (or_introl eq_refl) Hx E). rewrite !len_cons. lia.
  - destruct (p x); rewrite ?len_cons; lia.
Qed.
Lemma count_ge {X Y} (R : X -> Y -> Prop) (p : X -> bool) (p' : Y -> bool) l l' : Forall2 R l l' -> (forall x y, In x l -> R x y -> p x = true -> p' y = true) ->
  len (filter p l) <= len (filter p' l').
Proof.
  intros H. induction H as [|x y l l' Hx H IH]; intros I; [reflexivity|]. cbn [filter]. specialize (IH (fun u v Iu => I u v (or_intror Iu))).
  destruct (p x) eqn:E.
  - rewrite (I x y (or_introl eq_refl) Hx E). rewrite !len_cons. lia.
  - destruct (p' y); rewrite ?len_cons; lia.
Qed.
Lemma prod_filter {X Y} (f : X -> bool) (g : Y -> bool) (p : X * Y -> bool) a b :
  len (filter p (list_prod (filter f a) (filter g b))) = len (filter (fun c => f (fst c) && g (snd c) && p c) (list_prod a b)).
Proof.
  assert (R : forall x l, len (filter p (map (fun y => (x, y)) (filter g l))) = len (filter (fun c : X * Y => g (snd c) && p c) (map (fun y => (x, y)) l))).
  { intros x. induction l as [|y l IH]; [reflexivity|]. cbn [filter map]. cbn [snd]. destruct (g y); cbn [andb map filter]; [|exact IH]. destruct (p (x, y)); rewrite ?len_cons; lia. }
  induction a as [|x a IH]; [reflexivity|]. cbn [list_prod filter]. rewrite filter_app, len_app, <- IH. clear IH. destruct (f x) eqn:E.
  - cbn [list_prod]. rewrite filter_app, len_app, R. f_equal. clear -E. induction b as [|y b IH]; [reflexivity|]. cbn [map filter fst snd]. rewrite E. cbn [andb]. destruct (g y && p (x, y)); rewrite ?len_cons; lia.
  - assert (Z0 : filter (fun c : X * Y => f (fst c) && g (snd c) && p c) (map (fun y => (x, y)) b) = []); [|rewrite Z0; reflexivity].
    clear -E. induction b as [|y b IH]; [reflexivity|]. cbn [map filter fst]. rewrite E. exact IH.
Qed.
(** a number of pigeonholes *)
Lemma pigeon {X} (h : X -> Z) l : forall K, 0 < K -> (forall x, In x l -> 0 <= h x < K) -> exists i, 0 <= i < K /\ len l <= K * len (filter (fun x => h x =? i) l).
Proof.
  intros K K0 H. assert (S : forall k, 0 <= k -> (forall x, In x l -> 0 <= h x < k) -> forall c, (forall i, 0 <= i < k -> len (filter (fun x => h x =? i) l) <= c) -> len l <= k * c).
  { clear K K0 H. intros k Hk. revert l. pattern k. apply natlike_ind; [|clear k Hk; intros k Hk IH|exact Hk].
    - intros l H c _. destruct l as [|x l]; [rewrite len_nil; lia|]. specialize (H x (or_introl eq_refl)). lia.
    - intros l H c C. assert (SP : len l = len (filter (fun x => h x =? k) l) + len (filter (fun x => negb (h x =? k)) l)).
      { clear. induction l as [|x l IH]; [reflexivity|]. cbn [filter]. destruct (h x =? k); cbn [negb]; rewrite !len_cons; lia. }
      specialize (IH (filter (fun x => negb (h x =? k)) l)). rewrite SP.
      assert (len (filter (fun x => negb (h x =? k)) l) <= k * c).
      { apply IH.
        - intros x I. apply filter_In in I as [I E]. specialize (H x I). lia.
        - intros i Hi. specialize (C i ltac:(lia)). eapply Z.le_trans; [|exact C]. clear. induction l as [|x l IH]; [reflexivity|]. cbn [filter]. destruct (h x =? k); cbn [negb filter]; destruct (h x =? i); rewrite ?len_cons; lia. }
      specialize (C k ltac:(lia)). lia. }
  assert (D : forall k, 0 <= k <= K -> exists c, 0 <= c /\ (forall i, 0 <= i < k -> len (filter (fun x => h x =? i) l) <= c) /\ (c = 0 \/ exists i, 0 <= i < k /\ len (filter (fun x => h x =? i) l) = c)).
  { intros k [Hk _]. pattern k. apply natlike_ind; [|clear k Hk; intros k Hk (c & C0 & C1 & C2)|exact Hk].
    - exists 0. split; [lia|]. split; [intros; lia|now left].
    - destruct (Z_le_gt_dec (len (filter (fun x => h x =? k) l)) c) as [L|L].
      + exists c. split; [exact C0|]. split; [|destruct C2 as [C2|(i & I & C2)]; [now left|right; exists i; split; [lia|exact C2]]]. intros i I. destruct (Z.eq_dec i k) as [->|]; [exact L|apply C1; lia].
      + exists (len (filter (fun x => h x =? k) l)). split; [lia|]. split; [|right; exists k; split; [lia|reflexivity]]. intros i I. destruct (Z.eq_dec i k) as [->|]; [lia|]. specialize (C1 i ltac:(lia)). lia. }
  destruct (D K ltac:(lia)) as (c & C0 & C1 & C2). pose proof (S K ltac:(lia) H c C1) as L. destruct C2 as [->|(i & I & E)].
  - exists 0. split; [lia|]. pose proof (len_nonneg (filter (fun x => h x =? 0) l)). nia.
  - exists i. split; [exact I|]. now rewrite E.
Qed.
(** ** The times after an iteration *)
Lemma mul_mono c a b : (0 <= c -> a <= b -> c * a <= c * b)%Q.
Proof. intros C H. rewrite !(Qmult_comm c). now apply Qmult_le_compat_r. Qed.
Lemma abs_mul_le x y b : (0 <= b -> Qabs y <= b * Qabs x -> forall z, Qabs (z * y) <= b * Qabs (z * x))%Q.
Proof. intros B0 H z. rewrite !Qabs_Qmult. setoid_replace (b * (Qabs z * Qabs x))%Q with (b * Qabs x * Qabs z)%Q by ring. rewrite Qmult_comm. apply Qmult_le_compat_r; [exact H|apply Qabs_nonneg]. Qed.
Lemma step_error u f0 g f1 x x' y' : (0 <= u -> u <= 1 # 1000000000 -> ~ g == 0 -> Qabs (f1 - f0 * g) <= u * Qabs (f0 * g) -> Qabs (x' - x) <= u * Qabs x -> Qabs (y' - x' / g) <= u * Qabs (x' / g) ->
  Qabs (f1 * y' - f0 * x) <= 4 * u * Qabs (f0 * x))%Q.
Proof.
  intros U0 U1 G HF HX HY. set (y := (x' / g)%Q) in *. set (N := Qabs (f0 * x)). assert (N0 : (0 <= N)%Q) by apply Qabs_nonneg.
  assert (HX2 : (Qabs (f0 * (x' - x)) <= u * N)%Q) by (apply abs_mul_le; assumption).
  assert (E1 : (f0 * g * y == f0 * x')%Q) by (unfold y; field; exact G).
  assert (N1 : (Qabs (f0 * x') <= (1 + u) * N)%Q).
  { setoid_replace (f0 * x')%Q with (f0 * x + f0 * (x' - x))%Q by ring. eapply Qle_trans; [apply Qabs_triangle|]. fold N. lra. }
  assert (HY2 : (Qabs (f0 * g * (y' - y)) <= u * Qabs (f0 * x'))%Q) by (rewrite <- E1; apply abs_mul_le; assumption).
  assert (N2 : (Qabs (f0 * g * y') <= (1 + u) * Qabs (f0 * x'))%Q).
  { setoid_replace (f0 * g * y')%Q with (f0 * x' + f0 * g * (y' - y))%Q by (rewrite <- E1; ring). eapply Qle_trans; [apply Qabs_triangle|]. lra. }
  assert (HF2 : (Qabs (y' * (f1 - f0 * g)) <= u * Qabs (y' * (f0 * g)))%Q) by (apply abs_mul_le; assumption).
  assert (E2 : (Qabs (y' * (f0 * g)) == Qabs (f0 * g * y'))%Q) by (apply Qabs_wd; ring). rewrite E2 in HF2.
  assert (M1 : (u * Qabs (f0 * x') <= u * ((1 + u) * N))%Q) by (apply mul_mono; assumption).
  assert (M2 : (u * Qabs (f0 * g * y') <= u * ((1 + u) * ((1 + u) * N)))%Q).
  { apply mul_mono; [exact U0|]. eapply Qle_trans; [exact N2|]. apply mul_mono; [lra|exact N1]. }
  assert (UN : (u * N <= (1 # 1000000000) * N)%Q) by (apply Qmult_le_compat_r; assumption).
  assert (UUN : (u * (u * N) <= u * ((1 # 1000000000) * N))%Q) by (apply mul_mono; assumption).
  assert (UN0 : (0 <= u * N)%Q) by (apply Qmult_le_0_compat; assumption).
  assert (U3 : (u * (u * (u * N)) <= u * (u * N))%Q). { setoid_replace (u * (u * N))%Q with (1 * (u * (u * N)))%Q at 2 by ring. apply Qmult_le_compat_r; [lra|]. now apply Qmult_le_0_compat. }
  setoid_replace (f1 * y' - f0 * x)%Q with (y' * (f1 - f0 * g) + (f0 * g * (y' - y) + f0 * (x' - x)))%Q by (assert (E : (f0 * g * (y' - y) == f0 * g * y' - f0 * x')%Q) by (rewrite <- E1; ring); rewrite E; ring).
  eapply Qle_trans; [apply Qabs_triangle|]. assert (T : (Qabs (f0 * g * (y' - y) + f0 * (x' - x)) <= u * ((1 + u) * N) + u * N)%Q).
  { eapply Qle_trans; [apply Qabs_triangle|]. lra. }
  assert (X1 : (u * ((1 + u) * ((1 + u) * N)) == u * N + 2 * (u * (u * N)) + u * (u * (u * N)))%Q) by ring.
  assert (X2 : (u * ((1 + u) * N) == u * N + u * (u * N))%Q) by ring. lra.
Qed.
(** the next state *)
Lemma again_state M P A last dur s r d1 d2 s' : finds M P A last dur s r d1 d2 -> iteration M P A last dur s = Ok (Again s') ->
  let g := rs M (1 + rs M (rs M (d2 - d1) / separation_duration P)) in
  (Qabs d1 <= NTP_MAXDELAY_NS)%Q /\ ~ (r == target_resolution P)%Q /\ dt s' = rs M (dt s + rs M (f s * d1)) /\ f s' = rs M (f s * g) /\
  bts s' = map (fun t => rt M (rt M (t - d1) / g)%Q) (bts s) /\
  resolution s' = qmax (rs M (r / rs M (rs M (separation_duration P / dur) / RES_REFINE_FACTOR))) (target_resolution P).
Proof.
  intros (ys & dt1 & sg & ys2 & E1 & E2 & E3 & E4 & E8 & E9) IT g. unfold iteration in IT. rewrite E1 in IT. cbn [bind] in IT. rewrite E2 in IT. cbn [bind] in IT. rewrite E3 in IT. cbn [bind] in IT.
  rewrite E4 in IT. cbn [bind] in IT. destruct (Qltb NTP_MAXDELAY_NS (Qabs d1)) eqn:L; [discriminate|]. apply Qltb_ge in L. rewrite E8 in IT. cbn [bind] in IT. rewrite E9 in IT. cbn [bind] in IT. cbv zeta in IT.
  fold g in IT. destruct (negb (is_first s) && _)%bool; [discriminate|]. destruct (Qle_bool MAX_FCORR _); [discriminate|]. destruct (Qeq_bool r (target_resolution P)) eqn:Q; [discriminate|].
  injection IT as <-. cbn [dt f bts resolution]. split; [exact L|]. split; [intros X; apply Qeq_bool_iff in X; congruence|]. repeat split.
Qed.
(** ** A window *)
Lemma over_near1 f0 x y : (Qabs (f0 - 1) <= 1 # 4096 -> Qabs (f0 * x) <= y -> Qabs x <= (10003 # 10000) * y)%Q.
Proof.
  intros H E. apply qabs_both in H. rewrite Qabs_Qmult, (Qabs_pos f0) in E by lra. pose proof (Qabs_nonneg x) as X0. set (z := Qabs x) in *. clearbody z.
  assert ((4095 # 4096) * z <= f0 * z)%Q by (apply Qmult_le_compat_r; lra). lra.
Qed.
Lemma inside s w m t : time_in s w m t = true <-> (s - m <= t /\ t <= s + w + m)%Q.
Proof. unfold time_in. rewrite andb_true_iff, !Qle_bool_iff. reflexivity. Qed.
Section Window.
Variables (rd : Q -> Q) (st w W SW T D F j0 j dt0 f0 fe te kap del : Q).
Hypothesis RD : forall x b, (Qabs x <= b -> Qabs (rd x - x) <= (1 # 18014398509481984) * b)%Q.
Hypotheses (S0 : (0 <= st)%Q) (ST : (st <= T)%Q) (WW : (w <= W)%Q) (SWW : (st + W <= SW)%Q) (W0 : (0 <= W)%Q) (F0 : (Qabs (f0 - 1) <= 1 # 4096)%Q) (FF : (Qabs F <= 1 # 8192)%Q) (FE : (Qabs (1 + F - f0) <= fe)%Q)
  (TE : (Qabs (D - dt0) <= te)%Q) (TE8 : (te <= 100000000)%Q) (K0 : (0 <= kap)%Q) (K8 : (kap <= 100000000)%Q) (J0 : (0 <= j0)%Q) (JJ : (j0 + kap + del <= j)%Q)
  (DEL : (del == (1 # 1125899906842624) * (T + Qabs D + 400000000))%Q).
Definition mW : Q := (1001 # 1000) * (te + fe * SW + j).
Definition dW : Q := (1001 # 1000) * (fe * (W + mW) + j).
Definition phiW : Q := ((1 + F - f0) / f0)%Q.
Definition rhoW : Q := ((D - dt0) / f0 + phiW * st)%Q.
Variables (a b bs : Q).
Hypotheses (AT : (Qabs a <= T)%Q) (BT : (Qabs b <= T)%Q) (BS : (Qabs (dt0 + f0 * bs - b) <= kap)%Q).
Lemma pos_facts : (0 <= fe)%Q /\ (0 <= te)%Q /\ (0 <= T)%Q /\ (0 < del)%Q /\ (0 <= fe * SW)%Q /\ (0 <= SW)%Q.
Proof using All.
  pose proof (Qabs_nonneg (1 + F - f0)). pose proof (Qabs_nonneg (D - dt0)). pose proof (Qabs_nonneg a). pose proof (Qabs_nonneg D). assert (0 <= fe)%Q by lra. assert (0 <= SW)%Q by lra.
  assert (0 <= fe * SW)%Q by (apply Qmult_le_0_compat; lra). repeat split; lra.
Qed.
Lemma bs_bound : (Qabs bs <= (1001 # 1000) * (T + Qabs D + 200000000))%Q.
Proof using All.
  assert (H : (Qabs (f0 * bs) <= T + Qabs D + 200000000)%Q).
  { setoid_replace (f0 * bs)%Q with ((dt0 + f0 * bs - b) + (b + (D - dt0) - D))%Q by ring. pose proof (Qabs_Qle_condition D (Qabs D)) as [X _]. specialize (X (Qle_refl _)). apply qabs_both in BS, BT, TE. apply qabs_both. lra. }
  pose proof (over_near1 _ _ _ F0 H). destruct pos_facts as (_ & _ & P3 & _). pose proof (Qabs_nonneg D). lra.
Qed.
Lemma a_near : (Qabs (rd (a - st) - (a - st)) <= del * (1 # 8))%Q.
Proof using All.
  destruct pos_facts as (_ & _ & P3 & _). pose proof (Qabs_nonneg D). assert (H1 : (Qabs (a - st) <= 2 * T)%Q) by (apply qabs_both in AT; apply qabs_both; lra). pose proof (RD _ _ H1). lra.
Qed.
Lemma b_near : (Qabs (rd (bs - st) - (bs - st)) <= del * (1 # 4))%Q.
Proof using All.
  destruct pos_facts as (_ & _ & P3 & _). pose proof (Qabs_nonneg D). pose proof bs_bound as H0.
  assert (H1 : (Qabs (bs - st) <= 3 * (T + Qabs D + 200000000))%Q) by (apply qabs_both in H0; apply qabs_both; lra). pose proof (RD _ _ H1). lra.
Qed.
Lemma common_coincident : common D F j0 (a, b) = true -> coincident D F j dt0 f0 st (rd (a - st)) (rd (bs - st)).
Proof using All.
  intros C. unfold common in C. cbn [fst snd] in C. apply Qle_bool_iff in C. unfold coincident. pose proof a_near as HA. pose proof b_near as HB. destruct pos_facts as (_ & _ & _ & P4 & _).
  set (ea := (rd (a - st) - (a - st))%Q) in *. set (eb := (rd (bs - st) - (bs - st))%Q) in *.
  setoid_replace (dt0 + f0 * (st + rd (bs - st)) - (D + (1 + F) * (st + rd (a - st))))%Q with ((dt0 + f0 * bs - b) + (b - (D + (1 + F) * a)) + f0 * eb - (1 + F) * ea)%Q by (unfold ea, eb; ring).
  assert (X1 : (Qabs (f0 * eb) <= (1001 # 1000) * (del * (1 # 4)))%Q) by (apply prod_le; [apply qabs_both in F0; apply qabs_both; lra|exact HB]).
  assert (X2 : (Qabs ((1 + F) * ea) <= (1001 # 1000) * (del * (1 # 8)))%Q) by (apply prod_le; [apply qabs_both in FF; apply qabs_both; lra|exact HA]).
  apply qabs_both in BS, C, X1, X2. apply qabs_both. lra.
Qed.
Lemma F1 : (~ 1 + F == 0 /\ Qabs ((1 + F) - 1) <= 1 # 4096 /\ ~ f0 == 0)%Q.
Proof using All. apply qabs_both in FF, F0. split; [lra|]. split; [apply qabs_both; lra|lra]. Qed.
Lemma star_b : (b == D + (1 + F) * star D F b)%Q.
Proof using All. unfold star. field. apply F1. Qed.
(** how far the corrected time is off, from either side *)
Lemma star_near y : (Qabs (star D F b) <= y -> Qabs (bs - star D F b) <= (10003 # 10000) * (kap + te + fe * y))%Q.
Proof using All.
  intros Y. set (be := star D F b) in *. apply (over_near1 f0); [exact F0|].
  setoid_replace (f0 * (bs - be))%Q with ((dt0 + f0 * bs - b) + (D - dt0) + (1 + F - f0) * be)%Q by (rewrite star_b; fold be; ring).
  pose proof (prod_le _ _ _ _ FE Y) as X. apply qabs_both in BS, TE, X. apply qabs_both. lra.
Qed.
Lemma star_near2 y z : (Qabs bs <= y + z -> 0 <= y -> 0 <= z -> Qabs (bs - star D F b) <= (10003 # 10000) * (kap + te + fe * y + z * (1 # 1024)))%Q.
Proof using All.
  intros H Y0 Z0. set (be := star D F b) in *. apply (over_near1 (1 + F)); [apply F1|].
  setoid_replace ((1 + F) * (bs - be))%Q with ((dt0 + f0 * bs - b) + (D - dt0) + (1 + F - f0) * bs)%Q by (rewrite star_b; fold be; ring).
  assert (X : (Qabs ((1 + F - f0) * bs) <= fe * y + z * (1 # 1024))%Q).
  { rewrite Qabs_Qmult. assert (L : (Qabs (1 + F - f0) <= 1 # 1024)%Q) by (apply qabs_both in F0, FF; apply qabs_both; lra). pose proof (Qabs_nonneg (1 + F - f0)) as N. set (c := Qabs (1 + F - f0)) in *. clearbody c.
    assert (c * Qabs bs <= c * (y + z))%Q by (now apply mul_mono). assert (c * y <= fe * y)%Q by (now apply Qmult_le_compat_r). assert (c * z <= (1 # 1024) * z)%Q by (now apply Qmult_le_compat_r). lra. }
  apply qabs_both in BS, TE, X. apply qabs_both. lra.
Qed.
Lemma a_wide : (0 <= rd (a - st) -> rd (a - st) < w -> st - mW <= a /\ a <= st + w + mW)%Q.
Proof using All. intros L R. pose proof a_near as HA. destruct pos_facts as (P1 & P2 & P3 & P4 & P5 & P6). apply qabs_both in HA. unfold mW. lra. Qed.
Lemma b_wide : (0 <= rd (bs - st) -> rd (bs - st) < w -> st - mW <= star D F b /\ star D F b <= st + w + mW)%Q.
Proof using All.
  intros L R. pose proof b_near as HB. destruct pos_facts as (P1 & P2 & P3 & P4 & P5 & P6). apply qabs_both in HB.
  assert (Y : (Qabs bs <= SW + del)%Q) by (apply qabs_both; lra). pose proof (star_near2 SW del Y ltac:(lra) ltac:(lra)) as N. apply qabs_both in N. unfold mW. lra.
Qed.
Lemma a_seen : (st + mW <= a -> a <= st + w - mW -> 0 <= rd (a - st) /\ rd (a - st) < w)%Q.
Proof using All. intros L R. pose proof a_near as HA. destruct pos_facts as (P1 & P2 & P3 & P4 & P5 & P6). apply qabs_both in HA. unfold mW in *. lra. Qed.
Lemma b_seen : (st + mW <= star D F b -> star D F b <= st + w - mW -> 0 <= rd (bs - st) /\ rd (bs - st) < w)%Q.
Proof using All.
  intros L R. pose proof b_near as HB. destruct pos_facts as (P1 & P2 & P3 & P4 & P5 & P6). apply qabs_both in HB.
  assert (MP : (0 <= mW)%Q) by (unfold mW; lra). assert (Y : (Qabs (star D F b) <= SW)%Q) by (apply qabs_both; lra).
  pose proof (star_near SW Y) as N. apply qabs_both in N. unfold mW in *. lra.
Qed.
Lemma delay_near : (st - mW <= star D F b -> star D F b <= st + w + mW -> Qabs (rd (bs - st) - rd (a - st) - (star D F b - a + rhoW)) <= (1001 # 1000) * (fe * (W + mW) + kap + del))%Q.
Proof using All.
  intros L R. pose proof a_near as HA. pose proof b_near as HB. destruct pos_facts as (P1 & P2 & P3 & P4 & P5 & P6). destruct F1 as (N1 & N2 & N3). set (be := star D F b) in *.
  set (k1 := (dt0 + f0 * bs - b)%Q) in *. assert (MP : (0 <= mW)%Q) by (unfold mW; lra).
  assert (E : (bs - be - rhoW == k1 / f0 + phiW * (be - st))%Q).
  { assert (E1 : (bs == (k1 + b - dt0) / f0)%Q) by (unfold k1; field; exact N3). rewrite E1. unfold rhoW, phiW. rewrite star_b at 1. fold be. field. exact N3. }
  assert (X1 : (Qabs (k1 / f0) <= (10003 # 10000) * kap)%Q).
  { apply (over_near1 f0); [exact F0|]. setoid_replace (f0 * (k1 / f0))%Q with k1 by (field; exact N3). exact BS. }
  assert (X2 : (Qabs phiW <= (10003 # 10000) * fe)%Q).
  { apply (over_near1 f0); [exact F0|]. unfold phiW. setoid_replace (f0 * ((1 + F - f0) / f0))%Q with (1 + F - f0)%Q by (field; exact N3). exact FE. }
  assert (X3 : (Qabs (be - st) <= W + mW)%Q) by (apply qabs_both; lra). pose proof (prod_le _ _ _ _ X2 X3) as X4.
  assert (X5 : (0 <= fe * (W + mW))%Q) by (apply Qmult_le_0_compat; lra).
  setoid_replace (rd (bs - st) - rd (a - st) - (be - a + rhoW))%Q with ((rd (bs - st) - (bs - st)) - (rd (a - st) - (a - st)) + (bs - be - rhoW))%Q by ring. rewrite E.
  apply qabs_both in HA, HB, X1, X4. apply qabs_both. lra.
Qed.
Lemma star_common : common D F j0 (a, b) = true -> (Qabs (star D F b - a) <= (10003 # 10000) * j0)%Q.
Proof using All.
  intros C. unfold common in C. cbn [fst snd] in C. apply Qle_bool_iff in C. apply (over_near1 (1 + F)); [apply F1|].
  setoid_replace ((1 + F) * (star D F b - a))%Q with (b - (D + (1 + F) * a))%Q by (rewrite star_b at 2; ring). exact C.
Qed.
End Window.
Definition in_window (w t : Q) : bool := Qle_bool 0 t && negb (Qle_bool w t).
Lemma in_window_iff w t : in_window w t = true <-> (0 <= t /\ t < w)%Q.
Proof.
  unfold in_window. rewrite andb_true_iff, Qle_bool_iff, negb_true_iff. split; intros [L R]; (split; [exact L|]).
  - apply Qnot_le_lt. intros X. apply Qle_bool_iff in X. congruence.
  - apply not_true_iff_false. intros X. apply Qle_bool_iff in X. now apply (Qlt_not_le _ _ R).
Qed.
Lemma pairs_seen n q rd st w A Bs g : pairs n q 1 (seen rd st w A) (seen rd st w Bs) g =
  len (filter (fun c => in_window w (fst c) && in_window w (snd c) && (lag n q (fst c) (snd c) / 1 =? g)) (list_prod (map (fun t => rd (t - st)%Q) A) (map (fun t => rd (t - st)%Q) Bs))).
Proof. unfold pairs, seen. apply (prod_filter (in_window w) (in_window w)). Qed.
Lemma turn_le C x y m : (0 < C -> x == C * inject_Z m + y -> 0 <= y -> turn C x <= y)%Q.
Proof.
  intros C0 E Y. unfold turn. assert (L : m <= Qfloor (x / C)).
  { rewrite <- (Qfloor_Z m). apply Qfloor_resp_le. apply Qle_shift_div_l; [exact C0|]. rewrite E. lra. }
  rewrite Zle_Qle in L. assert (C * inject_Z m <= C * inject_Z (Qfloor (x / C)))%Q by (apply mul_mono; lra). lra.
Qed.
Lemma lag_cells n q a b g : 0 < n -> (0 < q)%Q -> lag n q a b / 1 = g -> exists m, let z := g + n * m in
  z = Qfloor (b / q) - Qfloor (a / q) /\ ((inject_Z z - 1) * q <= b - a)%Q /\ (b - a <= (inject_Z z + 1) * q)%Q.
Proof.
  intros N Q0 E. rewrite Z.div_1_r in E. unfold lag in E. set (z := Qfloor (b / q) - Qfloor (a / q)) in *. exists (z / n). assert (EZ : g + n * (z / n) = z) by (rewrite <- E; pose proof (Z.div_mod z n); lia).
  cbv zeta. rewrite EZ. split; [reflexivity|]. destruct (floor_bounds a q Q0) as [A1 A2]. destruct (floor_bounds b q Q0) as [B1 B2]. unfold z. rewrite inject_Z_minus. lra.
Qed.
Lemma forall2_len {X Y} (R : X -> Y -> Prop) l l' : Forall2 R l l' -> len l = len l'.
Proof. intros H. induction H; [reflexivity|]. rewrite !len_cons. lia. Qed.
Lemma forall2_in {X Y} (R : X -> Y -> Prop) l l' : Forall2 R l l' -> Forall2 (fun x y => In x l /\ In y l' /\ R x y) l l'.
Proof.
  intros H. assert (G : forall L L', (forall x, In x l -> In x L) -> (forall y, In y l' -> In y L') -> Forall2 (fun x y => In x L /\ In y L' /\ R x y) l l'); [|now apply G].
  induction H as [|x y l l' Hx H IH]; intros L L' IL IL'; constructor; [split; [apply IL; now left|]; split; [apply IL'; now left|exact Hx]|].
  apply IH; [intros z I; apply IL; now right|intros z I; apply IL'; now right].
Qed.
Section Stands.
Variables (rd : Q -> Q) (st w W SW T D F j0 j dt0 f0 fe te kap del e q : Q) (n : Z) (A B Bs : list Q).
Hypothesis RD : forall x b, (Qabs x <= b -> Qabs (rd x - x) <= (1 # 18014398509481984) * b)%Q.
Hypotheses (S0 : (0 <= st)%Q) (ST : (st <= T)%Q) (WW : (w <= W)%Q) (SWW : (st + W <= SW)%Q) (W0 : (0 <= W)%Q) (F0 : (Qabs (f0 - 1) <= 1 # 4096)%Q) (FF : (Qabs F <= 1 # 8192)%Q) (FE : (Qabs (1 + F - f0) <= fe)%Q)
  (TE : (Qabs (D - dt0) <= te)%Q) (TE8 : (te <= 100000000)%Q) (K0 : (0 <= kap)%Q) (K8 : (kap <= 100000000)%Q) (J0 : (0 <= j0)%Q) (JJ : (j0 + kap + del <= j)%Q)
  (DEL : (del == (1 # 1125899906842624) * (T + Qabs D + 400000000))%Q) (N0 : 0 < n) (Q0 : (0 < q)%Q)
  (TT : forall t, In t A \/ In t B -> (Qabs t <= T)%Q) (BB : Forall2 (fun b bs => Qabs (dt0 + f0 * bs - b) <= kap)%Q B Bs).
Let m := mW SW j fe te.
Let d := dW W SW j fe te.
Let rho := rhoW st D F dt0 f0.
Hypothesis OUT : forall v, (inject_Z (Qfloor (2 * d / q) + 3) * (inject_Z (accidentals A B D F j0 st w m (inject_Z n * q) (2 * q + 2 * d) v) + 2 * e) < inject_Z (commons A B D F j0 st w m))%Q.
Let h := fun t => rd (t - st)%Q.
Let R (c c' : Q * Q) : Prop := (In (fst c) A /\ fst c' = h (fst c)) /\ (In (snd c) B /\ exists bs, In bs Bs /\ Qabs (dt0 + f0 * bs - snd c) <= kap /\ snd c' = h bs)%Q.
Lemma paired : Forall2 R (list_prod A B) (list_prod (map h A) (map h Bs)).
Proof.
  apply (forall2_prod (fun a a' => In a A /\ a' = h a) (fun b b' => In b B /\ exists bs, In bs Bs /\ (Qabs (dt0 + f0 * bs - b) <= kap)%Q /\ b' = h bs)).
  - clear. assert (G : forall L l, (forall x, In x l -> In x L) -> Forall2 (fun a a' => In a L /\ a' = h a) l (map h l)); [|now apply G].
    intros L. induction l as [|x l IH]; intros I; cbn [map]; constructor; [split; [apply I; now left|reflexivity]|]. apply IH. intros y J. apply I. now right.
  - apply forall2_in in BB. revert BB. generalize B at 1 3 as B', Bs at 1 3 as Bs'. clear. intros B' Bs'. assert (G : forall l l', Forall2 (fun x y => In x B' /\ In y Bs' /\ (Qabs (dt0 + f0 * y - x) <= kap)%Q) l l' -> 
      Forall2 (fun b b' => In b B' /\ exists bs, In bs Bs' /\ (Qabs (dt0 + f0 * bs - b) <= kap)%Q /\ b' = h bs) l (map h l')); [|apply G].
    intros l l' H. induction H as [|b bs l l' (I1 & I2 & I3) H IH]; cbn [map]; constructor; [|exact IH]. split; [exact I1|]. exists bs. tauto.
Qed.
Lemma few g : (forall a b, In a (seen rd st w A) -> In b (seen rd st w Bs) -> coincident D F j dt0 f0 st a b -> lag n q a b / 1 <> g) ->
  pairs n q 1 (seen rd st w A) (seen rd st w Bs) g <= accidentals A B D F j0 st w m (inject_Z n * q) (2 * q + 2 * d) ((inject_Z g - 1) * q - rho - d).
Proof.
  intros NC. rewrite pairs_seen. unfold accidentals. apply (count_le _ _ _ _ _ paired). intros (a & b) (a' & b') _ [[Ia Ea] [Ib (bs & IBs & HB & Eb)]] H. cbn [fst snd] in *. subst a' b'.
  apply andb_true_iff in H as [H L]. apply andb_true_iff in H as [HA HW]. pose proof HA as IWA. pose proof HW as IWB. apply in_window_iff in HA as [HA1 HA2]. apply in_window_iff in HW as [HW1 HW2]. apply Z.eqb_eq in L. unfold h in *.
  pose proof (TT a (or_introl Ia)) as TA. pose proof (TT b (or_intror Ib)) as TB.
  destruct (a_wide rd st w W SW T D F j0 j dt0 f0 fe te kap del RD S0 ST WW SWW W0 F0 FF FE TE TE8 K0 K8 J0 JJ DEL a b bs TA TB HB HA1 HA2) as [A1 A2].
  destruct (b_wide rd st w W SW T D F j0 j dt0 f0 fe te kap del RD S0 ST WW SWW W0 F0 FF FE TE TE8 K0 K8 J0 JJ DEL a b bs TA TB HB HW1 HW2) as [B1 B2]. fold m in A1, A2, B1, B2.
  assert (BI : both_in D F st w m (a, b) = true) by (unfold both_in; cbn [fst snd]; apply andb_true_iff; split; apply inside; split; assumption). rewrite BI. cbn [andb].
  assert (SA : In (rd (a - st)) (seen rd st w A)). { unfold seen. apply filter_In. split; [now apply (in_map (fun t => rd (t - st)%Q))|exact IWA]. }
  assert (SB : In (rd (bs - st)) (seen rd st w Bs)). { unfold seen. apply filter_In. split; [now apply (in_map (fun t => rd (t - st)%Q))|exact IWB]. }
  destruct (common D F j0 (a, b)) eqn:CC.
  { exfalso. apply (NC _ _ SA SB); [|exact L]. exact (common_coincident rd st w W SW T D F j0 j dt0 f0 fe te kap del RD S0 ST WW SWW W0 F0 FF FE TE TE8 K0 K8 J0 JJ DEL a b bs TA TB HB CC). }
  cbn [negb andb]. apply Qle_bool_iff.
  pose proof (delay_near rd st w W SW T D F j0 j dt0 f0 fe te kap del RD S0 ST WW SWW W0 F0 FF FE TE TE8 K0 K8 J0 JJ DEL a b bs TA TB HB B1 B2) as DN. fold rho m in DN.
  destruct (lag_cells n q _ _ g N0 Q0 L) as (k & _ & C1 & C2). rewrite inject_Z_plus, inject_Z_mult in C1, C2.
  set (be := star D F b) in *. set (x := (be - a - ((inject_Z g - 1) * q - rho - d))%Q). apply qabs_both in DN.
  assert (DD : ((1001 # 1000) * (fe * (W + m) + kap + del) <= d)%Q) by (unfold d, dW; fold m; lra).
  assert (NQ : (0 < inject_Z n)%Q) by (rewrite <- (Zlt_Qlt 0); lia).
  eapply Qle_trans; [apply (turn_le (inject_Z n * q) x (x - inject_Z n * q * inject_Z k) k)|].
  - apply Qmult_lt_0_compat; assumption.
  - ring.
  - unfold x. lra.
  - unfold x. lra.
Qed.
Lemma bins_pos : 0 < Qfloor (2 * d / q) + 3.
Proof.
  enough (0 <= Qfloor (2 * d / q)) by lia. change 0 with (Qfloor 0) at 1. apply Qfloor_resp_le. apply Qle_shift_div_l; [exact Q0|].
    pose proof (Qabs_nonneg (1 + F - f0)). pose proof (Qabs_nonneg (D - dt0)). pose proof (Qabs_nonneg D). assert (FE0 : (0 <= fe)%Q) by lra. assert (0 <= SW)%Q by lra. assert (0 <= fe * SW)%Q by (apply Qmult_le_0_compat; lra).
    assert (MP : (0 <= m)%Q) by (unfold m, mW; lra). assert (0 <= fe * (W + m))%Q by (apply Qmult_le_0_compat; lra). unfold d, dW. fold m. lra.
Qed.
Lemma many : exists g0, 0 <= g0 < n /\ commons A B D F j0 st w m <= (Qfloor (2 * d / q) + 3) * pairs n q 1 (seen rd st w A) (seen rd st w Bs) g0.
Proof.
  set (K := Qfloor (2 * d / q) + 3). set (z0 := Qfloor ((rho - d) / q)). set (hh := fun c : Q * Q => Qfloor (snd c / q) - Qfloor (fst c / q) - z0).
  set (psi := fun c : Q * Q => in_window w (fst c) && in_window w (snd c) && ((0 <=? hh c) && (hh c <? K))).
  set (L' := list_prod (map h A) (map h Bs)). assert (CN : commons A B D F j0 st w m <= len (filter psi L')).
  { unfold commons. apply (count_ge _ _ _ _ _ paired). intros (a & b) (a' & b') _ [[Ia Ea] [Ib (bs & IBs & HB & Eb)]] H. cbn [fst snd] in *. subst a' b'.
    apply andb_true_iff in H as [H CC]. unfold both_in in H. cbn [fst snd] in H. apply andb_true_iff in H as [HA HW]. apply inside in HA as [HA1 HA2]. apply inside in HW as [HW1 HW2].
    pose proof (TT a (or_introl Ia)) as TA. pose proof (TT b (or_intror Ib)) as TB.
    destruct (a_seen rd st w W SW T D F j0 j dt0 f0 fe te kap del RD S0 ST WW SWW W0 F0 FF FE TE TE8 K0 K8 J0 JJ DEL a b bs TA TB HB) as [A1 A2]; [fold m; lra|fold m; lra|].
    destruct (b_seen rd st w W SW T D F j0 j dt0 f0 fe te kap del RD S0 ST WW SWW W0 F0 FF FE TE TE8 K0 K8 J0 JJ DEL a b bs TA TB HB) as [B1 B2]; [fold m; lra|fold m; lra|].
    pose proof (pos_facts rd st w W SW T D F j0 j dt0 f0 fe te kap del RD S0 ST WW SWW W0 F0 FF FE TE TE8 K0 K8 J0 JJ DEL a b bs TA TB HB) as (P1 & P2 & P3 & P4 & P5 & P6).
    assert (MP : (0 <= m)%Q) by (unfold m, mW; lra).
    pose proof (delay_near rd st w W SW T D F j0 j dt0 f0 fe te kap del RD S0 ST WW SWW W0 F0 FF FE TE TE8 K0 K8 J0 JJ DEL a b bs TA TB HB) as DN. fold rho m in DN. specialize (DN ltac:(lra) ltac:(lra)).
    pose proof (star_common rd st w W SW T D F j0 j dt0 f0 fe te kap del RD S0 ST WW SWW W0 F0 FF FE TE TE8 K0 K8 J0 JJ DEL a b bs TA TB HB CC) as SC.
    unfold psi. cbn [fst snd]. unfold h. apply andb_true_iff. split; [apply andb_true_iff; split; apply in_window_iff; split; assumption|].
    assert (DD : (Qabs (rd (bs - st) - rd (a - st) - rho) <= d)%Q).
    { apply qabs_both in DN, SC. assert (0 <= fe * (W + m))%Q by (apply Qmult_le_0_compat; lra). unfold d, dW. fold m. apply qabs_both. lra. }
    apply qabs_both in DD. unfold hh. cbn [fst snd]. set (x := rd (a - st)) in *. set (y := rd (bs - st)) in *. destruct (floor_bounds x q Q0) as [X1 X2]. destruct (floor_bounds y q Q0) as [Y1 Y2].
    destruct (floor_bounds (rho - d) q Q0) as [R1 R2]. destruct (floor_bounds (2 * d) q Q0) as [D1 D2]. fold z0 in R1, R2. set (fx := Qfloor (x / q)) in *. set (fy := Qfloor (y / q)) in *. set (fd := Qfloor (2 * d / q)) in *.
    assert (G1 : -1 < fy - fx - z0).
    { rewrite Zlt_Qlt, !inject_Z_minus. change (inject_Z (-1)) with (- (1))%Q. apply (Qmult_lt_r _ _ q Q0). lra. }
    assert (G2 : fy - fx - z0 < fd + 3).
    { rewrite Zlt_Qlt, !inject_Z_minus, inject_Z_plus. change (inject_Z 3) with 3%Q. apply (Qmult_lt_r _ _ q Q0). lra. }
    unfold K. fold fd. lia. }
  pose proof bins_pos as KP. fold K in KP.
  destruct (pigeon hh (filter psi L') K KP) as (i & I & LE).
  { intros c IC. apply filter_In in IC as [_ IC]. unfold psi in IC. lia. }
  exists ((z0 + i) mod n). split; [apply Z.mod_pos_bound; exact N0|]. eapply Z.le_trans; [exact CN|]. eapply Z.le_trans; [exact LE|]. apply Z.mul_le_mono_nonneg_l; [lia|]. rewrite pairs_seen. fold h. change (map (fun t => rd (t - st)%Q)) with (map h). fold L'.
  clear -N0. induction L' as [|c l IH]; [reflexivity|]. cbn [filter]. destruct (psi c) eqn:E1; cbn [filter].
  - destruct (hh c =? i) eqn:E2.
    + replace (in_window w (fst c) && in_window w (snd c) && (lag n q (fst c) (snd c) / 1 =? (z0 + i) mod n)) with true; [rewrite !len_cons; lia|].
      unfold psi in E1. apply andb_true_iff in E1 as [E1 _]. rewrite E1. symmetry. cbn [andb]. rewrite Z.div_1_r. unfold lag. apply Z.eqb_eq. f_equal. unfold hh in E2. lia.
    + destruct (in_window w (fst c) && in_window w (snd c) && _); rewrite ?len_cons; lia.
  - destruct (in_window w (fst c) && in_window w (snd c) && _); rewrite ?len_cons; lia.
Qed.
Lemma window_stands : stands 1 e n q 1 (seen rd st w A) (seen rd st w Bs) (coincident D F j dt0 f0 st).
Proof.
  pose proof bins_pos as KP. destruct many as (g0 & G0 & MA). exists g0. rewrite Z.div_1_r. split; [exact G0|]. intros g G NC. pose proof (few g NC) as FW. specialize (OUT ((inject_Z g - 1) * q - rho - d)).
  set (K := Qfloor (2 * d / q) + 3) in *. set (ac := accidentals _ _ _ _ _ _ _ _ _ _ _) in *. set (pg := pairs n q 1 _ _ g) in *. set (p0 := pairs n q 1 _ _ g0) in *.
  change (inject_Z 1) with 1%Q. rewrite Zle_Qle in FW, MA. rewrite inject_Z_mult in MA.
  assert (KQ : (0 < inject_Z K)%Q).
  { rewrite <- (Zlt_Qlt 0). exact KP. }
  assert (X : (inject_Z K * (inject_Z ac + 2 * e) < inject_Z K * inject_Z p0)%Q) by lra. apply Qmult_lt_l in X; [|exact KQ]. lra.
Qed.
End Stands.
