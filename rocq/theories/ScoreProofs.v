(** The error of the significance in floating point. *)
From Coq Require Import QArith Qabs Qround Lqa Permutation List Lia.
From Coq Require Import ZifyBool.
From Verif Require Import Float Base UtilsModel UtilsSpec UtilsProofs UtilsProofs3 FpfindModel FpfindSpec FpfindProofs4 AccuracySpec AccuracyProofs GroundProofs PlotProofs PromSpec PromProofs ScoreModel ScoreSpec.
Import ListNotations. Local Open Scope Z_scope.

Definition asum (l : list Q) : Q := qsum (map Qabs l).
Lemma asum_app a b : (asum (a ++ b) == asum a + asum b)%Q.
Proof. unfold asum. rewrite map_app. apply qsum_app. Qed.
Lemma asum_nonneg l : (0 <= asum l)%Q.
Proof. apply qsum_nonneg. intros y Y. apply in_map_iff in Y as (z & <- & _). apply Qabs_nonneg. Qed.
Lemma qsum_perm a b : Permutation a b -> (qsum a == qsum b)%Q.
Proof. intros H. induction H; [reflexivity| | |]; rewrite ?qsum_cons; try lra; now rewrite IHPermutation1. Qed.
Lemma asum_perm a b : Permutation a b -> (asum a == asum b)%Q.
Proof. intros H. apply qsum_perm. now apply Permutation_map. Qed.
Lemma qsum_abs l : (Qabs (qsum l) <= asum l)%Q.
Proof. induction l as [|x l IH]; [discriminate|]. unfold asum in *. cbn [map]. rewrite !qsum_cons. eapply Qle_trans; [apply Qabs_triangle|]. lra. Qed.
Lemma asum_pos l : (forall x, In x l -> 0 <= x)%Q -> (asum l == qsum l)%Q.
Proof. induction l as [|x l IH]; intros H; [reflexivity|]. unfold asum in *. cbn [map]. rewrite !qsum_cons, IH by (intros y Y; apply H; now right). rewrite Qabs_pos; [reflexivity|]. apply H. now left. Qed.
Lemma qsum_le l (f g : Q -> Q) : (forall x, In x l -> f x <= g x)%Q -> (qsum (map f l) <= qsum (map g l))%Q.
Proof. induction l as [|x l IH]; intros H; [apply Qle_refl|]. cbn [map]. rewrite !qsum_cons. specialize (IH (fun y Y => H y (or_intror Y))). specialize (H x (or_introl eq_refl)). lra. Qed.
Lemma qsum_scale l (f : Q -> Q) c : (qsum (map (fun x => c * f x) l) == c * qsum (map f l))%Q.
Proof. induction l as [|x l IH]; cbn [map]; [cbn [qsum fold_right]; ring|]. rewrite !qsum_cons, IH. ring. Qed.
Lemma squares_around l c : (qsum (map (fun y => (y - c) * (y - c)) l) == qsum (map (fun y => y * y) l) - 2 * c * qsum l + inject_Z (len l) * (c * c))%Q.
Proof. induction l as [|x l IH]; [change (inject_Z (len [])) with 0%Q; cbn [map qsum fold_right]; ring|]. cbn [map]. rewrite !qsum_cons, IH, len_cons, inject_Z_plus. change (inject_Z 1) with 1%Q. ring. Qed.
Lemma len_map {X Y} (f : X -> Y) l : len (map f l) = len l.
Proof. unfold len. now rewrite map_length. Qed.
(** ** Sums and means *)
Section Rounded.
Variable rd : Q -> Q.
Hypothesis RD : forall x, (Qabs (rd x - x) <= (1 # 9007199254740992) * Qabs x)%Q.
Lemma sums_nonempty k l x : sums rd k l x -> l <> [].
Proof. intros H. induction H as [| |]; [discriminate| |]. - intros E. apply app_eq_nil in E. tauto. - intros ->. apply Permutation_sym, Permutation_nil in H. congruence. Qed.
Lemma sums_depth k l x : sums rd k l x -> 0 <= k.
Proof. intros H. induction H; lia. Qed.
Lemma sums_single k l x : sums rd k l x -> forall b, l = [b] -> x = b.
Proof.
  intros H. induction H as [k x K|k a c x y H1 IH1 H2 IH2|k a c x PE H IH]; intros b E.
  - now inversion E.
  - pose proof (sums_nonempty _ _ _ H1). pose proof (sums_nonempty _ _ _ H2). destruct a as [|a0 a]; [congruence|]. destruct c as [|c0 c]; [congruence|]. destruct a; discriminate.
  - subst c. apply IH. now apply Permutation_sym, Permutation_length_1_inv in PE.
Qed.
Lemma sums_err k l x : sums rd k l x -> k <= 1024 -> (Qabs (x - qsum l) <= inject_Z k * (1 # 4503599627370496) * asum l)%Q.
Proof.
  intros H. induction H as [k x K|k a b x y H1 IH1 H2 IH2|k a b x PE H IH]; intros L.
  - unfold asum. cbn [map qsum fold_right]. setoid_replace (x - (x + 0))%Q with 0%Q by ring. change (Qabs 0) with 0%Q. pose proof (Qabs_nonneg x). assert (0 <= inject_Z k)%Q by (rewrite <- (Zle_Qle 0); exact K).
    assert (0 <= inject_Z k * (Qabs x + 0))%Q by (apply Qmult_le_0_compat; lra). lra.
  - specialize (IH1 ltac:(lia)). specialize (IH2 ltac:(lia)). pose proof (sums_depth _ _ _ H1) as K0. rewrite qsum_app, asum_app, inject_Z_plus. change (inject_Z 1) with 1%Q.
    pose proof (RD (x + y)) as R. pose proof (qsum_abs a) as Q1. pose proof (qsum_abs b) as Q2. pose proof (asum_nonneg a) as P1. pose proof (asum_nonneg b) as P2.
    set (sa := qsum a) in *. set (sb := qsum b) in *. set (ta := asum a) in *. set (tb := asum b) in *. set (z := rd (x + y)%Q) in *. clearbody z sa sb ta tb.
    assert (K1 : (0 <= inject_Z k)%Q) by (rewrite <- (Zle_Qle 0); exact K0). assert (K2 : (inject_Z k <= 1024)%Q) by (change 1024%Q with (inject_Z 1024); rewrite <- Zle_Qle; lia). set (q := inject_Z k) in *. clearbody q.
    assert (T0 : (0 <= q * (ta + tb))%Q) by (apply Qmult_le_0_compat; lra). assert (T1 : (q * (ta + tb) <= 1024 * (ta + tb))%Q) by (apply Qmult_le_compat_r; lra).
    assert (XY : (Qabs (x + y) <= (ta + tb) + q * (1 # 4503599627370496) * (ta + tb))%Q) by (apply qabs_both in IH1, IH2, Q1, Q2; apply qabs_both; lra).
    apply qabs_both in IH1, IH2, R. apply qabs_both. lra.
  - specialize (IH L). rewrite <- (qsum_perm _ _ PE), <- (asum_perm _ _ PE). exact IH.
Qed.
Lemma mean_err k l m : mean_of rd k l m -> k <= 1024 -> l <> [] /\ (Qabs (m - qmean l) <= (1 # 2199023255552) * (asum l / inject_Z (len l)))%Q.
Proof.
  intros (s & H & ->) L. pose proof (sums_nonempty _ _ _ H) as N. split; [exact N|]. pose proof (len_pos l N) as K. pose proof (sums_err _ _ _ H L) as E. pose proof (sums_depth _ _ _ H) as K0.
  pose proof (asum_nonneg l) as A0. pose proof (qsum_abs l) as QA.
  assert (E2 : (Qabs (s - qsum l) <= (1 # 4398046511104) * asum l)%Q).
  { eapply Qle_trans; [exact E|]. apply Qmult_le_compat_r; [|exact A0]. assert (inject_Z k <= 1024)%Q by (change 1024%Q with (inject_Z 1024); rewrite <- Zle_Qle; lia). lra. }
  clear E. set (n := inject_Z (len l)) in *. set (A := (asum l / n)%Q) in *. assert (EA : (asum l == n * A)%Q) by (unfold A; field; lra). pose proof (mean_sum l N) as EM. fold n in EM. set (mu := qmean l) in *. set (x := (s / n)%Q) in *. assert (ES : (s == n * x)%Q) by (unfold x; field; lra).
  rewrite EA in A0, E2. rewrite <- EM in E2. rewrite ES in E2. rewrite EA, <- EM in QA. rewrite <- (Qmult_0_r n) in A0. apply Qmult_le_l in A0; [|exact K].
  setoid_replace (n * x - n * mu)%Q with (n * (x - mu))%Q in E2 by ring. rewrite Qabs_Qmult, (Qabs_pos n) in E2, QA by lra. setoid_replace ((1 # 4398046511104) * (n * A))%Q with (n * ((1 # 4398046511104) * A))%Q in E2 by ring.
  apply Qmult_le_l in E2; [|exact K]. apply Qmult_le_l in QA; [|exact K]. clearbody n A mu x. pose proof (RD x) as R. set (r := rd x) in *. clearbody r.
  assert (X : (Qabs x <= 2 * A)%Q) by (apply qabs_both in E2, QA; apply qabs_both; lra). apply qabs_both in E2, R. apply qabs_both. lra.
Qed.
(** the mean absolute value *)
Lemma asum_squares l : l <> [] -> (let A := asum l / inject_Z (len l) in A * A <= qmean l * qmean l + qvar l)%Q.
Proof.
  intros N. cbv zeta. pose proof (len_pos l N) as K. pose proof (mean_sum l N) as EM. pose proof (var_sum l N) as EV. rewrite squares_around, <- EM in EV. set (n := inject_Z (len l)) in *. set (A := (asum l / n)%Q) in *.
  assert (EA : (asum l == n * A)%Q) by (unfold A; field; lra). pose proof (squares_nonneg (map Qabs l) A) as P. rewrite squares_around, len_map in P. fold (asum l) in P. fold n in P. rewrite EA in P. rewrite map_map in P.
  assert (SE : (qsum (map (fun x => Qabs x * Qabs x) l) == qsum (map (fun x => x * x) l))%Q).
  { clear. induction l as [|x l IH]; [reflexivity|]. cbn [map]. rewrite !qsum_cons, IH. rewrite <- Qabs_Qmult, (Qabs_pos (x * x)); [reflexivity|apply Qsq_nonneg]. }
  rewrite SE in P. set (S2 := qsum (map (fun x => x * x) l)%Q) in *. apply (Qmult_le_l _ _ _ K). lra.
Qed.
Section Background.
Variables (bg : list Q) (k : Z).
Hypotheses (NE : bg <> []) (KK : k <= 1024) (LL : len bg <= 4294967296) (VP : (0 < qvar bg)%Q) (RES : (qmean bg * qmean bg <= 16 * inject_Z (len bg) * qvar bg)%Q).
Lemma mean_close m : mean_of rd k bg m -> ((m - qmean bg) * (m - qmean bg) <= (1 # 17592186044416) * qvar bg)%Q.
Proof.
  intros H. destruct (mean_err k bg m H KK) as [_ E]. pose proof (asum_squares bg NE) as S. cbv zeta in S. set (A := (asum bg / inject_Z (len bg))%Q) in *. set (mu := qmean bg) in *. set (v := qvar bg) in *.
  pose proof (len_pos bg NE) as K. assert (L2 : (inject_Z (len bg) <= 4294967296)%Q) by (change 4294967296%Q with (inject_Z 4294967296); rewrite <- Zle_Qle; exact LL). set (n := inject_Z (len bg)) in *. clearbody n A mu v.
  assert (NV : (n * v <= 4294967296 * v)%Q) by (apply Qmult_le_compat_r; lra). assert (AA : (A * A <= 137438953472 * v)%Q) by lra.
  assert (E2 : ((m - mu) * (m - mu) <= ((1 # 2199023255552) * A) * ((1 # 2199023255552) * A))%Q).
  { pose proof (Qabs_nonneg (m - mu)) as P. assert (X : (Qabs (m - mu) * Qabs (m - mu) <= ((1 # 2199023255552) * A) * ((1 # 2199023255552) * A))%Q) by (apply Qmult_le_compat_nonneg; split; lra).
    rewrite <- Qabs_Qmult, (Qabs_pos ((m - mu) * (m - mu))) in X by apply Qsq_nonneg. exact X. }
  lra.
Qed.
Lemma stdev_close sd : stdev_of rd k bg sd -> (0 < sd)%Q /\ ((1 - (1 # 1099511627776)) * qvar bg <= sd * sd)%Q /\ (sd * sd <= (1 + (1 # 549755813888)) * qvar bg)%Q.
Proof.
  intros (m & v & HM & HV & S0 & SR). pose proof (mean_close m HM) as MC. destruct (mean_err k _ v HV KK) as [_ E]. rewrite len_map in E. pose proof (len_pos bg NE) as K.
  set (z := fun x => let d := rd (x - m)%Q in rd (d * d)%Q) in *. set (y := fun x => ((x - m) * (x - m))%Q).
  assert (ZY : forall x, ((1 - (1 # 1125899906842624)) * y x <= z x /\ z x <= (1 + (1 # 1125899906842624)) * y x /\ 0 <= y x)%Q).
  { intros x. unfold z, y. cbv zeta. set (w := (x - m)%Q). pose proof (RD w) as R1. pose proof (RD (rd w * rd w)) as R2. set (r := rd w) in *. rewrite (Qabs_pos (r * r)) in R2 by apply Qsq_nonneg. apply qabs_both in R2.
    pose proof (Qsq_nonneg w) as W0. assert (EW : (Qabs w * Qabs w == w * w)%Q) by (rewrite <- Qabs_Qmult; apply Qabs_pos; exact W0). assert (ER : (Qabs r * Qabs r == r * r)%Q) by (rewrite <- Qabs_Qmult; apply Qabs_pos, Qsq_nonneg).
    pose proof (Qabs_nonneg w) as P1. assert (B1 : (Qabs r <= (1 + (1 # 9007199254740992)) * Qabs w)%Q).
    { assert (T : (Qabs r <= Qabs (r - w) + Qabs w)%Q) by (eapply Qle_trans; [|apply Qabs_triangle]; apply Qle_lteq; right; apply Qabs_wd; ring). lra. }
    assert (B2 : ((1 - (1 # 9007199254740992)) * Qabs w <= Qabs r)%Q).
    { assert (T : (Qabs w <= Qabs (w - r) + Qabs r)%Q) by (eapply Qle_trans; [|apply Qabs_triangle]; apply Qle_lteq; right; apply Qabs_wd; ring). rewrite <- (Qabs_opp (w - r)) in T. assert (EE : (Qabs (- (w - r)) == Qabs (r - w))%Q) by (apply Qabs_wd; ring). rewrite EE in T. lra. }
    assert (C1 : (Qabs r * Qabs r <= ((1 + (1 # 9007199254740992)) * Qabs w) * ((1 + (1 # 9007199254740992)) * Qabs w))%Q) by (apply Qmult_le_compat_nonneg; split; try lra; apply Qabs_nonneg).
    assert (C2 : (((1 - (1 # 9007199254740992)) * Qabs w) * ((1 - (1 # 9007199254740992)) * Qabs w) <= Qabs r * Qabs r)%Q) by (apply Qmult_le_compat_nonneg; split; lra).
    rewrite ER in C1, C2. setoid_replace (((1 + (1 # 9007199254740992)) * Qabs w) * ((1 + (1 # 9007199254740992)) * Qabs w))%Q with ((1 + (1 # 9007199254740992)) * (1 + (1 # 9007199254740992)) * (w * w))%Q in C1 by (rewrite <- EW; ring).
    setoid_replace (((1 - (1 # 9007199254740992)) * Qabs w) * ((1 - (1 # 9007199254740992)) * Qabs w))%Q with ((1 - (1 # 9007199254740992)) * (1 - (1 # 9007199254740992)) * (w * w))%Q in C2 by (rewrite <- EW; ring).
    set (ww := (w * w)%Q) in *. set (rr := (r * r)%Q) in *. set (o := rd rr) in *. clearbody ww rr o. repeat split; lra. }
  assert (VA : (inject_Z (len bg) * (qvar bg + (m - qmean bg) * (m - qmean bg)) == qsum (map y bg))%Q).
  { unfold y. rewrite squares_around, Qmult_plus_distr_r, (var_sum bg NE), squares_around. rewrite <- (mean_sum bg NE). ring. }
  assert (Z1 : (qsum (map z bg) <= (1 + (1 # 1125899906842624)) * qsum (map y bg))%Q) by (rewrite <- qsum_scale; apply qsum_le; intros x _; apply ZY).
  assert (Z2 : ((1 - (1 # 1125899906842624)) * qsum (map y bg) <= qsum (map z bg))%Q) by (rewrite <- qsum_scale; apply qsum_le; intros x _; apply ZY).
  assert (ZP : (asum (map z bg) == qsum (map z bg))%Q). { apply asum_pos. intros x X. apply in_map_iff in X as (w & <- & _). destruct (ZY w) as (Y1 & _ & Y2). lra. }
  assert (NEZ : map z bg <> []) by (destruct bg; [congruence|discriminate]). assert (EZ : (qmean (map z bg) == qsum (map z bg) / inject_Z (len bg))%Q) by (unfold qmean; rewrite len_map; reflexivity).
  assert (EA : (asum (map z bg) / inject_Z (len bg) == qsum (map z bg) / inject_Z (len bg))%Q) by (rewrite ZP; reflexivity). rewrite EZ, EA in E. set (n := inject_Z (len bg)) in *. set (Z := (qsum (map z bg) / n)%Q) in *.
  assert (EQ : (qsum (map z bg) == n * Z)%Q) by (unfold Z; field; lra). rewrite EQ, <- VA in Z1, Z2. set (V := (qvar bg + (m - qmean bg) * (m - qmean bg))%Q) in *.
  setoid_replace ((1 + (1 # 1125899906842624)) * (n * V))%Q with (n * ((1 + (1 # 1125899906842624)) * V))%Q in Z1 by ring. setoid_replace ((1 - (1 # 1125899906842624)) * (n * V))%Q with (n * ((1 - (1 # 1125899906842624)) * V))%Q in Z2 by ring.
  apply Qmult_le_l in Z1; [|exact K]. apply Qmult_le_l in Z2; [|exact K]. pose proof (Qsq_nonneg (m - qmean bg)) as M0. set (b2 := ((m - qmean bg) * (m - qmean bg))%Q) in *. set (q := qvar bg) in *. apply qabs_both in E. apply qabs_both in SR.
  clearbody n Z b2 q. unfold V in *. assert (SD : ((1 - (1 # 1099511627776)) * q <= sd * sd)%Q) by lra. repeat split; try lra.
  apply Qnot_le_lt. intros X. assert (EX : (sd == 0)%Q) by lra. rewrite EX in SD. lra.
Qed.
(** The score is near the distance in computed deviations. *)
Lemma score_near m v : score_of rd k m bg v -> (qmean bg <= m)%Q ->
  exists sd x, (0 < sd)%Q /\ ((1 - (1 # 1099511627776)) * qvar bg <= sd * sd)%Q /\ (sd * sd <= (1 + (1 # 549755813888)) * qvar bg)%Q /\ (m - qmean bg == x * sd)%Q /\ (0 <= x)%Q /\
    (Qabs (v - x) <= (1 # 1099511627776) * x + (501 # 1000000))%Q.
Proof.
  intros (mean & sd & HM & HS & H) ML. pose proof (mean_close mean HM) as MC. destruct (stdev_close sd HS) as (S0 & S1 & S2). destruct (Qeq_bool sd 0) eqn:EZ; [apply Qeq_bool_eq in EZ; lra|]. destruct H as (i & NI & ->). unfold nearest in NI.
  exists sd, ((m - qmean bg) / sd)%Q. set (x := ((m - qmean bg) / sd)%Q). assert (EX : (m - qmean bg == x * sd)%Q) by (unfold x; field; lra). assert (X0 : (0 <= x)%Q) by (unfold x; apply Qle_shift_div_l; [exact S0|]; lra).
  do 5 (split; [assumption|]). set (w := (m - mean)%Q) in *. set (y := (w / sd)%Q). assert (EY : (w == y * sd)%Q) by (unfold y; field; lra).
  assert (YX : (Qabs (y - x) <= 1 # 2097152)%Q).
  { assert (E : (qmean bg - mean == (y - x) * sd)%Q) by (setoid_replace ((y - x) * sd)%Q with (y * sd - x * sd)%Q by ring; rewrite <- EY, <- EX; unfold w; ring).
    setoid_replace ((mean - qmean bg) * (mean - qmean bg))%Q with ((qmean bg - mean) * (qmean bg - mean))%Q in MC by ring. rewrite E in MC. set (d := (y - x)%Q) in *.
    assert (SS : (0 < sd * sd)%Q) by (rewrite <- (Qmult_0_r sd); apply Qmult_lt_l; assumption).
    assert (DD : (d * d <= (1 # 2097152) * (1 # 2097152))%Q).
    { apply (Qmult_le_r _ _ (sd * sd) SS). setoid_replace (d * d * (sd * sd))%Q with (d * sd * (d * sd))%Q by ring. lra. }
    apply Qnot_lt_le. intros L. pose proof (Qabs_nonneg d). assert (X : ((1 # 2097152) * (1 # 2097152) < Qabs d * Qabs d)%Q) by nra. rewrite <- Qabs_Qmult, (Qabs_pos (d * d)) in X by apply Qsq_nonneg. lra. }
  set (r1 := rd w) in *. assert (R1 : (Qabs (r1 / sd - y) <= (1 # 9007199254740992) * Qabs y)%Q).
  { pose proof (RD w) as R. fold r1 in R. assert (SN : (0 < / sd)%Q) by (apply Qinv_lt_0_compat; exact S0). unfold y, Qdiv. setoid_replace (r1 * / sd - w * / sd)%Q with ((r1 - w) * / sd)%Q by ring. rewrite !Qabs_Qmult, (Qabs_pos (/ sd)) by lra.
    rewrite Qmult_assoc. apply Qmult_le_compat_r; lra. }
  set (y1 := (r1 / sd)%Q) in *. pose proof (RD y1) as R2. set (q := rd y1) in *. pose proof (RD (q * 1000)) as R3. set (p := rd (q * 1000)%Q) in *. pose proof (RD (inject_Z i / 1000)) as R4. set (v := rd (inject_Z i / 1000)%Q) in *.
  assert (E4 : (inject_Z i / 1000 == inject_Z i * (1 # 1000))%Q) by (unfold Qdiv; reflexivity). set (ii := (inject_Z i / 1000)%Q) in *. clearbody ii.
  set (z := inject_Z i) in *. clearbody z y y1 q p v x. clear - E4 R1 R2 R3 R4 NI YX X0.
  assert (Y : (Qabs y <= x + (1 # 2097152))%Q) by (apply qabs_both in YX; apply qabs_both; lra).
  assert (Y1 : (Qabs y1 <= (1 + (1 # 9007199254740992)) * (x + (1 # 2097152)))%Q) by (apply qabs_both in R1; apply qabs_both in Y as Y'; apply qabs_both; lra).
  assert (Q1 : (Qabs q <= (1 + (1 # 1125899906842624)) * (x + (1 # 2097152)))%Q) by (apply qabs_both in R2; apply qabs_both in Y1 as Y'; apply qabs_both; lra).
  assert (Q2 : (Qabs (q * 1000) == Qabs q * 1000)%Q) by (rewrite Qabs_Qmult; reflexivity). rewrite Q2 in R3.
  assert (P1 : (Qabs p <= (1 + (1 # 562949953421312)) * 1000 * (x + (1 # 2097152)))%Q) by (apply qabs_both in R3; apply qabs_both in Q1 as Y'; apply qabs_both; lra).
  assert (I1 : (Qabs ii <= (1 + (1 # 562949953421312)) * (x + (1 # 2097152)) + (1 # 2000))%Q) by (apply qabs_both in NI; apply qabs_both in P1 as Y'; apply qabs_both; lra).
  apply qabs_both in R1, R2, R3, R4, NI, YX. apply qabs_both. lra.
Qed.
Lemma sq_le x y : (0 <= y)%Q -> (x * x <= y * y)%Q -> (x <= y)%Q.
Proof. intros Y H. apply Qnot_lt_le. intros L. nra. Qed.
Lemma score_lower m v s : score_of rd k m bg v -> (qmean bg <= m)%Q -> (0 <= s)%Q -> at_least ((1001 # 1000) * s + (1 # 1000)) (m - qmean bg) (qvar bg) -> (s <= v)%Q.
Proof.
  intros H ML S0 AL. destruct (score_near m v H ML) as (sd & x & SP & S1 & S2 & EX & X0 & XV). unfold at_least in AL. rewrite EX in AL. set (t := ((1001 # 1000) * s + (1 # 1000))%Q) in *. assert (T0 : (0 <= t)%Q) by (unfold t; lra).
  assert (SS : (0 < sd * sd)%Q) by (rewrite <- (Qmult_0_r sd); apply Qmult_lt_l; assumption). pose proof (Qsq_nonneg t) as TT.
  assert (B : ((1 - (1 # 549755813888)) * t <= x)%Q).
  { apply sq_le; [exact X0|]. apply (Qmult_le_r _ _ (sd * sd) SS). setoid_replace (x * x * (sd * sd))%Q with (x * sd * (x * sd))%Q by ring. eapply Qle_trans; [|exact AL].
    pose proof (mul_mono (t * t) _ _ TT S2) as X. set (tt := (t * t)%Q) in *. set (V := qvar bg) in *. assert (0 <= tt * V)%Q by (apply Qmult_le_0_compat; lra).
    setoid_replace ((1 - (1 # 549755813888)) * t * ((1 - (1 # 549755813888)) * t) * (sd * sd))%Q with ((1 - (1 # 549755813888)) * (1 - (1 # 549755813888)) * (tt * (sd * sd)))%Q by (unfold tt; ring). lra. }
  apply qabs_both in XV. unfold t in *. lra.
Qed.
Lemma score_upper m v s : score_of rd k m bg v -> (qmean bg <= m)%Q -> (0 <= s)%Q -> at_most s (m - qmean bg) (qvar bg) -> (v <= (1001 # 1000) * s + (1 # 1000))%Q.
Proof.
  intros H ML S0 AL. destruct (score_near m v H ML) as (sd & x & SP & S1 & S2 & EX & X0 & XV). unfold at_most in AL. rewrite EX in AL.
  assert (SS : (0 < sd * sd)%Q) by (rewrite <- (Qmult_0_r sd); apply Qmult_lt_l; assumption). pose proof (Qsq_nonneg s) as TT.
  assert (B : (x <= (1 + (1 # 549755813888)) * s)%Q).
  { apply sq_le; [lra|]. apply (Qmult_le_r _ _ (sd * sd) SS). setoid_replace (x * x * (sd * sd))%Q with (x * sd * (x * sd))%Q by ring. eapply Qle_trans; [exact AL|].
    pose proof (mul_mono (s * s) _ _ TT S1) as X. set (tt := (s * s)%Q) in *. set (V := qvar bg) in *. assert (0 <= tt * V)%Q by (apply Qmult_le_0_compat; lra).
    setoid_replace ((1 + (1 # 549755813888)) * s * ((1 + (1 # 549755813888)) * s) * (sd * sd))%Q with ((1 + (1 # 549755813888)) * (1 + (1 # 549755813888)) * (tt * (sd * sd)))%Q by (unfold tt; ring). lra. }
  apply qabs_both in XV. lra.
Qed.
End Background.
End Rounded.
Lemma c147_scores k m bg v : score_of (fl 53) k m bg v -> k <= 1024 -> len bg <= 4294967296 -> scores m bg v.
Proof.
  intros H KK LL mean var s (IM & IV & VP & RES) ML S0. assert (RD : forall x, (Qabs (fl 53 x - x) <= (1 # 9007199254740992) * Qabs x)%Q) by (intros x; apply fl_close53, Qle_refl).
  assert (NE : bg <> []) by (destruct H as (? & ? & (? & HS & _) & _); exact (sums_nonempty _ _ _ _ HS)).
  assert (EM : (mean == qmean bg)%Q) by (apply (mean_unique bg _ _ NE IM), qmean_spec, NE).
  assert (EV : (var == qvar bg)%Q).
  { destruct IV as (m0 & IM0 & IV). assert (E0 : (m0 == qmean bg)%Q) by (apply (mean_unique bg _ _ NE IM0), qmean_spec, NE). unfold is_mean in IV. rewrite len_map in IV. fold (qsum (map (fun x => ((x - m0) * (x - m0))%Q) bg)) in IV.
    pose proof (len_pos bg NE). apply (Qmult_inj_l _ _ (inject_Z (len bg))); [lra|]. rewrite IV, (var_sum bg NE), !squares_around, E0. reflexivity. }
  rewrite EM in ML. rewrite EV in VP. rewrite EM, EV in RES. split; intros B.
  - apply (score_lower (fl 53) RD bg k NE KK LL VP RES m v s H ML S0). unfold at_least in *. rewrite <- EM, <- EV. exact B.
  - apply (score_upper (fl 53) RD bg k NE KK LL VP RES m v s H ML S0). unfold at_most in *. rewrite <- EM, <- EV. exact B.
Qed.
Lemma c147_single k m b v : score_of (fl 53) k m [b] v -> (fl 53 b == b)%Q -> v = 0%Q.
Proof.
  intros (mean & sd & _ & (m2 & w & (s & HS & ->) & (z & HZ & ->) & S0 & SR) & H) FB. pose proof (sums_single _ _ _ _ HS b eq_refl) as ->. cbn [map] in HZ. pose proof (sums_single _ _ _ _ HZ _ eq_refl) as ->.
  change (len [b]) with 1 in *. change (len (map _ [b])) with 1 in SR. assert (E1 : (fl 53 (b / inject_Z 1) == b)%Q) by (rewrite (fl_eq 53 (b / inject_Z 1) b); [exact FB|]; change (inject_Z 1) with 1%Q; field).
  rewrite (fl_0 53 (b - fl 53 (b / inject_Z 1))) in SR by (rewrite E1; ring). rewrite (fl_0 53 (0 * 0)%Q) in SR by reflexivity. rewrite (fl_0 53 (0 / inject_Z 1)%Q) in SR by (unfold Qdiv; apply Qmult_0_l).
  rewrite Qmult_0_r in SR. assert (EZ : (sd * sd == 0)%Q) by (apply qabs_both in SR; lra). assert (E0 : (sd == 0)%Q) by (destruct (Qmult_integral _ _ EZ); assumption). apply Qeq_bool_iff in E0. rewrite E0 in H. exact H.
Qed.
Lemma doubles_dec l : {Forall double l} + {~ Forall double l}.
Proof. apply Forall_dec. intros x. unfold double. apply Qeq_dec. Qed.
Lemma c147_fair M n : in_doubles M -> n <= 4294967296 -> fair_zs n M.
Proof.
  intros H L m bg mean var s NE LB IM IV VP RES ML S0 AL. destruct (H m bg NE ltac:(lia)) as [D E]. destruct (doubles_dec bg) as [Y|N].
  - apply (c147_scores 1024 m bg _ (D Y) ltac:(lia) ltac:(lia) mean var s); [repeat split; assumption|assumption|assumption|exact AL].
  - rewrite (E N). apply (exact_fair n (rt M) (rs M) (xc M) m bg mean var s NE LB IM IV VP RES ML S0 AL).
Qed.
Lemma c147_good M : in_doubles M -> good_zs M.
Proof.
  intros H m b. destruct (H m [b] ltac:(discriminate) ltac:(discriminate)) as [D E]. destruct (doubles_dec [b]) as [Y|N].
  - rewrite (c147_single 1024 m b _ (D Y)); [reflexivity|]. now inversion Y.
  - rewrite (E N). exact (exact_good_zs (rt M) (rs M) m b).
Qed.
