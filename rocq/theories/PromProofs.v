(** The standard score of a peak over a sparse background. *)
From Coq Require Import QArith Qabs Qround Qminmax Lqa.
From Coq Require Import ZifyBool.
From Verif Require Import Float Base TimestampsModel UtilsModel UtilsSpec UtilsProofs UtilsProofs2 UtilsProofs3 FpfindModel FpfindSpec FpfindProofs2 AccuracySpec AccuracyProofs PairSpec PairProofs SignalSpec SignalProofs RoundedSpec RoundedProofs WholeSpec
  SwapSpec ExistSpec ExistProofs GroundSpec GroundProofs GroundProofs2 PromSpec.
Import ListNotations. Local Open Scope Z_scope.

(** ** Mean and variance *)
Lemma qsum_app a b : (qsum (a ++ b) == qsum a + qsum b)%Q.
Proof. induction a as [|x a IH]; cbn [app qsum fold_right]; [change (fold_right Qplus 0%Q b) with (qsum b); ring|]. fold (qsum (a ++ b)). fold (qsum a). rewrite IH. ring. Qed.
Lemma qsum_cons x l : qsum (x :: l) = (x + qsum l)%Q. Proof. reflexivity. Qed.
Lemma squares_le l lo p c : (forall y, In y l -> lo <= y /\ y <= p)%Q ->
  (qsum (map (fun y => (y - c) * (y - c)) l) <= inject_Z (len l) * ((p - c) * (c - lo)) + (qsum l - inject_Z (len l) * c) * (p + lo - 2 * c))%Q.
Proof.
  induction l as [|y l IH]; intros H.
  - change (len (@nil Q)) with 0. cbn [map qsum fold_right]. change (inject_Z 0) with 0%Q. lra.
  - cbn [map]. rewrite !qsum_cons, len_cons, inject_Z_plus. change (inject_Z 1) with 1%Q. specialize (IH (fun z I => H z (or_intror I))). destruct (H y (or_introl eq_refl)) as [L U].
    set (S2 := qsum (map _ l)) in *. set (S1 := qsum l) in *. set (k := inject_Z (len l)) in *.
    assert (E : ((y - c) * (y - c) == (p - c) * (c - lo) - (p - y) * (y - lo) + (y - c) * (p + lo - 2 * c))%Q) by ring.
    assert (0 <= (p - y) * (y - lo))%Q by (apply Qmult_le_0_compat; lra).
    setoid_replace ((1 + k) * ((p - c) * (c - lo)) + (y + S1 - (1 + k) * c) * (p + lo - 2 * c))%Q with
      ((p - c) * (c - lo) + (y - c) * (p + lo - 2 * c) + (k * ((p - c) * (c - lo)) + (S1 - k * c) * (p + lo - 2 * c)))%Q by ring. lra.
Qed.
Lemma squares_nonneg l c : (0 <= qsum (map (fun y => (y - c) * (y - c)) l))%Q.
Proof. apply qsum_nonneg. intros y Y. apply in_map_iff in Y as (z & <- & _). apply Qsq_nonneg. Qed.
Lemma squares_one l c x : In x l -> ((x - c) * (x - c) <= qsum (map (fun y => (y - c) * (y - c)) l))%Q.
Proof.
  induction l as [|y l IH]; intros I; [destruct I|]. cbn [map]. rewrite qsum_cons. pose proof (squares_nonneg l c). destruct I as [->|I]; [lra|]. specialize (IH I).
  pose proof (Qsq_nonneg (y - c)). lra.
Qed.
Lemma squares_two l c x y : In x l -> In y l -> ~ (x == y)%Q -> ((x - c) * (x - c) + (y - c) * (y - c) <= qsum (map (fun y => (y - c) * (y - c)) l))%Q.
Proof.
  induction l as [|z l IH]; intros I J N; [destruct I|]. cbn [map]. rewrite qsum_cons. pose proof (Qsq_nonneg (z - c)). destruct I as [->|I], J as [->|J].
  - destruct N. reflexivity.
  - pose proof (squares_one l c y J). lra.
  - pose proof (squares_one l c x I). lra.
  - specialize (IH I J N). lra.
Qed.
Lemma len_pos {A} (l : list A) : l <> [] -> (0 < inject_Z (len l))%Q.
Proof. destruct l as [|x l]; [congruence|]. intros _. apply inject_len_pos. Qed.
Lemma mean_sum l : l <> [] -> (inject_Z (len l) * qmean l == qsum l)%Q.
Proof. intros N. pose proof (len_pos l N). unfold qmean. field. lra. Qed.
Lemma var_sum l : l <> [] -> (inject_Z (len l) * qvar l == qsum (map (fun y => (y - qmean l) * (y - qmean l)) l))%Q.
Proof. intros N. pose proof (len_pos l N). unfold qvar. field. lra. Qed.
Lemma var_le l lo p : l <> [] -> (forall y, In y l -> lo <= y /\ y <= p)%Q -> (qvar l <= (p - qmean l) * (qmean l - lo))%Q.
Proof.
  intros N H. pose proof (squares_le l lo p (qmean l) H) as S. rewrite <- (var_sum l N), <- (mean_sum l N) in S. pose proof (len_pos l N) as K. apply (Qmult_le_l _ _ _ K).
  setoid_replace ((inject_Z (len l) * qmean l - inject_Z (len l) * qmean l) * (p + lo - 2 * qmean l))%Q with 0%Q in S by ring. lra.
Qed.
Lemma var_ge l x y : In x l -> In y l -> (1 # 2 <= x - y)%Q -> (1 # 8 <= inject_Z (len l) * qvar l)%Q.
Proof.
  intros I J H. assert (N : l <> []) by (intros ->; destruct I). rewrite (var_sum l N). pose proof (squares_two l (qmean l) x y I J ltac:(lra)) as S. set (c := qmean l) in *.
  assert (E : (2 * ((x - c) * (x - c) + (y - c) * (y - c)) == (x - y) * (x - y) + (x + y - 2 * c) * (x + y - 2 * c))%Q) by ring.
  pose proof (Qsq_nonneg (x + y - 2 * c)) as P. assert ((1 # 2) * (1 # 2) <= (x - y) * (x - y))%Q by nra. lra.
Qed.
Lemma mean_bounds l lo hi : l <> [] -> (inject_Z (len l) * lo <= qsum l)%Q -> (qsum l <= inject_Z (len l) * hi)%Q -> (lo <= qmean l /\ qmean l <= hi)%Q.
Proof. intros N L U. pose proof (len_pos l N) as K. rewrite <- (mean_sum l N) in L, U. apply Qmult_le_l in L; [|exact K]. apply Qmult_le_l in U; [|exact K]. now split. Qed.
(** A peak [p] over a background of values near counts that are fewer than the bins. *)
Lemma score_enough k M e bg p s N : fair_zs k M -> len bg <= k -> (0 <= e)%Q -> (e <= 1 # 4)%Q -> (0 <= s)%Q -> bg <> [] -> (forall y, In y bg -> - e <= y /\ y <= p)%Q ->
  (qsum bg <= inject_Z (len bg) * (N + e))%Q -> (N < 1)%Q -> (exists x y, In x bg /\ In y bg /\ 1 # 2 <= x - y)%Q ->
  (let t := (1001 # 1000) * s + (1 # 1000) in (1 + t * t) * (N + 2 * e) <= p + e)%Q -> (s <= zs M p bg)%Q.
Proof.
  intros FZ LK E0 E4 S0 NE H SU N1 (x & y & IX & IY & XY) PR. cbv zeta in PR. set (t := ((1001 # 1000) * s + (1 # 1000))%Q) in *. pose proof (len_pos bg NE) as K.
  assert (LO : (inject_Z (len bg) * - e <= qsum bg)%Q).
  { clear - H. induction bg as [|z l IH]; [change (inject_Z (len [])) with 0%Q; cbn [qsum fold_right]; lra|]. rewrite qsum_cons, len_cons, inject_Z_plus. change (inject_Z 1) with 1%Q.
    specialize (IH (fun v I => H v (or_intror I))). destruct (H z (or_introl eq_refl)). lra. }
  destruct (mean_bounds bg (- e) (N + e) NE LO SU) as [M1 M2]. pose proof (var_le bg (- e) p NE H) as V1. pose proof (var_ge bg x y IX IY XY) as V2.
  set (mu := qmean bg) in *. set (v := qvar bg) in *. set (h := inject_Z (len bg)) in *.
  assert (T0 : (0 <= t * t)%Q) by apply Qsq_nonneg. assert (MP : (0 <= mu + e)%Q) by lra.
  assert (PR2 : ((1 + t * t) * (mu + e) <= p + e)%Q). { assert ((1 + t * t) * (mu + e) <= (1 + t * t) * (N + 2 * e))%Q by (apply mul_mono; lra). lra. }
  assert (MT : (0 <= t * t * (mu + e))%Q) by (apply Qmult_le_0_compat; assumption). assert (PM : (mu <= p)%Q) by lra.
  assert (VP : (0 < v)%Q).
  { apply Qnot_le_lt. intros VN. assert (h * v <= h * 0)%Q by (apply mul_mono; lra). lra. }
  apply (FZ p bg mu v s NE LK); try assumption.
  - exact (qmean_spec bg NE).
  - exact (qvar_spec bg NE).
  - assert (mu * mu <= 25 # 16)%Q.
    { assert (A1 : (0 <= (5 # 4) - mu)%Q) by lra. assert (A2 : (0 <= (5 # 4) + mu)%Q) by lra. pose proof (Qmult_le_0_compat _ _ A1 A2) as X. setoid_replace (((5 # 4) - mu) * ((5 # 4) + mu))%Q with ((25 # 16) - mu * mu)%Q in X by ring. lra. }
    fold h. lra.
  - fold t. apply Qle_trans with (t * t * ((p - mu) * (mu - - e)))%Q; [now apply mul_mono|].
    setoid_replace (t * t * ((p - mu) * (mu - - e)))%Q with ((p - mu) * (t * t * (mu + e)))%Q by ring. apply mul_mono; lra.
Qed.
Lemma exact_fair n rt rs xc : fair_zs n (mkFpu rt rs xc exact_zs).
Proof.
  intros m bg mean var s N _ HM HV VP _ ML S0 H. cbn [zs]. destruct (c51_value (mkPeak [m] bg) m mean var N eq_refl HM HV ltac:(cbn [background]; lra)) as (k & E & _ & K0 & K1 & _).
  specialize (E ML). unfold significance in E. cbn [background UtilsModel.signal peak_max qmax_list fold_left] in E. destruct bg as [|z bg]; [congruence|]. injection E as ->.
  set (x := ((m - mean) * (m - mean) / var * 1000000)%Q) in *. set (t := (1001 * s + 1)%Q).
  assert (X : (t * t <= x)%Q).
  { unfold x. setoid_replace ((m - mean) * (m - mean) / var * 1000000)%Q with ((m - mean) * (m - mean) * 1000000 / var)%Q by (field; lra). apply Qle_shift_div_l; [exact VP|].
    setoid_replace (t * t * var)%Q with (((1001 # 1000) * s + (1 # 1000)) * ((1001 # 1000) * s + (1 # 1000)) * var * 1000000)%Q by (unfold t; ring). lra. }
  assert (KP : (0 <= inject_Z k)%Q) by (rewrite <- (Zle_Qle 0); exact K0). assert (T : (t <= inject_Z k + (1 # 2))%Q).
  { apply Qnot_lt_le. intros L. assert ((inject_Z k + (1 # 2)) * (inject_Z k + (1 # 2)) < t * t)%Q; [|lra]. nra. }
  apply Qle_shift_div_l; [reflexivity|]. unfold t in T. lra.
Qed.
