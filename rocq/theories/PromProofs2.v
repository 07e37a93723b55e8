(** The first correlation of two recordings: where its peak is and what is around it. *)
From Coq Require Import QArith Qabs Qround Qminmax Lqa.
From Coq Require Import ZifyBool.
From Verif Require Import Float Base TimestampsModel UtilsModel UtilsSpec UtilsProofs UtilsProofs2 UtilsProofs3 FpfindModel FpfindSpec FpfindProofs2 AccuracySpec AccuracyProofs PairSpec PairProofs SignalSpec SignalProofs SignalCase RoundedSpec RoundedProofs WholeSpec WholeProofs
  SwapSpec ExistSpec ExistProofs PlotProofs GroundSpec GroundProofs GroundProofs2 PromSpec PromProofs.
Import ListNotations. Local Open Scope Z_scope.

(** ** The background of the statistics without a window *)
Definition around (n p : Z) : list Z := zrange (p / 2) p ++ zrange (p + 1) ((n + p) / 2 + 1).
Lemma zrange_len i j : i <= j -> len (zrange i j) = j - i.
Proof. intros H. unfold zrange, len. rewrite map_length, seq_length. lia. Qed.
Lemma around_facts n p : Z.odd n = false -> 0 <= p < n -> 2 * len (around n p) = n /\ NoDup (around n p) /\ Forall (fun i => 0 <= i < n /\ i <> p) (around n p).
Proof.
  intros O H. assert (E : exists k, n = 2 * k). { apply Z.even_spec. rewrite <- Z.negb_odd, O. reflexivity. } destruct E as (k & ->). split; [|split].
  - unfold around. unfold len. rewrite app_length, Nat2Z.inj_add. fold (len (zrange (p / 2) p)). fold (len (zrange (p + 1) ((2 * k + p) / 2 + 1))). rewrite !zrange_len by lia. lia.
  - apply NoDup_app'; [apply zrange_NoDup..|]. intros x X Y. apply zrange_In in X, Y. lia.
  - apply Forall_forall. intros x X. apply in_app_iff in X. rewrite !zrange_In in X. lia.
Qed.
Lemma background_around ys p : 0 <= p < len ys -> background (pieces ys p 0) = at_positions ys (around (len ys) p).
Proof.
  intros H. unfold pieces. cbn [background]. rewrite !slice_positions. unfold at_positions, around. rewrite map_app. unfold slice_index. set (n := len ys) in *.
  replace (Z.max 0 (p - 0)) with p by lia. replace (Z.min n (p + 0)) with p by lia.
  replace (p / 2 <? 0) with false by lia. replace (p <? 0) with false by lia. replace (p + 1 <? 0) with false by lia. replace ((n + p) / 2 + 1 <? 0) with false by lia.
  replace (Z.min (p / 2) n) with (p / 2) by lia. replace (Z.min p n) with p by lia. replace (Z.min (p + 1) n) with (p + 1) by lia. replace (Z.min ((n + p) / 2 + 1) n) with ((n + p) / 2 + 1) by lia. reflexivity.
Qed.
Lemma sig_of_around M ys res : 2 <= len ys -> exists p, first_peak ys p /\ sig_of M ys res = Ok (zs M (nth (Z.to_nat p) ys 0%Q) (at_positions ys (around (len ys) p))).
Proof.
  intros N. assert (NE : ys <> []) by (intros ->; change (len (@nil Q)) with 0 in N; lia).
  destruct (statistics_none ys res 0 NE) as (p & F & E). rewrite ceil_0 in E. exists p. split; [exact F|].
  destruct (pieces_split ys p 0 ltac:(lia)) as (S & B & (H1 & H2 & _) & _ & HS & HB).
  destruct F as [F _]. specialize (HS eq_refl F). specialize (HB eq_refl F N). subst S. rewrite <- (background_around ys p F).
  unfold sig_of. rewrite E. cbn [bind]. unfold significance, peak_max. rewrite H1, H2. destruct B as [|b B]; [congruence|]. reflexivity.
Qed.
(** ** Pairs at different lags are different pairs *)
Definition total (f : Z -> Z) (ps : list Z) : Z := fold_right (fun g s => f g + s) 0 ps.
Lemma total_cons f g ps : total f (g :: ps) = f g + total f ps. Proof. reflexivity. Qed.
Lemma total_plus f g h ps : (forall i, f i = g i + h i) -> total f ps = total g ps + total h ps.
Proof. intros E. induction ps as [|i ps IH]; [reflexivity|]. rewrite !total_cons, IH, E. lia. Qed.
Lemma total_one x ps : NoDup ps -> total (fun g => if x =? g then 1 else 0) ps <= 1 /\ (~ In x ps -> total (fun g => if x =? g then 1 else 0) ps = 0).
Proof.
  intros ND. induction ND as [|g ps NI ND [IH1 IH2]]; [split; [discriminate|reflexivity]|]. rewrite total_cons. destruct (x =? g) eqn:E.
  - apply Z.eqb_eq in E. subst g. rewrite (IH2 NI). split; [lia|]. intros X. destruct X. now left.
  - split; [lia|]. intros X. rewrite IH2; [lia|]. intros I. apply X. now right.
Qed.
Lemma total_le {X} (h : X -> Z) (l : list X) ps : NoDup ps -> total (fun g => len (filter (fun c => h c =? g) l)) ps <= len l.
Proof.
  intros ND. induction l as [|c l IH]; [clear; induction ps as [|g ps IH]; [reflexivity|]; rewrite total_cons; exact IH|].
  rewrite len_cons, (total_plus _ (fun g => if h c =? g then 1 else 0) (fun g => len (filter (fun c => h c =? g) l))).
  - pose proof (proj1 (total_one (h c) ps ND)). lia.
  - intros g. cbn [filter]. destruct (h c =? g); rewrite ?len_cons; lia.
Qed.
Lemma total_zero f ps : (forall g, In g ps -> 0 <= f g) -> total f ps < len ps -> exists g, In g ps /\ f g = 0.
Proof.
  induction ps as [|g ps IH]; intros N H; [change (len (@nil Z)) with 0 in H; cbn [total fold_right] in H; lia|]. cbn [total fold_right] in H. fold (total f ps) in H. rewrite len_cons in H.
  pose proof (N g (or_introl eq_refl)). destruct (Z.eq_dec (f g) 0) as [E|E]; [exists g; split; [now left|exact E]|]. destruct IH as (i & I & Z0); [intros i I; apply N; now right|lia|]. exists i. split; [now right|exact Z0].
Qed.
Lemma sum_total e n q A B ys ps : tallied 1 e n q 1 A B ys -> Forall (fun i => 0 <= i < len ys) ps -> (qsum (at_positions ys ps) <= inject_Z (total (pairs n q 1 A B) ps) + inject_Z (len ps) * e)%Q.
Proof.
  intros [L C] FA. induction FA as [|g ps G FA IH]; [change (len (@nil Z)) with 0; cbn [at_positions map qsum fold_right total]; change (inject_Z 0) with 0%Q; lra|].
  cbn [at_positions map]. rewrite qsum_cons, len_cons. cbn [total fold_right]. fold (total (pairs n q 1 A B) ps). rewrite !inject_Z_plus. fold (at_positions ys ps). specialize (C g G). cbv zeta in C. change (inject_Z 1) with 1%Q in *. lra.
Qed.
Lemma len_prod {X Y} (a : list X) (b : list Y) : len (list_prod a b) = len a * len b.
Proof. unfold len. rewrite prod_length. lia. Qed.

Section Prominent.
Variables (e : Q) (M : fpu) (p : Z) (P : params) (A B : list Q) (res D F j0 j W T a b : Q).
Hypotheses (RT : rt M = fl p) (RS : rs M = fl 53) (AC : accurate_to e (num_bins P) (len A) (len B) M) (E0 : (0 <= e)%Q) (PP : 54 <= p) (NB : 0 < num_bins P) (EV : Z.odd (num_bins P) = false) (TR : (0 < target_resolution P)%Q) (R0 : (0 < res)%Q)
  (SP : (0 < separation_duration P)%Q) (J0 : (0 <= j0)%Q) (W0 : (0 <= W)%Q) (ST : (separation_duration P <= T)%Q) (TT : forall t, In t A \/ In t B -> (Qabs t <= T)%Q) (FZ : fair_zs (num_bins P) M).
Let last := qmin a b.
Let dur := rs M (rs M (inject_Z (num_wraps P) * res) * inject_Z (num_bins P))%Q.
Let s0 := mkS B res 0 1 true.
Let del := rounding T D.
Hypothesis STAGE : forall ws q, widths P res ws q ->
    let w := used_duration M P last dur q in
    (w <= W)%Q /\ (j0 + inject_Z (len ws + 1) * rounding T D <= j)%Q /\
    (off_by P D F j W ws + q + (2049 # 2048) * j <= inject_Z (num_bins P) * q / 2)%Q /\ (off_by P D F j W ws + wider U53 (num_bins P) j q <= 100000000)%Q /\
    (Qabs F + freq_known P F j W (q :: ws) + U53 < 1 # 8192)%Q /\
    outnumbered e P A B D F j0 j W ws q w 0 /\ outnumbered e P A B D F j0 j W ws q w (separation_duration P).
Let w := used_duration M P last dur res.
Let n := inject_Z (num_bins P).
Let C := (n * res)%Q.
Let m := off_by P D F j W [].
Let d := blur P D F j W [].
Let x := (m + 3 * res + 3 * j)%Q.
Let s := Qmax (threshold P) (1 # 1000).
Let t := ((1001 # 1000) * s + (1 # 1000))%Q.
Let N := inject_Z (present A w (rounding T D) * present B w (rounding T D)).
Hypotheses (E4 : (e <= 1 # 4)%Q) (NN : (2 * N < n)%Q) (ENOUGH : (inject_Z (Qfloor (2 * d / res) + 3) * ((1 + t * t) * (2 * N / n + 2 * e)) <= inject_Z (commons A B D F j0 0 w m))%Q)
  (PAIR1 : pair_between A B w (rounding T D) C x (C / 2 - 2 * res - j)) (PAIR2 : pair_between A B w (rounding T D) C (C / 2 + 2 * res + j) (C - x)).
Lemma start_good : good_state P B res D F j W T s0 [].
Proof.
  split; [constructor|]. split.
  - split; [vm_compute; discriminate|]. cbn [map freq_error time_error s0 f dt]. split; [apply Qle_lteq; right; apply Qabs_wd; ring|].
    assert (E : (Qabs (D - 0) == Qabs D)%Q) by (apply Qabs_wd; ring). rewrite E. change (Qabs 0) with 0%Q. unfold U53. change (1 # 2 ^ 53)%Q with (1 # 9007199254740992)%Q. lra.
  - cbn [s0 dt f bts]. change (inject_Z (len [])) with 0%Q. clear. induction B as [|t l IH]; constructor; [|exact IH]. setoid_replace (0 + 1 * t - t)%Q with 0%Q by ring. change (Qabs 0) with 0%Q. lra.
Qed.
Lemma near0 v : (Qabs v <= T)%Q -> (Qabs (rt M (v - 0) - v) <= del * (1 # 8))%Q.
Proof.
  intros H. assert (H' : (Qabs (v - 0) <= T)%Q) by (rewrite (Qabs_wd (v - 0) v) by ring; exact H). pose proof (fl_close p _ _ PP H') as X. rewrite <- RT in X. apply qabs_both in X. apply qabs_both.
  unfold del, rounding. change (1 # 2 ^ 50)%Q with (1 # 1125899906842624)%Q. pose proof (Qabs_nonneg D). pose proof (Qabs_nonneg v). lra.
Qed.
Lemma seen_present l : (forall v, In v l -> Qabs v <= T)%Q -> len (seen (rt M) 0 w l) <= present l w (rounding T D).
Proof.
  unfold seen, present. induction l as [|v l IH]; intros H; [reflexivity|]. cbn [map filter]. specialize (IH (fun y I => H y (or_intror I))). pose proof (near0 v (H v (or_introl eq_refl))) as X.
  fold (in_window w (rt M (v - 0))). destruct (in_window w (rt M (v - 0))) eqn:E.
  - apply in_window_iff in E. replace (time_in 0 w (rounding T D) v) with true; [rewrite !len_cons; lia|]. symmetry. apply inside. fold del. apply qabs_both in X. lra.
  - destruct (time_in 0 w (rounding T D) v); rewrite ?len_cons; lia.
Qed.
Lemma in_seen l v : In v l -> (Qabs v <= T)%Q -> time_in 0 w (- rounding T D) v = true -> In (rt M (v - 0)) (seen (rt M) 0 w l).
Proof.
  intros I H E. apply inside in E. fold del in E. pose proof (near0 v H) as X. apply qabs_both in X. unfold seen. apply filter_In. split; [now apply (in_map (fun t => rt M (t - 0)%Q))|]. fold (in_window w (rt M (v - 0))). apply in_window_iff.
  assert (0 < del)%Q; [|lra]. apply (proj1 (del_pos P D T SP ST)).
Qed.
Lemma peak_place ys c : correlate M P A B 0 w res = Ok ys -> first_peak ys c -> 0 <= c < num_bins P /\ ((inject_Z c * res <= m + (2049 # 2048) * j + res)%Q \/ ((n - inject_Z c) * res <= m + (2049 # 2048) * j + res)%Q).
Proof.
  intros H FP. pose proof start_good as G. destruct (stage_facts e M P A B res D F j0 j W T a b NB TR R0 SP J0 W0 ST STAGE s0 [] G) as (H1 & H2 & H3 & H4 & H5 & H6 & H7 & H8 & H9 & H10 & H11 & H12 & H13).
  pose proof (state_clear e M p P A B res D F j0 j W T a b RT PP NB TR R0 SP J0 W0 ST TT STAGE s0 [] G) as (_ & _ & CL & _). cbn [s0 resolution bts dt f] in CL. change (2 ^ 0) with 1 in CL. change (qpower _ (Z.to_nat 0)) with 1%Q in CL.
  change (used_duration M P _ _ res) with w in CL. destruct (correlate_tallied e M P A B 0 w res ys AC R0 H) as [_ TL].
  assert (TD : forall x y, {coincident D F j 0 1 0 x y} + {~ coincident D F j 0 1 0 x y}).
  { intros x1 y1. unfold coincident. match goal with |- {(?u <= ?v)%Q} + {_} => destruct (Qlt_le_dec v u) as [X|X]; [right; intros Y; apply (Qlt_not_le _ _ X Y)|left; exact X] end. }
  destruct (peak_coincidence 1 e _ res 1 _ _ ys _ c TD ltac:(lia) TL CL FP) as (x1 & y1 & IX & IY & CO & LG).
  apply seen_bounds in IX. assert (WW : (w <= W)%Q) by (apply (STAGE [] res (widths_0 P res))).
  pose proof (coincident_near2 D F j 0 1 0 x1 y1 ltac:(vm_compute; discriminate) CO) as CN.
  pose proof (remaining_le e M P A B res D F j0 j W T a b NB TR R0 SP J0 W0 ST STAGE s0 [] (0 + x1) G ltac:(apply qabs_both; lra)) as RM. cbn [s0 dt f] in RM. fold m in RM.
  destruct (STAGE [] res (widths_0 P res)) as (_ & _ & S3 & _). fold m n in S3. setoid_replace (n * res / 2)%Q with (n * res * (1 # 2))%Q in S3 by (unfold Qdiv; change (/ 2)%Q with (1 # 2)%Q; ring).
  destruct (lag_cells (num_bins P) res x1 y1 c NB R0 LG) as (k & _ & L1 & L2). rewrite inject_Z_plus, inject_Z_mult in L1, L2. fold n in L1, L2.
  destruct FP as (FP & _). destruct TL as [LE _]. rewrite Z.mul_1_r in LE. rewrite LE in FP. split; [exact FP|].
  assert (BD : (Qabs (y1 - x1) <= m + (2049 # 2048) * j)%Q) by (apply qabs_both in CN, RM; apply qabs_both; lra). apply qabs_both in BD.
  assert (NP : (0 < n)%Q) by (unfold n; rewrite <- (Zlt_Qlt 0); lia). assert (CQ : (0 <= inject_Z c /\ inject_Z c <= n - 1)%Q).
  { split; [rewrite <- (Zle_Qle 0); lia|]. unfold n. change 1%Q with (inject_Z 1). rewrite <- inject_Z_minus, <- Zle_Qle. lia. }
  assert (K1 : - 2 < k). { apply Z.nle_gt. intros X. rewrite Zle_Qle in X. change (inject_Z (-2)) with (- (2))%Q in X.
    assert (Y : (n * inject_Z k <= n * - (2))%Q) by (apply mul_mono; lra). assert (Z1 : ((inject_Z c + n * inject_Z k) * res <= (- n - 1) * res)%Q) by (apply Qmult_le_compat_r; lra). assert (0 < n * res)%Q by (now apply Qmult_lt_0_compat). lra. }
  assert (K2 : k < 1). { apply Z.nle_gt. intros X. rewrite Zle_Qle in X. change (inject_Z 1) with 1%Q in X.
    assert (Y : (n * 1 <= n * inject_Z k)%Q) by (apply mul_mono; lra). assert (Z1 : (n * res <= (inject_Z c + n * inject_Z k) * res)%Q) by (apply Qmult_le_compat_r; lra). assert (0 < n * res)%Q by (now apply Qmult_lt_0_compat). lra. }
  assert (k = 0 \/ k = -1) as [-> | ->] by lia.
  - left. change (inject_Z 0) with 0%Q in *. lra.
  - right. change (inject_Z (-1)) with (- (1))%Q in *. lra.
Qed.
Lemma pair_place lo hi : (2 * res + j <= lo)%Q -> (hi <= C - 2 * res - j)%Q -> pair_between A B w (rounding T D) C lo hi ->
  exists g, 0 <= g < num_bins P /\ 0 < pairs (num_bins P) res 1 (seen (rt M) 0 w A) (seen (rt M) 0 w B) g /\ (lo - res - j <= inject_Z g * res)%Q /\ (inject_Z g * res <= hi + res + j)%Q.
Proof.
  intros LO HI (v1 & v2 & I1 & I2 & T1 & T2 & L & U). pose proof (in_seen A v1 I1 (TT v1 (or_introl I1)) T1) as S1. pose proof (in_seen B v2 I2 (TT v2 (or_intror I2)) T2) as S2.
  pose proof (near0 v1 (TT v1 (or_introl I1))) as N1. pose proof (near0 v2 (TT v2 (or_intror I2))) as N2. apply qabs_both in N1, N2. set (x1 := rt M (v1 - 0)) in *. set (x2 := rt M (v2 - 0)) in *.
  destruct (STAGE [] res (widths_0 P res)) as (_ & JJ & _). change (len [] + 1) with 1 in JJ. change (inject_Z 1) with 1%Q in JJ. fold del in JJ. destruct (del_pos P D T SP ST) as (D0 & _). fold del in D0.
  set (g := lag (num_bins P) res x1 x2). assert (LG : lag (num_bins P) res x1 x2 / 1 = g) by (apply Z.div_1_r). assert (G : 0 <= g < num_bins P) by (unfold g, lag; apply Z.mod_pos_bound; exact NB).
  destruct (lag_cells (num_bins P) res x1 x2 g NB R0 LG) as (k & _ & L1 & L2). rewrite inject_Z_plus, inject_Z_mult in L1, L2. fold n in L1, L2. unfold turn in L, U. set (K := Qfloor ((v2 - v1) / C)) in *.
  assert (NP : (0 < n)%Q) by (unfold n; rewrite <- (Zlt_Qlt 0); lia). assert (CP : (0 < n * res)%Q) by (now apply Qmult_lt_0_compat). assert (GQ : (0 <= inject_Z g /\ inject_Z g <= n - 1)%Q).
  { split; [rewrite <- (Zle_Qle 0); lia|]. unfold n. change 1%Q with (inject_Z 1). rewrite <- inject_Z_minus, <- Zle_Qle. lia. }
  assert (G0 : (0 <= inject_Z g * res)%Q) by (apply Qmult_le_0_compat; lra). assert (G1 : (inject_Z g * res <= (n - 1) * res)%Q) by (apply Qmult_le_compat_r; lra).
  assert (EK : k = K). { unfold C in *. destruct (Z.lt_trichotomy k K) as [X|[X|X]]; [exfalso|exact X|exfalso].
    - assert (X' : (inject_Z k <= inject_Z K - 1)%Q) by (change 1%Q with (inject_Z 1); rewrite <- inject_Z_minus, <- Zle_Qle; lia). assert (n * res * inject_Z k <= n * res * (inject_Z K - 1))%Q by (apply mul_mono; lra). lra.
    - assert (X' : (inject_Z K + 1 <= inject_Z k)%Q) by (change 1%Q with (inject_Z 1); rewrite <- inject_Z_plus, <- Zle_Qle; lia). assert (n * res * (inject_Z K + 1) <= n * res * inject_Z k)%Q by (apply mul_mono; lra). lra. }
  subst k. exists g. split; [exact G|]. split.
  - unfold pairs. assert (IN : In (x1, x2) (filter (fun c => lag (num_bins P) res (fst c) (snd c) / 1 =? g) (list_prod (seen (rt M) 0 w A) (seen (rt M) 0 w B)))).
    { apply filter_In. split; [now apply in_prod|]. cbn [fst snd]. rewrite LG. apply Z.eqb_refl. }
    destruct (filter _ (list_prod _ _)) as [|z l]; [destruct IN|]. rewrite len_cons. pose proof (len_nonneg l). lia.
  - unfold C in *. lra.
Qed.
Lemma enough ys sig : correlate M P A B 0 w res = Ok ys -> sig_of M ys res = Ok sig -> (0 < sig)%Q /\ (threshold P <= sig)%Q.
Proof.
  intros HC HS. destruct (correlate_tallied e M P A B 0 w res ys AC R0 HC) as [_ TL]. pose proof TL as [LE TG]. rewrite Z.mul_1_r in LE.
  assert (N2 : 2 <= num_bins P) by (destruct (Z.eq_dec (num_bins P) 1) as [X|X]; [rewrite X in EV; discriminate|lia]).
  destruct (sig_of_around M ys res ltac:(lia)) as (c & FP & SE). rewrite SE in HS. assert (ES : sig = zs M (nth (Z.to_nat c) ys 0%Q) (at_positions ys (around (len ys) c))) by congruence. subst sig. clear HS SE. rewrite LE in TG |- *.
  destruct (peak_place ys c HC FP) as [CR PL]. destruct (around_facts (num_bins P) c EV CR) as (AL & AN & AF). set (ps := around (num_bins P) c) in *. set (bg := at_positions ys ps) in *.
  assert (LB : len bg = len ps) by (unfold bg, at_positions, len; now rewrite map_length).
  assert (NP : (0 < n)%Q) by (unfold n; rewrite <- (Zlt_Qlt 0); lia). assert (LQ : (inject_Z (len bg) == n * (1 # 2))%Q).
  { rewrite LB. unfold n. rewrite <- AL, inject_Z_mult. change (inject_Z 2) with 2%Q. ring. }
  set (A1 := seen (rt M) 0 w A) in *. set (B1 := seen (rt M) 0 w B) in *. set (cnt := pairs (num_bins P) res 1 A1 B1) in *.
  assert (TG' : forall g, 0 <= g < num_bins P -> (inject_Z (cnt g) - e <= nth (Z.to_nat g) ys 0%Q /\ nth (Z.to_nat g) ys 0%Q <= inject_Z (cnt g) + e)%Q).
  { intros g G. specialize (TG g G). cbv zeta in TG. fold A1 B1 in TG. fold cnt in TG. change (inject_Z 1) with 1%Q in TG. lra. }
  assert (CN : forall g, 0 <= cnt g) by (intros g; apply len_nonneg).
  assert (TN : (inject_Z (total cnt ps) <= N)%Q).
  { unfold N. rewrite <- Zle_Qle. eapply Z.le_trans; [apply (total_le (fun c => lag (num_bins P) res (fst c) (snd c) / 1) (list_prod A1 B1) ps AN)|]. rewrite len_prod.
    apply Z.mul_le_mono_nonneg; try apply len_nonneg; apply seen_present; intros v I; apply TT; auto. }
  assert (FB : Forall (fun i => 0 <= i < len ys) ps). { rewrite LE. apply Forall_forall. intros i I. rewrite Forall_forall in AF. apply AF, I. }
  assert (inP : forall i, In i ps -> In (nth (Z.to_nat i) ys 0%Q) bg) by (intros i I; unfold bg, at_positions; now apply (in_map (fun i => nth (Z.to_nat i) ys 0%Q))).
  assert (JP : (0 <= j)%Q /\ (0 <= m)%Q).
  { destruct (stage_facts e M P A B res D F j0 j W T a b NB TR R0 SP J0 W0 ST STAGE s0 [] start_good) as (H1 & H2 & H3 & H4 & H5 & H6 & H7 & H8 & H9 & H10 & H11 & H12 & H13). split; [exact H11|]. unfold m, off_by. lra. }
  destruct JP as [JP MP]. assert (C2 : (C / 2 == C * (1 # 2))%Q) by (unfold Qdiv; change (/ 2)%Q with (1 # 2)%Q; ring). assert (CP : (0 < C)%Q) by (unfold C; now apply Qmult_lt_0_compat).
  assert (ONE : exists i, In i ps /\ 0 < cnt i).
  { assert (LT : forall u v, (inject_Z u * res < inject_Z v * res)%Q -> u < v) by (intros u v X; apply Qmult_lt_r in X; [now rewrite <- Zlt_Qlt in X|exact R0]).
    destruct PL as [PL|PL].
    - destruct (pair_place x (C / 2 - 2 * res - j) ltac:(unfold x; lra) ltac:(rewrite C2; lra) PAIR1) as (g & G & CG & GL & GU). exists g. split; [|exact CG]. unfold ps, around. apply in_app_iff. right. apply zrange_In.
      assert (c < g) by (apply LT; unfold x in GL; lra). assert (2 * g < num_bins P); [|lia]. apply LT. rewrite inject_Z_mult. change (inject_Z 2) with 2%Q. fold n. fold C. rewrite C2 in GU. lra.
    - destruct (pair_place (C / 2 + 2 * res + j) (C - x) ltac:(rewrite C2; lra) ltac:(unfold x; lra) PAIR2) as (g & G & CG & GL & GU). exists g. split; [|exact CG]. unfold ps, around. apply in_app_iff. left. apply zrange_In.
      assert (g < c) by (apply LT; unfold x, C in GU; lra). assert (num_bins P < 2 * g); [|lia]. apply LT. rewrite inject_Z_mult. change (inject_Z 2) with 2%Q. fold n. fold C. rewrite C2 in GL. lra. }
  destruct ONE as (i1 & I1 & P1). destruct (total_zero cnt ps (fun g _ => CN g)) as (i0 & I0 & Z0).
  { rewrite Zlt_Qlt. rewrite <- LB, LQ. lra. }
  assert (NE : bg <> []) by (intros X; specialize (inP i1 I1); rewrite X in inP; destruct inP).
  assert (R1 : 0 <= i1 < num_bins P) by (rewrite Forall_forall in AF; apply AF, I1). assert (R2 : 0 <= i0 < num_bins P) by (rewrite Forall_forall in AF; apply AF, I0).
  pose proof FP as (_ & F1 & _). rewrite LE in F1.
  assert (HI : ((1 + t * t) * (2 * N / n + 2 * e) <= nth (Z.to_nat c) ys 0%Q + e)%Q).
  { destruct (stage_facts e M P A B res D F j0 j W T a b NB TR R0 SP J0 W0 ST STAGE s0 [] start_good) as (H1 & H2 & H3 & H4 & H5 & H6 & H7 & H8 & H9 & H10 & H11 & H12 & H13). destruct (del_pos P D T SP ST) as (D0 & T0 & DE).
    assert (RD : forall x y, (Qabs x <= y -> Qabs (rt M x - x) <= (1 # 18014398509481984) * y)%Q) by (intros u v; rewrite RT; now apply fl_close).
    assert (WW : (w <= W)%Q) by (apply (STAGE [] res (widths_0 P res))). pose proof start_good as (_ & _ & FA).
    destruct (many (rt M) 0 w W (separation_duration P + W) T D F j0 j 0 1 (freq_known P F j W []) (time_known P D F j W []) (inject_Z (len (@nil Q)) * del) del e res (num_bins P) A B B) as (g0 & G0 & MA); try assumption; try lra; [exact (proj1 (proj2 (proj2 (proj2 (proj2 (proj2 (STAGE [] res (widths_0 P res))))))))|].
    change (mW _ _ _ _) with m in MA. change (dW _ _ _ _ _) with d in MA. fold A1 B1 in MA. fold cnt in MA. rewrite Zle_Qle, inject_Z_mult in MA.
    assert (KP : (0 < inject_Z (Qfloor (2 * d / res) + 3))%Q).
    { rewrite <- (Zlt_Qlt 0). enough (0 <= Qfloor (2 * d / res)) by lia. change 0 with (Qfloor 0) at 1. apply Qfloor_resp_le. apply Qle_shift_div_l; [exact R0|]. unfold d, blur. fold m.
      assert (0 <= freq_known P F j W [] * (W + m))%Q by (apply Qmult_le_0_compat; lra). lra. }
    assert (X : ((1 + t * t) * (2 * N / n + 2 * e) <= inject_Z (cnt g0))%Q). { apply (Qmult_le_l _ _ _ KP). lra. }
    pose proof (TG' g0 G0). specialize (F1 g0 G0). lra. }
  assert (SS : (s <= zs M (nth (Z.to_nat c) ys 0%Q) bg)%Q).
  { assert (LBK : len bg <= num_bins P) by (rewrite Zle_Qle; fold n; lra).
    apply (score_enough (num_bins P) M e bg (nth (Z.to_nat c) ys 0%Q) s (2 * N / n) FZ LBK E0 E4); try assumption.
    - unfold s. pose proof (Q.le_max_r (threshold P) (1 # 1000)). lra.
    - intros y IY. unfold bg, at_positions in IY. apply in_map_iff in IY as (i & <- & II). rewrite Forall_forall in AF. destruct (AF i II) as [RI _]. pose proof (TG' i RI). specialize (F1 i RI).
      assert (0 <= inject_Z (cnt i))%Q by (rewrite <- (Zle_Qle 0); apply CN). split; lra.
    - eapply Qle_trans; [exact (sum_total e _ res A1 B1 ys ps TL FB)|]. fold cnt. rewrite <- LB, LQ. setoid_replace (n * (1 # 2) * (2 * N / n + e))%Q with (N + n * (1 # 2) * e)%Q by (field; lra). lra.
    - apply Qlt_shift_div_r; lra.
    - exists (nth (Z.to_nat i1) ys 0%Q), (nth (Z.to_nat i0) ys 0%Q). split; [now apply inP|]. split; [now apply inP|]. pose proof (TG' i1 R1). pose proof (TG' i0 R2). rewrite Z0 in H0. change (inject_Z 0) with 0%Q in H0.
      assert (inject_Z 1 <= inject_Z (cnt i1))%Q by (rewrite <- Zle_Qle; lia). change (inject_Z 1) with 1%Q in *. lra. }
  unfold s in SS. pose proof (Q.le_max_l (threshold P) (1 # 1000)). pose proof (Q.le_max_r (threshold P) (1 # 1000)). split; lra.
Qed.
End Prominent.
Lemma prominent_significant e M p P A B res D F j0 j W T : rt M = fl p -> rs M = fl 53 -> accurate_to e (num_bins P) (len A) (len B) M -> (0 <= e)%Q -> 54 <= p -> fair_zs (num_bins P) M -> 0 < num_bins P -> Z.odd (num_bins P) = false ->
  (0 < target_resolution P)%Q -> (0 < res)%Q -> (0 < separation_duration P)%Q -> recorded_well e M P A B res D F j0 j W T -> prominent e M P A B res D F j0 j W T -> significant M P A B res.
Proof.
  intros RT RS AC E0 PP FZ NB EV TR R0 SP (J0 & W0 & ST & TT & a & b & GA & GB & STAGE) (a' & b' & GA' & GB' & PR). assert (a' = a) as -> by congruence. assert (b' = b) as -> by congruence. cbv zeta in PR. unfold span in PR. rewrite <- RS in PR.
  destruct PR as (P1 & P2 & P3 & P4 & P5). exists a, b. split; [exact GA|]. split; [exact GB|]. cbv zeta.
  apply (enough e M p P A B res D F j0 j W T a b RT AC E0 PP NB EV TR R0 SP J0 W0 ST TT FZ); try assumption. unfold span in STAGE. rewrite <- RS in STAGE. exact STAGE.
Qed.
Lemma c145 e M p P A B res D F j0 j W T : rt M = fl p -> rs M = fl 53 -> accurate_to e (num_bins P) (len A) (len B) M -> (0 <= e)%Q -> 54 <= p -> good_xc M -> good_zs M -> fair_zs (num_bins P) M -> 0 < num_bins P -> Z.odd (num_bins P) = false ->
  (0 < target_resolution P)%Q -> (0 < res)%Q -> (fl 53 res == res)%Q -> (0 < separation_duration P)%Q -> Forall (device_time 54) B ->
  ends_surely M P res -> recorded_well e M P A B res D F j0 j W T -> prominent e M P A B res D F j0 j W T -> steady P res D F j W ->
  exists n dt df ws, (forall m, (n <= m)%nat -> fpfind m M P A B res [0%Q] false = Ok (dt, df)) /\
    to_the_end P res ws /\ (Qabs (df - F) <= freq_off P F j W ws)%Q /\ (Qabs (dt - D) <= time_off P D F j W ws dt)%Q.
Proof.
  intros RT RS AC E0 PP GX GZ FZ NB EV TR R0 RF SP DV ES RW PR SY. apply (c141 e M p P A B res D F j0 j W T); try assumption. now apply (prominent_significant e M p P A B res D F j0 j W T).
Qed.
