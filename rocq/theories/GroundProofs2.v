(** The states the search goes through on such recordings. *)
From Coq Require Import QArith Qabs Qround Qminmax Lqa.
From Coq Require Import ZifyBool.
From Verif Require Import Float Base TimestampsModel TimestampsSpec UtilsModel UtilsSpec UtilsProofs FpfindModel FpfindSpec FpfindProofs2 AccuracySpec AccuracyProofs PairSpec PairProofs SignalSpec SignalProofs RoundedSpec RoundedProofs WholeSpec WholeProofs
  SwapSpec ExistSpec ExistProofs PlotProofs GroundSpec GroundProofs.
Import ListNotations. Local Open Scope Z_scope.

Lemma freq_nonneg u F sep W ws : (0 <= u)%Q -> (0 < sep)%Q -> (0 <= W)%Q -> Forall (fun r => 0 <= r)%Q ws -> (0 <= freq_error u F sep W ws)%Q.
Proof.
  intros U S W0 H. induction H as [|r ws R H IH]; cbn [freq_error]; [apply Qabs_nonneg|].
  assert (0 <= freq_error u F sep W ws * W)%Q by (now apply Qmult_le_0_compat). assert (0 <= (freq_error u F sep W ws * W + 2 * RATIO * r) / sep)%Q; [|lra].
  apply Qle_shift_div_l; [exact S|]. unfold RATIO. lra.
Qed.
Lemma widths_pos P res ws q : (0 < res)%Q -> (0 < target_resolution P)%Q -> widths P res ws q -> (0 < q)%Q /\ Forall (fun r => 0 < r)%Q ws.
Proof.
  intros R T H. induction H as [|ws q H [IH1 IH2] N]; [split; [exact R|constructor]|]. split; [|now constructor].
  unfold finer. match goal with |- (0 < qmax ?x ?y)%Q => destruct (qmax_cases x y) as [(-> & L)|(-> & L)] end; lra.
Qed.
Lemma wider_pos u n j r : (0 <= u)%Q -> 0 < n -> (0 <= j)%Q -> (0 <= r)%Q -> (0 <= wider u n j r)%Q.
Proof.
  intros U N J R. unfold wider. assert (0 <= inject_Z n)%Q by (rewrite <- (Zle_Qle 0); lia). assert (0 <= u * inject_Z n)%Q by (now apply Qmult_le_0_compat).
  assert (0 <= r * (1 + u * inject_Z n))%Q by (apply Qmult_le_0_compat; lra). lra.
Qed.
Lemma stands_eq c e n q q' m A B T : (q == q')%Q -> stands c e n q m A B T -> stands c e n q' m A B T.
Proof.
  intros E (g0 & G0 & S). exists g0. split; [exact G0|]. intros g G NG. rewrite <- !(pairs_same n q q' m _ _ _ _ _ E (same_refl _) (same_refl _)). apply S; [exact G|].
  intros a b Ia Ib Tab. rewrite (lag_eq n q q' a a b b E) by reflexivity. now apply NG.
Qed.
Section Ground.
Variables (e : Q) (M : fpu) (p : Z) (P : params) (A B : list Q) (res D F j0 j W T a b : Q).
Hypotheses (RT : rt M = fl p) (RS : rs M = fl 53) (AC : accurate_to e (num_bins P) (len A) (len B) M) (E0 : (0 <= e)%Q) (PP : 54 <= p) (NB : 0 < num_bins P) (TR : (0 < target_resolution P)%Q) (R0 : (0 < res)%Q)
  (RF : (fl 53 res == res)%Q) (SP : (0 < separation_duration P)%Q) (J0 : (0 <= j0)%Q) (W0 : (0 <= W)%Q) (ST : (separation_duration P <= T)%Q) (TT : forall t, In t A \/ In t B -> (Qabs t <= T)%Q).
Let last := qmin a b.
Let dur := rs M (rs M (inject_Z (num_wraps P) * res) * inject_Z (num_bins P))%Q.
Let s0 := mkS B res 0 1 true.
Let del := rounding T D.
Hypothesis STAGE : forall ws q, widths P res ws q ->
    let w := used_duration M P last dur q in
    (w <= W)%Q /\ (j0 + inject_Z (len ws + 1) * rounding T D <= j)%Q /\
    (off_by P D F j W ws + q + (2049 # 2048) * j <= inject_Z (num_bins P) * q / 2)%Q /\ (off_by P D F j W ws + wider U53 (num_bins P) j q <= 100000000)%Q /\
    (Qabs F + freq_known P F j W (q :: ws) + U53 < 1 # 8192)%Q /\
    outnumbered e P A B D F j0 j W ws q w 0 /\ outnumbered e P A B D F j0 j W ws q w (separation_duration P).
Hypothesis SG : forall ys sig, correlate M P A (bts s0) 0 (used_duration M P last dur (resolution s0)) (resolution s0) = Ok ys -> sig_of M ys (resolution s0) = Ok sig -> (0 < sig)%Q /\ (threshold P <= sig)%Q.
Definition good_state (s : fstate) (ws : list Q) : Prop := widths P res ws (resolution s) /\ invariant U53 D F (separation_duration P) W s (map (wider U53 (num_bins P) j) ws) /\
  Forall2 (fun b bs => Qabs (dt s + f s * bs - b) <= inject_Z (len ws) * del)%Q B (bts s).
Lemma del_pos : (0 < del)%Q /\ (0 <= T)%Q /\ (del == (1 # 1125899906842624) * (T + Qabs D + 400000000))%Q.
Proof. pose proof (Qabs_nonneg D). unfold del, rounding. change (1 # 2 ^ 50)%Q with (1 # 1125899906842624)%Q. repeat split; lra. Qed.
Lemma stage_facts s ws : good_state s ws -> let q := resolution s in let fe := freq_known P F j W ws in let te := time_known P D F j W ws in let kap := (inject_Z (len ws) * del)%Q in
  (0 < q)%Q /\ (0 <= fe)%Q /\ (Qabs F <= 1 # 8192)%Q /\ (Qabs (f s - 1) <= 1 # 4096)%Q /\ (Qabs (1 + F - f s) <= fe)%Q /\ (Qabs (D - dt s) <= te)%Q /\ (te <= 100000000)%Q /\ (0 <= kap)%Q /\ (kap <= 100000000)%Q /\
  (j0 + kap + del <= j)%Q /\ (0 <= j)%Q /\ (0 <= te)%Q /\ (0 <= fe * (separation_duration P + W))%Q.
Proof.
  intros (WI & (I1 & I2 & I3) & FA) q fe te kap. destruct (STAGE ws q WI) as (S1 & S2 & S3 & S4 & S5 & _). destruct del_pos as (D0 & T0 & DE). destruct (widths_pos P res ws q R0 TR WI) as [Q0 WP].
  assert (KP : (0 <= kap)%Q) by (apply Qmult_le_0_compat; [|lra]; rewrite <- (Zle_Qle 0); apply len_nonneg).
  assert (JK : (j0 + kap + del <= j)%Q). { rewrite inject_Z_plus in S2. fold del in S2. change (inject_Z 1) with 1%Q in S2. unfold kap. lra. }
  assert (JP : (0 <= j)%Q) by lra. assert (U0 : (0 <= U53)%Q) by discriminate.
  assert (WN : Forall (fun r => 0 <= r)%Q (map (wider U53 (num_bins P) j) ws)).
  { apply Forall_forall. intros x I. apply in_map_iff in I as (r & <- & I). rewrite Forall_forall in WP. apply wider_pos; try assumption. apply Qlt_le_weak, WP, I. }
  assert (FE0 : (0 <= fe)%Q) by (apply freq_nonneg; assumption).
  assert (FF : (Qabs F <= 1 # 8192)%Q).
  { assert (0 <= freq_known P F j W (q :: ws))%Q; [|lra]. apply freq_nonneg; try assumption. cbn [map]. constructor; [apply wider_pos; try assumption; lra|exact WN]. }
  assert (TE : (Qabs (D - dt s) <= te)%Q).
  { unfold te, time_known. set (x := time_error _ _ _ _ _ _) in *. unfold U53 in I3. change (1 # 2 ^ 50)%Q with (1 # 1125899906842624)%Q. change (1 # 2 ^ 52)%Q with (1 # 4503599627370496)%Q. change (1 # 2 ^ 53)%Q with (1 # 9007199254740992)%Q in I3.
    assert (TD : (Qabs (dt s) <= Qabs D + Qabs (D - dt s))%Q).
    { rewrite <- (Qabs_opp (D - dt s)). eapply Qle_trans; [|apply Qabs_triangle]. apply Qle_lteq. right. apply Qabs_wd. ring. }
    pose proof (Qabs_nonneg D). pose proof (Qabs_nonneg (D - dt s)). lra. }
  pose proof (Qabs_nonneg (D - dt s)) as TP. assert (FP : (0 <= fe * (separation_duration P + W))%Q) by (apply Qmult_le_0_compat; lra).
  assert (WQ : (0 <= wider U53 (num_bins P) j q)%Q) by (apply wider_pos; try assumption; lra).
  unfold off_by in S4. fold fe te in S4. repeat split; try assumption; try lra.
Qed.
Lemma remaining_le s ws tau : good_state s ws -> (Qabs tau <= separation_duration P + W)%Q -> (Qabs (remaining D F (dt s) (f s) tau) <= off_by P D F j W ws)%Q.
Proof.
  intros G TA. destruct (stage_facts s ws G) as (H1 & H2 & H3 & H4 & H5 & H6 & H7 & H8 & H9 & H10 & H11 & H12 & H13). unfold off_by.
  set (fe := freq_known P F j W ws) in *. set (te := time_known P D F j W ws) in *.
  assert (X : (Qabs (f s * remaining D F (dt s) (f s) tau) <= te + fe * (separation_duration P + W))%Q).
  { assert (NZ : ~ (f s == 0)%Q) by (apply qabs_both in H4; lra). setoid_replace (f s * remaining D F (dt s) (f s) tau)%Q with ((D - dt s) + (1 + F - f s) * tau)%Q by (unfold remaining; field; exact NZ).
    pose proof (prod_le _ _ _ _ H5 TA) as X. apply qabs_both in H6, X. apply qabs_both. lra. }
  pose proof (over_near1 _ _ _ H4 X). lra.
Qed.
Lemma state_clear s ws : good_state s ws -> clear_state U53 e (rt M) P A D F j W (used_duration M P last dur (resolution s)) s 0.
Proof.
  intros G. pose proof G as (WI & INV & FA). destruct (STAGE ws _ WI) as (S1 & S2 & S3 & S4 & S5 & O1 & O2). destruct del_pos as (D0 & T0 & DE).
  destruct (stage_facts s ws G) as (H1 & H2 & H3 & H4 & H5 & H6 & H7 & H8 & H9 & H10 & H11 & H12 & H13).
  set (q := resolution s) in *. set (w := used_duration M P last dur q) in *. unfold clear_state. cbv zeta. fold q. change (2 ^ 0) with 1. change (inject_Z 1) with 1%Q.
  assert (RD : forall x y, (Qabs x <= y -> Qabs (rt M x - x) <= (1 # 18014398509481984) * y)%Q) by (intros x y; rewrite RT; now apply fl_close).
  assert (GO : forall st, (0 <= st)%Q -> (st <= separation_duration P)%Q -> outnumbered e P A B D F j0 j W ws q w st -> stands 1 e (num_bins P) q 1 (seen (rt M) st w A) (seen (rt M) st w (bts s)) (coincident D F j (dt s) (f s) st)).
  { intros st Z0 Z1 O. apply (window_stands (rt M) st w W (separation_duration P + W) T D F j0 j (dt s) (f s) (freq_known P F j W ws) (time_known P D F j W ws) (inject_Z (len ws) * del) del e q (num_bins P) A B (bts s)); try assumption; lra. }
  split; [|split; [exact S1|split]].
  - intros tau TA. pose proof (remaining_le s ws tau G) as X. assert (Qabs tau <= separation_duration P + W)%Q by (apply qabs_both; lra). specialize (X H). lra.
  - cbn [Z.to_nat qpower]. apply GO; [lra|lra|exact O1].
  - apply (stands_eq 1 e (num_bins P) q); [ring|]. apply GO; [lra|lra|exact O2].
Qed.
Lemma rs_err x : (Qabs (rs M x - x) <= U53 * Qabs x)%Q.
Proof. rewrite RS. exact (fl_err 53 x). Qed.
Lemma rt_err x : (Qabs (rt M x - x) <= U53 * Qabs x)%Q.
Proof.
  rewrite RT. eapply Qle_trans; [apply (fl_close p x (Qabs x) PP), Qle_refl|]. pose proof (Qabs_nonneg x). unfold U53. change (1 # 2 ^ 53)%Q with (1 # 9007199254740992)%Q. lra.
Qed.
Lemma dur_span : dur = span P res. Proof. unfold dur, span. now rewrite RS. Qed.
Lemma times_step s ws s' d1 g : good_state s ws -> (Qabs d1 <= 100000000)%Q -> (Qabs (f s' - 1) <= 1 # 4096)%Q -> dt s' = rs M (dt s + rs M (f s * d1)) -> f s' = rs M (f s * g) ->
  bts s' = map (fun t => rt M (rt M (t - d1) / g)%Q) (bts s) ->
  Forall2 (fun b bs => Qabs (dt s' + f s' * bs - b) <= inject_Z (len ws + 1) * del)%Q B (bts s').
Proof.
  intros G D1 F1 EDT EF EB. destruct (stage_facts s ws G) as (H1 & H2 & H3 & H4 & H5 & H6 & H7 & H8 & H9 & H10 & H11 & H12 & H13). destruct G as (_ & _ & FA).
  destruct del_pos as (D0 & T0 & DE). rewrite EB, inject_Z_plus. change (inject_Z 1) with 1%Q. set (kap := (inject_Z (len ws) * del)%Q) in *.
  assert (GZ : ~ (g == 0)%Q).
  { intros E. pose proof (rs_err (f s * g)) as X. rewrite <- EF in X. setoid_replace (f s * g)%Q with 0%Q in X by (rewrite E; ring). apply qabs_both in F1. change (U53 * Qabs 0)%Q with (U53 * 0)%Q in X. apply qabs_both in X. lra. }
  assert (X1 : (Qabs (f s * d1) <= 100100000)%Q).
  { assert (Y : (Qabs (f s) <= 4097 # 4096)%Q) by (apply qabs_both in H4; apply qabs_both; lra). pose proof (prod_le _ _ _ _ Y D1). lra. }
  pose proof (rs_err (f s * d1)) as R1. pose proof (rs_err (dt s + rs M (f s * d1))) as R2. rewrite <- EDT in R2. set (v := rs M (f s * d1)) in *.
  assert (DT : (Qabs (dt s) <= Qabs D + 100000000)%Q).
  { apply Qle_trans with (Qabs D + Qabs (D - dt s))%Q; [|lra]. rewrite <- (Qabs_opp (D - dt s)). eapply Qle_trans; [|apply Qabs_triangle]. apply Qle_lteq. right. apply Qabs_wd. ring. }
  assert (UE : (U53 == 1 # 9007199254740992)%Q) by reflexivity. rewrite UE in R1, R2.
  assert (X2 : (Qabs v <= 100200000)%Q).
  { assert (Z : ((1 # 9007199254740992) * Qabs (f s * d1) <= 1)%Q) by lra. pose proof (Qle_trans _ _ _ R1 Z) as R3. apply qabs_both in R3, X1. apply qabs_both. lra. }
  pose proof (Qabs_triangle (dt s) v) as X3. pose proof (Qabs_nonneg D) as X4.
  assert (X5 : (Qabs (v - f s * d1) <= (1 # 9007199254740992) * 100100000)%Q) by lra.
  assert (X6 : (Qabs (dt s' - (dt s + v)) <= (1 # 9007199254740992) * (Qabs D + 200200000))%Q) by lra.
  assert (GO : forall B' l, Forall2 (fun b bs => Qabs (dt s + f s * bs - b) <= kap)%Q B' l -> (forall t, In t B' -> (Qabs t <= T)%Q) ->
    Forall2 (fun b bs => Qabs (dt s' + f s' * bs - b) <= (inject_Z (len ws) + 1) * del)%Q B' (map (fun t => rt M (rt M (t - d1) / g)%Q) l)).
  2: { apply GO; [exact FA|]. intros t I. apply TT. now right. }
  clear FA EB R1 R2. induction 1 as [|t x B' l H FA IH]; intros TB; cbn [map]; constructor; [|apply IH; intros y Y; apply TB; now right].
  setoid_replace ((inject_Z (len ws) + 1) * del)%Q with (kap + del)%Q by (unfold kap; ring). pose proof (TB t (or_introl eq_refl)) as TH. set (x' := rt M (x - d1)). set (y' := rt M (x' / g)).
  pose proof (step_error U53 (f s) g (f s') (x - d1) x' y') as SE. specialize (SE ltac:(discriminate) ltac:(discriminate) GZ). specialize (SE ltac:(rewrite EF; apply rs_err) (rt_err _) (rt_err _)).
  rewrite UE in SE.
  assert (XB : (Qabs (f s * (x - d1)) <= T + Qabs D + 100000000 + 100000000 + 100100000)%Q).
  { assert (FX : (Qabs (f s * x) <= T + (Qabs D + 100000000) + 100000000)%Q) by (apply qabs_both in H, TH, DT; apply qabs_both; lra).
    setoid_replace (f s * (x - d1))%Q with (f s * x - f s * d1)%Q by ring. apply qabs_both in FX, X1. apply qabs_both. lra. }
  assert (SE' : (Qabs (f s' * y' - f s * (x - d1)) <= 4 * (1 # 9007199254740992) * (T + Qabs D + 100000000 + 100000000 + 100100000))%Q) by lra.
  setoid_replace (dt s' + f s' * y' - t)%Q with ((dt s + f s * x - t) + (dt s' - (dt s + v)) + (v - f s * d1) + (f s' * y' - f s * (x - d1)))%Q by ring.
  assert (TH0 : (0 <= T)%Q) by (pose proof (Qabs_nonneg t); lra).
  apply qabs_both in H, X5, X6, SE'. apply qabs_both. lra.
Qed.
Lemma good_genuine s ws r d1 d2 : history M P A last dur s0 s ws -> good_state s ws -> finds M P A last dur s r d1 d2 -> genuine D F (separation_duration P) W s (wider U53 (num_bins P) j r) d1 d2.
Proof.
  intros HI G FI. pose proof G as (WI & INV & FA). pose proof (finds_singly M P A last dur s0 TR eq_refl R0 SG s ws r d1 d2 HI FI) as ER.
  assert (RS' : forall v, rs M v = fl 53 v) by (intros v; now rewrite RS). assert (SM : small U53) by (split; vm_compute; discriminate).
  destruct (history_facts M P A last dur s0 s ws eq_refl R0 TR HI) as (F1 & R1 & E1).
  destruct (stage_facts s ws G) as (H1 & H2 & H3 & H4 & H5 & H6 & H7 & H8 & H9 & H10 & H11 & H12 & H13).
  apply (finds_genuine U53 e M P A D F j W last dur s r d1 d2); try assumption; [exact (rounds_float M RS')|exact (proj1 SM)|now rewrite (history_length M P A last dur s0 s ws HI)|exact (float_by_value 53 M RS')| |].
  - intros FT. assert (ws = []) as -> by (destruct ws; [reflexivity|cbn [no_width] in F1; congruence]). rewrite (E1 eq_refl). exact (float_representable 53 M res RS' RF).
  - intros k K0 _ _ _ K4. rewrite (power_one k _ r R1 K0 ER K4). now apply state_clear with ws.
Qed.
Lemma all_good s ws : history M P A last dur s0 s ws -> good_state s ws.
Proof.
  intros HI. induction HI as [|s ws r d1 d2 s' HI IH FI IT].
  - split; [constructor|]. split.
    + split; [vm_compute; discriminate|]. cbn [map freq_error time_error s0 f dt]. split; [apply Qle_lteq; right; apply Qabs_wd; ring|].
      assert (E : (Qabs (D - 0) == Qabs D)%Q) by (apply Qabs_wd; ring). rewrite E. change (Qabs 0) with 0%Q. unfold U53. change (1 # 2 ^ 53)%Q with (1 # 9007199254740992)%Q. lra.
    + cbn [s0 dt f bts]. change (inject_Z (len [])) with 0%Q. clear. induction B as [|t l IH]; constructor; [|exact IH]. setoid_replace (0 + 1 * t - t)%Q with 0%Q by ring. change (Qabs 0) with 0%Q. lra.
  - destruct IH as (WI & INV & FA). pose proof (conj WI (conj INV FA)) as G. fold (good_state s ws) in G.
    pose proof (finds_singly M P A last dur s0 TR eq_refl R0 SG s ws r d1 d2 HI FI) as ER.
    assert (RS' : forall v, rs M v = fl 53 v) by (intros v; now rewrite RS). assert (SM : small U53) by (split; vm_compute; discriminate).
    pose proof (good_genuine s ws r d1 d2 HI G FI) as GE.
    destruct (iteration_cases U53 M P A last dur s _ (rounds_float M RS') SM SP (proj1 INV) IT) as (r' & d1' & d2' & FI' & CA).
    assert (r' = r /\ d1' = d1 /\ d2' = d2) as (-> & -> & ->).
    { destruct FI as (y1 & y2 & y3 & y4 & Y1 & Y2 & Y3 & Y4 & Y5 & Y6). destruct FI' as (z1 & z2 & z3 & z4 & Z1 & Z2 & Z3 & Z4 & Z5 & Z6).
      assert (z1 = y1) by (assert (X : Ok (E := exn) z1 = Ok y1) by (rewrite <- Z1; exact Y1); now injection X). subst z1. assert (z2 = y2) by congruence. assert (z3 = y3) by congruence. subst z2 z3. assert (X : Ok (E := exn) (r', d1') = Ok (r, d1)) by congruence. injection X as -> ->. assert (z4 = y4) by congruence. subst z4.
      assert (X : Ok (E := exn) d2' = Ok d2) by congruence. now injection X as ->. }
    destruct CA as [[X _]|(dt' & f' & HD & HF & LT & [[X _]|(s2 & X & <- & <- & _)])]; try discriminate. injection X as <-.
    destruct (invariant_next U53 D F P W s _ (wider U53 (num_bins P) j r) d1 d2 (dt s') (f s') SP W0 INV GE HD HF) as (B1 & B2).
    destruct (again_state M P A last dur s r d1 d2 s' FI IT) as (A1 & A2 & A3 & A4 & A5 & A6).
    split; [|split].
    + rewrite A6, dur_span, RS, ER. apply widths_S; [exact WI|]. now rewrite <- ER.
    + split; [exact LT|]. split; assumption.
    + rewrite len_cons, Z.add_comm. eapply times_step; eassumption.
Qed.
Lemma all_clear s ws : history M P A last dur s0 s ws -> clear_state U53 e (rt M) P A D F j W (used_duration M P last dur (resolution s)) s 0.
Proof. intros H. apply state_clear with ws. now apply all_good. Qed.
Lemma all_reach s ws : history M P A last dur s0 s ws ->
    (forall tau, (0 <= tau <= W)%Q -> (Qabs (remaining D F (dt s) (f s) tau) + wider U53 (num_bins P) j (resolution s) <= 100000000)%Q) /\
    (Qabs F + freq_error U53 F (separation_duration P) W (map (wider U53 (num_bins P) j) (resolution s :: ws)) + U53 < 1 # 8192)%Q.
Proof.
  intros H. pose proof (all_good s ws H) as G. destruct (STAGE ws _ (proj1 G)) as (S1 & S2 & S3 & S4 & S5 & _). split; [|exact S5].
  intros tau X. assert (Qabs tau <= separation_duration P + W)%Q as Y by (apply qabs_both; lra). pose proof (remaining_le s ws tau G Y). lra.
Qed.
Lemma all_reached ws : ended M P A last dur s0 ws -> reached P res ws.
Proof.
  intros (s & v & df & IT & [(H & N & _)|(r & d1 & d2 & ws' & -> & H & FI & E)]); [left; split; [exact N|]; exists (resolution s); exact (proj1 (all_good s ws H))|].
  right. exists ws', (resolution s). rewrite (finds_singly M P A last dur s0 TR eq_refl R0 SG s ws' r d1 d2 H FI) in E |- *. split; [reflexivity|]. split; [exact (proj1 (all_good s ws' H))|exact E].
Qed.
Hypothesis STEADY : steady P res D F j W.
Lemma not_spurious s ws r d1 d2 : history M P A last dur s0 s ws -> ws <> [] -> finds M P A last dur s r d1 d2 -> ~ spurious P s d1 d2.
Proof.
  intros HI NE FI. pose proof (all_good s ws HI) as G. pose proof (good_genuine s ws r d1 d2 HI G FI) as (w1 & w2 & B1 & B2 & R1 & G1 & G2).
  rewrite (finds_singly M P A last dur s0 TR eq_refl R0 SG s ws r d1 d2 HI FI) in *. set (q := resolution s) in *. destruct (STEADY ws q (proj1 G) NE) as [S1 S2].
  destruct (stage_facts s ws G) as (H1 & H2 & H3 & H4 & H5 & H6 & H7 & H8 & H9 & H10 & H11 & H12 & H13). set (fe := freq_known P F j W ws) in *. set (te := time_known P D F j W ws) in *.
  assert (DL : forall t, (delay_left D F s t == remaining D F (dt s) (f s) t)%Q).
  { intros t. unfold delay_left, corrected, remaining. cbn [fst snd]. setoid_replace (1 + (f s - 1))%Q with (f s) by ring. reflexivity. }
  assert (NZ : ~ (f s == 0)%Q) by (apply qabs_both in H4; lra). rewrite !DL in G1, G2.
  assert (R2 : (Qabs (remaining D F (dt s) (f s) w1) <= off_by P D F j W ws)%Q) by (apply (remaining_le s ws _ G); apply qabs_both; lra).
  assert (R3 : (Qabs (remaining D F (dt s) (f s) (separation_duration P + w2)) <= off_by P D F j W ws)%Q) by (apply (remaining_le s ws _ G); apply qabs_both; lra).
  assert (X1 : (Qmax (Qabs D - te) 1 <= Qmax (Qabs (dt s)) 1)%Q).
  { assert (Qabs D - te <= Qabs (dt s))%Q.
    { assert (T1 : (Qabs D <= Qabs (dt s) + Qabs (D - dt s))%Q) by (eapply Qle_trans; [|apply Qabs_triangle]; apply Qle_lteq; right; apply Qabs_wd; ring). lra. }
    apply Q.max_le_compat_r. exact H. }
  assert (X2 : (Qmax (Qabs F - fe) (1 # 1000000000) <= Qmax (Qabs (f s - 1)) (1 # 1000000000))%Q).
  { assert (Qabs F - fe <= Qabs (f s - 1))%Q.
    { assert (T1 : (Qabs F <= Qabs (f s - 1) + Qabs (1 + F - f s))%Q) by (eapply Qle_trans; [|apply Qabs_triangle]; apply Qle_lteq; right; apply Qabs_wd; ring). lra. }
    apply Q.max_le_compat_r. exact H. }
  set (wd := wider U53 (num_bins P) j q) in *.
  assert (Y1 : (Qabs d1 <= off_by P D F j W ws + wd)%Q) by (apply qabs_both in R2, G1; apply qabs_both; lra).
  assert (Y2 : (Qabs d2 <= off_by P D F j W ws + wd)%Q) by (apply qabs_both in R3, G2; apply qabs_both; lra).
  assert (Y3 : (Qabs (d2 - d1) <= (1001 # 1000) * fe * (separation_duration P + W) + 2 * wd)%Q).
  { set (x := (remaining D F (dt s) (f s) (separation_duration P + w2) - remaining D F (dt s) (f s) w1)%Q).
    assert (Z : (Qabs x <= (10003 # 10000) * (fe * (separation_duration P + W)))%Q).
    { apply (over_near1 (f s) _ _ H4). setoid_replace (f s * x)%Q with ((1 + F - f s) * (separation_duration P + w2 - w1))%Q by (unfold x, remaining; field; exact NZ).
      apply prod_le; [exact H5|]. apply qabs_both. lra. }
    apply qabs_both in Z, G1, G2. unfold x in Z. apply qabs_both. lra. }
  assert (Y4 : (Qabs ((d2 - d1) / separation_duration P) <= ((1001 # 1000) * fe * (separation_duration P + W) + 2 * wd) / separation_duration P)%Q).
  { apply qabs_both in Y3. apply qabs_both. set (bd := ((1001 # 1000) * fe * (separation_duration P + W) + 2 * wd)%Q) in *.
    split; [|apply Qle_shift_div_r; [exact SP|]; setoid_replace (bd / separation_duration P * separation_duration P)%Q with bd by (field; lra); lra].
    apply Qle_shift_div_l; [exact SP|]. setoid_replace (- (bd / separation_duration P) * separation_duration P)%Q with (- bd)%Q by (field; lra). lra. }
  unfold spurious. cbv zeta. intros [H|[H|H]]; lra.
Qed.
Lemma all_to_the_end ws : ended M P A last dur s0 ws -> to_the_end P res ws.
Proof.
  intros EN. destruct (all_reached ws EN) as [_|R]; [|exact R]. destruct EN as (s & v & df & IT & [(H & N & r & d1 & d2 & FI & S)|(r & d1 & d2 & ws' & -> & H & FI & E)]).
  - destruct (not_spurious s ws r d1 d2 H N FI S).
  - exists ws', (resolution s). rewrite (finds_singly M P A last dur s0 TR eq_refl R0 SG s ws' r d1 d2 H FI) in E |- *. split; [reflexivity|]. split; [exact (proj1 (all_good s ws' H))|exact E].
Qed.
End Ground.
Lemma ground_clear e M p P A B res D F j0 j W T : rt M = fl p -> rs M = fl 53 -> accurate_to e (num_bins P) (len A) (len B) M -> (0 <= e)%Q -> 54 <= p -> 0 < num_bins P -> (0 < target_resolution P)%Q -> (0 < res)%Q ->
  (fl 53 res == res)%Q -> (0 < separation_duration P)%Q -> recorded_well e M P A B res D F j0 j W T -> significant M P A B res ->
  stand_out_singly e M P A B res D F j W /\ within_reach M P A B res D F j W /\ (forall ws, cells_of M P A B res ws -> reached P res ws /\ (steady P res D F j W -> to_the_end P res ws)) /\ (0 <= j)%Q /\ (0 <= W)%Q.
Proof.
  intros RT RS AC E0 PP NB TR R0 RF SP (J0 & W0 & ST & TT & a & b & GA & GB & STAGE) (a' & b' & GA' & GB' & SG). assert (a' = a) as -> by congruence. assert (b' = b) as -> by congruence. cbv zeta in SG.
  assert (STAGE2 : forall ws q, widths P res ws q ->
    let w := used_duration M P (qmin a b) (rs M (rs M (inject_Z (num_wraps P) * res) * inject_Z (num_bins P)))%Q q in
    (w <= W)%Q /\ (j0 + inject_Z (len ws + 1) * rounding T D <= j)%Q /\
    (off_by P D F j W ws + q + (2049 # 2048) * j <= inject_Z (num_bins P) * q / 2)%Q /\ (off_by P D F j W ws + wider U53 (num_bins P) j q <= 100000000)%Q /\
    (Qabs F + freq_known P F j W (q :: ws) + U53 < 1 # 8192)%Q /\
    outnumbered e P A B D F j0 j W ws q w 0 /\ outnumbered e P A B D F j0 j W ws q w (separation_duration P)).
  { intros ws q WI. specialize (STAGE ws q WI). unfold span in STAGE. rewrite <- RS in STAGE. exact STAGE. }
  clear STAGE. assert (JP : (0 <= j)%Q).
  { destruct (STAGE2 [] res (widths_0 P res)) as (_ & X & _). change (len [] + 1) with 1 in X. change (inject_Z 1) with 1%Q in X. unfold rounding in X. change (1 # 2 ^ 50)%Q with (1 # 1125899906842624)%Q in X. pose proof (Qabs_nonneg D). lra. }
  split; [|split; [|split; [|split; assumption]]].
  - exists a, b. split; [exact GA|]. split; [exact GB|]. cbv zeta. intros s ws H. exact (all_clear e M p P A B res D F j0 j W T a b RT RS AC E0 PP NB TR R0 RF SP J0 W0 ST TT STAGE2 SG s ws H).
  - exists a, b. split; [exact GA|]. split; [exact GB|]. cbv zeta. intros s ws H. exact (all_reach e M p P A B res D F j0 j W T a b RT RS AC E0 PP NB TR R0 RF SP J0 W0 ST TT STAGE2 SG s ws H).
  - intros ws (a2 & b2 & GA2 & GB2 & EN). assert (a2 = a) as -> by congruence. assert (b2 = b) as -> by congruence. split; [exact (all_reached e M p P A B res D F j0 j W T a b RT RS AC E0 PP NB TR R0 RF SP J0 W0 ST TT STAGE2 SG ws EN)|].
    intros SY. exact (all_to_the_end e M p P A B res D F j0 j W T a b RT RS AC E0 PP NB TR R0 RF SP J0 W0 ST TT STAGE2 SG SY ws EN).
Qed.
Lemma c139 e M p P A B res D F j0 j W T : rt M = fl p -> rs M = fl 53 -> accurate_to e (num_bins P) (len A) (len B) M -> (0 <= e)%Q -> 54 <= p -> good_xc M -> good_zs M -> 0 < num_bins P -> Z.odd (num_bins P) = false ->
  (0 < target_resolution P)%Q -> (0 < res)%Q -> (fl 53 res == res)%Q -> (0 < separation_duration P)%Q -> Forall (device_time 54) B ->
  ends_surely M P res -> recorded_well e M P A B res D F j0 j W T -> significant M P A B res ->
  exists n dt df ws, (forall m, (n <= m)%nat -> fpfind m M P A B res [0%Q] false = Ok (dt, df)) /\
    reached P res ws /\ (Qabs (df - F) <= freq_off P F j W ws)%Q /\ (Qabs (dt - D) <= time_off P D F j W ws dt)%Q.
Proof.
  intros RT RS AC E0 PP GX GZ NB EV TR R0 RF SP DV ES RW SG. destruct (ground_clear e M p P A B res D F j0 j W T RT RS AC E0 PP NB TR R0 RF SP RW SG) as (SO & WR & CR & JP & W0).
  destruct (c111 e M p P A B res D F j W RT RS AC E0 PP GX GZ NB EV TR R0 RF SP W0 JP DV ES SO WR SG) as (n & dt & df & ws & H1 & H2 & H3 & H4). exists n, dt, df, ws. destruct (CR ws H2). auto.
Qed.
Lemma c141 e M p P A B res D F j0 j W T : rt M = fl p -> rs M = fl 53 -> accurate_to e (num_bins P) (len A) (len B) M -> (0 <= e)%Q -> 54 <= p -> good_xc M -> good_zs M -> 0 < num_bins P -> Z.odd (num_bins P) = false ->
  (0 < target_resolution P)%Q -> (0 < res)%Q -> (fl 53 res == res)%Q -> (0 < separation_duration P)%Q -> Forall (device_time 54) B ->
  ends_surely M P res -> recorded_well e M P A B res D F j0 j W T -> significant M P A B res -> steady P res D F j W ->
  exists n dt df ws, (forall m, (n <= m)%nat -> fpfind m M P A B res [0%Q] false = Ok (dt, df)) /\
    to_the_end P res ws /\ (Qabs (df - F) <= freq_off P F j W ws)%Q /\ (Qabs (dt - D) <= time_off P D F j W ws dt)%Q.
Proof.
  intros RT RS AC E0 PP GX GZ NB EV TR R0 RF SP DV ES RW SG SY. destruct (ground_clear e M p P A B res D F j0 j W T RT RS AC E0 PP NB TR R0 RF SP RW SG) as (SO & WR & CR & JP & W0).
  destruct (c111 e M p P A B res D F j W RT RS AC E0 PP GX GZ NB EV TR R0 RF SP W0 JP DV ES SO WR SG) as (n & dt & df & ws & H1 & H2 & H3 & H4). exists n, dt, df, ws. destruct (CR ws H2). auto.
Qed.
