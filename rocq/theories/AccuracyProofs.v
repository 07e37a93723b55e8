From Coq Require Import QArith Qabs Qminmax Lqa Lia.
From Verif Require UtilsProofs.
From Verif Require Import Float Base TimestampsModel UtilsModel FpfindModel FpfindSpec FpfindProofs FpfindProofs2 AccuracySpec.
Local Open Scope Q_scope.

Lemma qabs_both x b : Qabs x <= b <-> - b <= x /\ x <= b.
Proof. apply Qabs_Qle_condition. Qed.
Lemma prod_le x y b w : Qabs x <= b -> Qabs y <= w -> Qabs (x * y) <= b * w.
Proof.
  intros X Y. rewrite Qabs_Qmult. pose proof (Qabs_nonneg x). pose proof (Qabs_nonneg y).
  apply Qle_trans with (b * Qabs y); [now apply Qmult_le_compat_r|]. rewrite !(Qmult_comm b). apply Qmult_le_compat_r; [assumption|lra].
Qed.
(** ** One iteration *)
Lemma improve D F sep W s r d1 d2 c E : 0 < sep -> 0 <= W -> 0 < f s <= c -> Qabs (1 + F - f s) <= E -> genuine D F sep W s r d1 d2 ->
  Qabs (1 + F - f s * (1 + (d2 - d1) / sep)) <= (E * W + 2 * c * r) / sep /\ Qabs (D - (dt s + f s * d1)) <= E * W + c * r.
Proof.
  intros S HW [F0 FC] HE (w1 & w2 & W1 & W2 & R0 & G1 & G2). set (g := f s) in *. set (x := 1 + F - g) in *.
  assert (DL : forall tau, g * delay_left D F s tau == D - dt s + x * tau).
  { intros tau. unfold delay_left, corrected. cbn [fst snd]. fold g. unfold x. field. lra. }
  set (e1 := d1 - delay_left D F s w1) in *. set (e2 := d2 - delay_left D F s (sep + w2)) in *.
  assert (H1 : g * d1 == D - dt s + x * w1 + g * e1). { unfold e1. rewrite <- DL. ring. }
  assert (H2 : g * d2 == D - dt s + x * (sep + w2) + g * e2). { unfold e2. rewrite <- DL. ring. }
  assert (P1 : Qabs (x * (w2 - w1)) <= E * W) by (apply prod_le; [assumption|apply qabs_both; lra]).
  assert (P2 : Qabs (x * w1) <= E * W) by (apply prod_le; [assumption|apply qabs_both; lra]).
  assert (G : Qabs g <= c) by (apply qabs_both; lra).
  assert (P3 : Qabs (g * e1) <= c * r) by now apply prod_le. assert (P4 : Qabs (g * e2) <= c * r) by now apply prod_le.
  apply qabs_both in P1, P2, P3, P4. split.
  - assert (EQ : 1 + F - g * (1 + (d2 - d1) / sep) == - (x * (w2 - w1) + (g * e2 - g * e1)) / sep).
    { assert (N : ~ sep == 0) by lra. assert (A : 1 + F - g * (1 + (d2 - d1) / sep) == (x * sep - (g * d2 - g * d1)) / sep) by (unfold x; field; assumption).
      rewrite A, H1, H2. field. assumption. }
    rewrite EQ. apply qabs_both. split; [apply Qle_shift_div_l|apply Qle_shift_div_r]; try assumption.
    + assert (N : ~ sep == 0) by lra. assert (A : - ((E * W + 2 * c * r) / sep) * sep == - (E * W + 2 * c * r)) by (field; assumption). rewrite A. lra.
    + assert (N : ~ sep == 0) by lra. assert (A : (E * W + 2 * c * r) / sep * sep == E * W + 2 * c * r) by (field; assumption). rewrite A. lra.
  - assert (EQ : D - (dt s + g * d1) == - (x * w1 + g * e1)) by (rewrite H1; ring). rewrite EQ. apply qabs_both. lra.
Qed.
(** ** Rounding *)
Definition small (u : Q) : Prop := 0 <= u <= 1 # 1000000000.
Lemma round_le u M x b : rounds u M -> small u -> Qabs x <= b -> Qabs (rs M x - x) <= u * b.
Proof.
  intros R [U _] X. eapply Qle_trans; [apply R|]. rewrite !(Qmult_comm u). now apply Qmult_le_compat_r.
Qed.
Lemma unround_le u M x b : rounds u M -> small u -> Qabs (rs M x) <= b -> Qabs x <= 2 * b.
Proof.
  intros R [U0 U1] X. specialize (R x). assert (U : u * Qabs x <= (1 # 1000000000) * Qabs x) by (apply Qmult_le_compat_r; [assumption|apply Qabs_nonneg]).
  pose proof (Qabs_triangle_reverse x (rs M x)) as T. rewrite Qabs_Qminus in T. pose proof (Qabs_nonneg x). lra.
Qed.
Lemma freq_rounded u M d1 d2 sep f0 : rounds u M -> small u -> 0 < sep -> Qabs (f0 - 1) <= 1 # 4096 ->
  let f' := rs M (f0 * rs M (1 + rs M (rs M (d2 - d1) / sep))) in
  Qabs (f' - 1) <= 1 # 4096 -> Qabs (f' - f0 * (1 + (d2 - d1) / sep)) <= 3 * u.
Proof.
  intros R U S F0 f' F1. subst f'. set (p := rs M (d2 - d1)) in *. set (df1 := rs M (p / sep)) in *. set (w := 1 + df1) in *. set (g := rs M w) in *.
  set (v := f0 * g) in *. set (f' := rs M v) in *. set (q := (d2 - d1) / sep) in *. pose proof U as [U0 U1].
  apply qabs_both in F0, F1.
  assert (V1 : Qabs v <= 4). { apply Qle_trans with (2 * 2); [|lra]. apply (unround_le u M v 2 R U). fold f'. apply qabs_both. lra. }
  pose proof (round_le u M v 4 R U V1) as V2. fold f' in V2. apply qabs_both in V2.
  assert (V3 : Qabs v <= 101 # 100) by (apply qabs_both; lra).
  pose proof (round_le u M v _ R U V3) as V4. fold f' in V4. apply qabs_both in V4.
  assert (GE : g == v / f0) by (unfold v; field; lra).
  assert (G : (99 # 100) <= g /\ g <= 101 # 100).
  { rewrite GE. split; [apply Qle_shift_div_l|apply Qle_shift_div_r]; lra. }
  assert (W1 : Qabs w <= 3). { apply Qle_trans with (2 * (101 # 100)); [|lra]. apply (unround_le u M w _ R U). fold g. apply qabs_both. lra. }
  pose proof (round_le u M w 3 R U W1) as W2. fold g in W2. apply qabs_both in W2.
  assert (W3 : Qabs w <= 102 # 100) by (apply qabs_both; lra).
  pose proof (round_le u M w _ R U W3) as W4. fold g in W4. apply qabs_both in W4.
  assert (X1 : Qabs (p / sep) <= 5 # 100).
  { apply Qle_trans with (2 * (2 # 100)); [|lra]. apply (unround_le u M _ _ R U). fold df1. apply qabs_both. unfold w in *. lra. }
  pose proof (round_le u M (p / sep) _ R U X1) as X2. fold df1 in X2. apply qabs_both in X2.
  assert (P1 : Qabs p <= (5 # 100) * sep).
  { assert (E : p == p / sep * sep) by (field; lra). rewrite E, Qabs_Qmult, (Qabs_pos sep) by lra. apply Qmult_le_compat_r; [assumption|lra]. }
  pose proof (unround_le u M (d2 - d1) _ R U P1) as P2. pose proof (round_le u M (d2 - d1) _ R U P2) as P3. fold p in P3.
  assert (P4 : Qabs (p / sep - q) <= u * (1 # 10)).
  { assert (E : p / sep - q == (p - (d2 - d1)) / sep) by (unfold q; field; lra). rewrite E. apply qabs_both in P3. apply qabs_both.
    split; [apply Qle_shift_div_l|apply Qle_shift_div_r]; try assumption; lra. }
  apply qabs_both in P4.
  assert (T : Qabs (f0 * (g - (1 + q))) <= (101 # 100) * (u * (12 # 10))) by (apply prod_le; apply qabs_both; unfold w in *; lra).
  apply qabs_both in T. assert (E : f' - f0 * (1 + q) == (f' - v) + f0 * (g - (1 + q))) by (unfold v; ring). rewrite E. apply qabs_both. lra.
Qed.
Lemma time_rounded u M f0 d1 t : rounds u M -> small u -> Qabs (f0 - 1) <= 1 # 4096 -> Qabs d1 <= NTP_MAXDELAY_NS ->
  let x := rs M (t + rs M (f0 * d1)) in Qabs (x - (t + f0 * d1)) <= 2 * u * (Qabs x + 100000000).
Proof.
  intros R U F0 D x. set (z := f0 * d1) in *. set (v := t + rs M z) in *. pose proof U as [U0 U1]. apply qabs_both in F0. unfold NTP_MAXDELAY_NS in D.
  assert (Z1 : Qabs z <= (4097 # 4096) * 100000000) by (apply prod_le; [apply qabs_both; lra|exact D]).
  pose proof (round_le u M z _ R U Z1) as Z2. apply qabs_both in Z2.
  assert (V : Qabs v <= 2 * Qabs x) by (apply (unround_le u M v _ R U); fold x; lra).
  pose proof (round_le u M v _ R U V) as V2. fold x in V2. apply qabs_both in V2.
  assert (N : 0 <= u * Qabs x) by (apply Qmult_le_0_compat; [assumption|apply Qabs_nonneg]).
  unfold v in V2. apply qabs_both. split; lra.
Qed.
(** ** The guard rails *)
Lemma round_down u M x : rounds u M -> small u -> (999999 # 1000000) * Qabs x <= Qabs (rs M x).
Proof.
  intros R [U0 U1]. pose proof (R x) as H. assert (U : u * Qabs x <= (1 # 1000000000) * Qabs x) by (apply Qmult_le_compat_r; [assumption|apply Qabs_nonneg]).
  pose proof (Qabs_triangle_reverse x (rs M x)) as T. rewrite Qabs_Qminus in T. pose proof (Qabs_nonneg x). lra.
Qed.
Lemma round_up u M x : rounds u M -> small u -> Qabs (rs M x) <= (1000001 # 1000000) * Qabs x.
Proof.
  intros R [U0 U1]. pose proof (R x) as H. assert (U : u * Qabs x <= (1 # 1000000000) * Qabs x) by (apply Qmult_le_compat_r; [assumption|apply Qabs_nonneg]).
  pose proof (Qabs_triangle_reverse (rs M x) x) as T. pose proof (Qabs_nonneg x). lra.
Qed.
Lemma qmax_is x y : qmax x y == Qmax x y.
Proof. destruct (qmax_cases x y) as [[-> H]|[-> H]]; symmetry; [now apply Q.max_l|apply Q.max_r; lra]. Qed.
Lemma limit_rounded u M x y : rounds u M -> small u -> 0 < y -> (9999 # 1000) * Qmax x y <= rs M (10 * qmax x y).
Proof.
  intros R U Y. pose proof (Q.le_max_r x y) as Z. pose proof (round_down u M (10 * qmax x y) R U) as H. pose proof (R (10 * qmax x y)) as K. rewrite (qmax_is x y) in H at 1. set (m := Qmax x y) in *.
  assert (E : Qabs (10 * m) == 10 * m) by (apply Qabs_pos; lra). rewrite E in H. assert (E2 : Qabs (10 * qmax x y) == 10 * m) by (rewrite (qmax_is x y); exact E). rewrite E2 in K.
  assert (P : 0 <= rs M (10 * qmax x y)).
  { destruct U as [U0 U1]. assert (u * (10 * m) <= (1 # 1000000000) * (10 * m)) by (apply Qmult_le_compat_r; lra). apply qabs_both in K. rewrite (qmax_is x y) in K at 2. fold m in K. pose proof (qmax_is x y) as Q. fold m in Q. lra. }
  rewrite (Qabs_pos _ P) in H. lra.
Qed.
Lemma guard_spurious u M P s d1 d2 : rounds u M -> small u -> 0 < separation_duration P ->
  let thr_dt := rs M (10 * qmax (Qabs (dt s)) 1) in let thr_df := rs M (10 * qmax (Qabs (rs M (f s - 1))) (rs M (1 # 1000000000))) in let df1 := rs M (rs M (d2 - d1) / separation_duration P) in
  (Qltb thr_dt (Qabs d1) || Qltb thr_dt (Qabs d2) || Qltb thr_df (Qabs df1))%bool = true -> spurious P s d1 d2.
Proof.
  intros R U S thr_dt thr_df df1 H. pose proof (limit_rounded u M (Qabs (dt s)) 1 R U ltac:(lra)) as T1. fold thr_dt in T1. pose proof (Q.le_max_r (Qabs (dt s)) 1) as X1.
  unfold spurious. cbv zeta. apply orb_prop in H as [H|H]; [apply orb_prop in H as [H|H]|].
  - left. apply UtilsProofs.Qltb_lt in H. lra.
  - right. left. apply UtilsProofs.Qltb_lt in H. lra.
  - right. right. apply UtilsProofs.Qltb_lt in H. pose proof (round_down u M (1 # 1000000000) R U) as L1. change (Qabs (1 # 1000000000)) with (1 # 1000000000) in L1.
    assert (P1 : 0 <= rs M (1 # 1000000000)). { pose proof (R (1 # 1000000000)) as K. change (Qabs (1 # 1000000000)) with (1 # 1000000000) in K. destruct U as [U0 U1]. apply qabs_both in K. lra. }
    rewrite (Qabs_pos _ P1) in L1. pose proof (round_down u M (f s - 1) R U) as L2.
    pose proof (limit_rounded u M (Qabs (rs M (f s - 1))) (rs M (1 # 1000000000)) R U ltac:(lra)) as T2. fold thr_df in T2.
    set (q := (d2 - d1) / separation_duration P). assert (Q1 : Qabs df1 <= (1000003 # 1000000) * Qabs q).
    { eapply Qle_trans; [apply (round_up u M _ R U)|]. assert (Y : Qabs (rs M (d2 - d1) / separation_duration P) <= (1000001 # 1000000) * Qabs q); [|pose proof (Qabs_nonneg q); lra].
      assert (Y0 : forall z, Qabs (z / separation_duration P) == Qabs z / separation_duration P).
      { intros z. unfold Qdiv. rewrite Qabs_Qmult. rewrite (Qabs_pos (/ separation_duration P)); [reflexivity|]. apply Qlt_le_weak, Qinv_lt_0_compat, S. }
      unfold q. rewrite !Y0. apply Qle_shift_div_r; [exact S|]. pose proof (round_up u M (d2 - d1) R U) as Z. eapply Qle_trans; [exact Z|]. apply Qle_lteq. right. field. lra. }
    assert (M1 : (999999 # 1000000) * Qmax (Qabs (f s - 1)) (1 # 1000000000) <= Qmax (Qabs (rs M (f s - 1))) (rs M (1 # 1000000000))).
    { pose proof (Q.le_max_l (Qabs (rs M (f s - 1))) (rs M (1 # 1000000000))). pose proof (Q.le_max_r (Qabs (rs M (f s - 1))) (rs M (1 # 1000000000))).
      destruct (Q.max_spec (Qabs (f s - 1)) (1 # 1000000000)) as [[_ E]|[_ E]]; rewrite E; lra. }
    pose proof (Q.le_max_r (Qabs (f s - 1)) (1 # 1000000000)) as M2. lra.
Qed.
(** ** What an iteration does *)
Lemma iteration_cases u M P ats e d s n : rounds u M -> small u -> 0 < separation_duration P -> Qabs (f s - 1) <= 1 # 4096 -> iteration M P ats e d s = Ok n ->
  exists r d1 d2, finds M P ats e d s r d1 d2 /\
  ((n = Return (dt s) (rs M (f s - 1)) /\ is_first s = false /\ spurious P s d1 d2) \/
   exists dt' f', Qabs (dt' - (dt s + f s * d1)) <= 2 * u * (Qabs dt' + 100000000) /\
    Qabs (f' - f s * (1 + (d2 - d1) / separation_duration P)) <= 3 * u /\ Qabs (f' - 1) <= 1 # 4096 /\
    ((n = Return dt' (rs M (f' - 1)) /\ r == target_resolution P) \/ (exists s', n = Again s' /\ dt s' = dt' /\ f s' = f' /\ is_first s' = false))).
Proof.
  intros R U SEP F0. unfold iteration. set (w := used_duration M P e d (resolution s)).
  destruct (correlate M P ats (bts s) 0 w (resolution s)) as [ys|] eqn:C1; cbn [bind]; [|discriminate].
  destruct (delay_of M (num_bins P) ys (resolution s)) as [dt1|] eqn:C2; cbn [bind]; [|discriminate].
  destruct (sig_of M ys (resolution s)) as [sig|] eqn:C3; cbn [bind]; [|discriminate].
  set (cf := if is_first s then confirm (S (length ys)) M P ys (resolution s) dt1 sig else Ok (resolution s, dt1)).
  destruct cf as [[r d1]|] eqn:C4; cbn [bind]; [|discriminate]. subst cf.
  destruct (Qltb NTP_MAXDELAY_NS (Qabs d1)) eqn:LIM; [discriminate|].
  destruct (correlate M P ats (bts s) (separation_duration P) w r) as [ys2|] eqn:C5; cbn [bind]; [|discriminate].
  destruct (delay_of M (num_bins P) ys2 r) as [d2|] eqn:C6; cbn [bind]; [|discriminate].
  intros H. exists r, d1, d2. split; [exists ys, dt1, sig, ys2; unfold w in *; repeat split; assumption|].
  set (df1 := rs M (rs M (d2 - d1) / separation_duration P)) in *.
  destruct (negb (is_first s) && _)%bool eqn:G.
  - left. apply andb_prop in G as [G GS]. injection H as <-. split; [reflexivity|]. split; [now apply negb_true_iff|]. exact (guard_spurious u M P s d1 d2 R U SEP GS).
  - right. set (f' := rs M (f s * rs M (1 + df1))) in *. set (dt' := rs M (dt s + rs M (f s * d1))) in *.
    destruct (Qle_bool MAX_FCORR (Qabs (rs M (f' - 1)))) eqn:L; [discriminate|].
    assert (D1 : Qabs d1 <= NTP_MAXDELAY_NS).
    { unfold Qltb in LIM. apply negb_false_iff, Qle_bool_iff in LIM. exact LIM. }
    assert (LT : Qabs (f' - 1) <= 1 # 4096).
    { apply Qle_trans with (2 * MAX_FCORR); [|vm_compute; discriminate]. apply (unround_le u M _ _ R U).
      destruct (Qlt_le_dec (Qabs (rs M (f' - 1))) MAX_FCORR) as [|X]; [lra|]. apply Qle_bool_iff in X. congruence. }
    exists dt', f'. split; [exact (time_rounded u M (f s) d1 (dt s) R U F0 D1)|]. split; [exact (freq_rounded u M d1 d2 _ (f s) R U SEP F0 LT)|].
    split; [exact LT|]. destruct (Qeq_bool r (target_resolution P)) eqn:T; injection H as <-.
    + left. split; [reflexivity|]. now apply Qeq_bool_iff.
    + right. eexists. split; [reflexivity|]. repeat split.
Qed.
(** ** All iterations *)
Definition invariant (u D F sep W : Q) (s : fstate) (ws : list Q) : Prop :=
  Qabs (f s - 1) <= 1 # 4096 /\ Qabs (1 + F - f s) <= freq_error u F sep W ws /\
  Qabs (D - dt s) <= time_error u F sep W ws D + 2 * u * (Qabs (dt s) + 100000000).
Lemma near_trans a b c e1 e2 : Qabs (a - b) <= e1 -> Qabs (b - c) <= e2 -> Qabs (a - c) <= e1 + e2.
Proof. intros A B. apply qabs_both in A, B. apply qabs_both. lra. Qed.
Lemma invariant_next u D F P W s ws r d1 d2 dt' f' : 0 < separation_duration P -> 0 <= W -> invariant u D F (separation_duration P) W s ws ->
  genuine D F (separation_duration P) W s r d1 d2 -> Qabs (dt' - (dt s + f s * d1)) <= 2 * u * (Qabs dt' + 100000000) ->
  Qabs (f' - f s * (1 + (d2 - d1) / separation_duration P)) <= 3 * u ->
  Qabs (1 + F - f') <= freq_error u F (separation_duration P) W (r :: ws) /\
  Qabs (D - dt') <= time_error u F (separation_duration P) W (r :: ws) D + 2 * u * (Qabs dt' + 100000000).
Proof.
  intros S HW (LT & EF & ET) G HD HF. apply qabs_both in LT.
  destruct (improve D F (separation_duration P) W s r d1 d2 RATIO (freq_error u F (separation_duration P) W ws) S HW) as [A B]; try assumption.
  - unfold RATIO. split; lra.
  - cbn [freq_error time_error]. split; (eapply near_trans; [eassumption|]); rewrite Qabs_Qminus; assumption.
Qed.
Lemma accuracy_iter u M P ats e d s0 D F W : rounds u M -> small u -> 0 < separation_duration P -> 0 <= W ->
  (forall s ws r d1 d2, history M P ats e d s0 s ws -> finds M P ats e d s r d1 d2 -> genuine D F (separation_duration P) W s r d1 d2) ->
  forall fuel s ws x y, history M P ats e d s0 s ws -> invariant u D F (separation_duration P) W s ws -> (is_first s = true \/ ws <> []) ->
  iterate fuel M P ats e d s = Ok (x, y) ->
  exists ws', ended M P ats e d s0 ws' /\ Qabs (y - F) <= freq_error u F (separation_duration P) W ws' + u /\
    Qabs (x - D) <= time_error u F (separation_duration P) W ws' D + 2 * u * (Qabs x + 100000000).
Proof.
  intros R U S HW GEN. induction fuel as [|k IH]; intros s ws x y RE INV NE H; [discriminate|]. cbn [iterate] in H.
  destruct (iteration M P ats e d s) as [n|] eqn:IT; cbn [bind] in H; [|discriminate].
  destruct (iteration_cases u M P ats e d s n R U S (proj1 INV) IT) as (r & d1 & d2 & FI & CA). pose proof (GEN s ws r d1 d2 RE FI) as G.
  assert (OUT : forall f0 E, Qabs (f0 - 1) <= 1 # 4096 -> Qabs (1 + F - f0) <= E -> Qabs (rs M (f0 - 1) - F) <= E + u).
  { intros f0 E A B. assert (C : Qabs (f0 - 1) <= 1) by (eapply Qle_trans; [exact A|vm_compute; discriminate]).
    pose proof (round_le u M _ _ R U C) as C2. apply qabs_both in B, C2. apply qabs_both. lra. }
  destruct CA as [(-> & NF & SPU)|(dt' & f' & HD & HF & LT & [[-> HR]|(s' & -> & <- & <- & NF)])].
  - injection H as <- <-. destruct INV as (LT & EF & ED). exists ws. destruct NE as [NE|NE]; [congruence|].
    split; [eexists; eexists; eexists; split; [exact IT|left; split; [assumption|]; split; [assumption|]; exists r, d1, d2; now split]|]. split; [now apply OUT|]. rewrite Qabs_Qminus. exact ED.
  - injection H as <- <-. destruct (invariant_next u D F P W s ws r d1 d2 dt' f' S HW INV G HD HF) as (A & B).
    exists (r :: ws). split; [eexists; eexists; eexists; split; [exact IT|right; exists r, d1, d2, ws; repeat split; assumption]|].
    split; [now apply OUT|]. rewrite Qabs_Qminus. exact B.
  - destruct (invariant_next u D F P W s ws r d1 d2 (dt s') (f s') S HW INV G HD HF) as (A & B).
    apply (IH s' (r :: ws) x y); [eapply history_S; eassumption| |right; discriminate|exact H].
    split; [exact LT|]. split; assumption.
Qed.
Lemma accuracy u fuel M P ats bts res D F W x y a b : rounds u M -> 0 <= u -> u <= 1 # 2 ^ 50 -> 0 < separation_duration P -> 0 <= W ->
  getitem ats (-1) = Ok a -> getitem bts (-1) = Ok b ->
  let e := qmin a b in let d := rs M (rs M (inject_Z (num_wraps P) * res) * inject_Z (num_bins P)) in let s0 := mkS bts res 0 1 true in
  (forall s ws r d1 d2, history M P ats e d s0 s ws -> finds M P ats e d s r d1 d2 -> genuine D F (separation_duration P) W s r d1 d2) ->
  time_freq fuel M P ats bts res = Ok (x, y) ->
  exists ws, ended M P ats e d s0 ws /\ Qabs (y - F) <= freq_error u F (separation_duration P) W ws + u /\
    Qabs (x - D) <= time_error u F (separation_duration P) W ws D + 2 * u * (Qabs x + 100000000).
Proof.
  intros R U0 U1 S HW A B e d s0 GEN H. unfold time_freq in H. rewrite A, B in H. cbn [bind] in H. fold d in H. fold e in H.
  apply (accuracy_iter u M P ats e d s0 D F W R (conj U0 (Qle_trans u (1 # 2 ^ 50) (1 # 1000000000) U1 ltac:(vm_compute; discriminate))) S HW GEN fuel s0 [] x y); [constructor| |left; reflexivity|exact H].
  split; [vm_compute; discriminate|]. cbn [freq_error time_error s0 f dt]. split; [apply Qle_lteq; right; apply Qabs_wd; ring|].
  assert (E : Qabs (D - 0) == Qabs D) by (apply Qabs_wd; ring). rewrite E. change (Qabs 0) with 0. assert (0 <= u * 100000000) by lra. lra.
Qed.
Lemma rounds_float M : (forall x, rs M x = fl 53 x) -> rounds (1 # 2 ^ 53) M.
Proof. intros H x. rewrite H. exact (fl_err 53 x). Qed.
Lemma rounds_exact M : exact_fpu M -> rounds 0 M.
Proof. intros [_ H] x. rewrite H. assert (E : x - x == 0) by ring. rewrite E. change (Qabs 0) with 0. lra. Qed.
(** ** Closed form *)
Lemma qpower_nonneg x k : 0 <= x -> 0 <= qpower x k.
Proof. intros X. induction k; cbn [qpower]; [lra|now apply Qmult_le_0_compat]. Qed.
Lemma freq_error_limit u F sep W R ws : 0 <= u -> 0 <= W -> W < sep -> Forall (fun r => r <= R) ws -> 0 <= R ->
  freq_error u F sep W ws <= qpower (W / sep) (length ws) * Qabs F + (2 * RATIO * R + 3 * u * sep) / (sep - W).
Proof.
  intros U HW S A R0. set (n := 2 * RATIO * R + 3 * u * sep). set (K := n / (sep - W)). assert (US : 0 <= u * sep) by (apply Qmult_le_0_compat; lra).
  assert (K0 : 0 <= K) by (apply Qle_shift_div_l; unfold n, RATIO; lra).
  assert (KE : K * (sep - W) == n) by (unfold K; field; lra).
  induction A as [|r ws H A IH]; cbn [freq_error length qpower]; [lra|].
  set (q := qpower (W / sep) (length ws)) in *. set (E := freq_error u F sep W ws) in *.
  assert (X : (E * W + 2 * RATIO * r) / sep + 3 * u == (E * W + 2 * RATIO * r + 3 * u * sep) / sep) by (field; lra). rewrite X.
  apply Qle_shift_div_r; [lra|].
  assert (T : (W / sep * q * Qabs F + K) * sep == q * Qabs F * W + K * sep) by (field; lra). rewrite T.
  assert (H0 : E * W <= (q * Qabs F + K) * W) by now apply Qmult_le_compat_r.
  setoid_replace ((q * Qabs F + K) * W) with (q * Qabs F * W + K * W) in H0 by ring.
  setoid_replace (K * (sep - W)) with (K * sep - K * W) in KE by ring. unfold n, RATIO in *. lra.
Qed.
(** ** Deciding it for a run *)
Definition find M P ats e d s : pyres (Q * Q * Q) :=
  let w := used_duration M P e d (resolution s) in
  let* ys := correlate M P ats (bts s) 0 w (resolution s) in
  let* dt1 := delay_of M (num_bins P) ys (resolution s) in
  let* sig := sig_of M ys (resolution s) in
  let* x := (if is_first s then confirm (S (length ys)) M P ys (resolution s) dt1 sig else Ok (resolution s, dt1)) in let '(r, d1) := x in
  let* ys2 := correlate M P ats (bts s) (separation_duration P) w r in
  let* d2 := delay_of M (num_bins P) ys2 r in
  Ok (r, d1, d2).
Lemma finds_find M P ats e d s r d1 d2 : finds M P ats e d s r d1 d2 -> find M P ats e d s = Ok (r, d1, d2).
Proof.
  intros (ys & dt1 & sig & ys2 & A & B & C & D & E & F). unfold find. rewrite A. cbn [bind]. rewrite B. cbn [bind]. rewrite C. cbn [bind].
  rewrite D. cbn [bind]. rewrite E. cbn [bind]. rewrite F. reflexivity.
Qed.
Lemma find_finds M P ats e d s r d1 d2 : find M P ats e d s = Ok (r, d1, d2) -> finds M P ats e d s r d1 d2.
Proof.
  unfold find, finds. cbv zeta. intros H.
  destruct (correlate M P ats (bts s) 0 _ _) as [ys|]; cbn [bind] in H; [|discriminate].
  destruct (delay_of M (num_bins P) ys _) as [dt1|] eqn:E1; cbn [bind] in H; [|discriminate].
  destruct (sig_of M ys _) as [sig|] eqn:E2; cbn [bind] in H; [|discriminate].
  destruct (if is_first s then _ else _) as [[r' d1']|] eqn:E3; cbn [bind] in H; [|discriminate].
  destruct (correlate M P ats (bts s) _ _ r') as [ys2|] eqn:E4; cbn [bind] in H; [|discriminate].
  destruct (delay_of M (num_bins P) ys2 r') as [d2'|] eqn:E5; cbn [bind] in H; [|discriminate]. injection H as -> -> ->.
  exists ys, dt1, sig, ys2. repeat split; assumption.
Qed.
