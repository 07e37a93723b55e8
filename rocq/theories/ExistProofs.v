From Coq Require Import QArith Qabs Lqa.
From Coq Require Import ZifyBool.
From Verif Require Import Float Base TimestampsModel TimestampsSpec UtilsModel UtilsSpec UtilsProofs UtilsProofs2 FpfindModel FpfindSpec FpfindProofs FpfindProofs2 FpfindProofs3 FpfindProofs4 FpfindPipe MainModel MainProofs MainProofs2 MainProofs3 MainSpec2
  MainProofs4 PipeSpec PipeProofs AccuracySpec AccuracyProofs PairSpec SignalSpec RoundedSpec RoundedProofs WholeSpec WholeProofs SwapSpec SwapProofs ExistSpec.
Local Open Scope Z_scope.

Lemma stands_some c e n res m A B T : (1 <= c)%Q -> (0 <= e)%Q -> 0 < m -> stands c e n res m A B T -> A <> [] /\ B <> [].
Proof.
  intros C E M0 (g0 & G0 & S). assert (N : ~ (A = [] \/ B = [])); [|split; intros ->; apply N; tauto]. intros X.
  assert (Z0 : list_prod A B = []). { destruct X as [-> | ->]; [reflexivity|]. clear. induction A as [|a A IH]; [reflexivity|]. cbn [list_prod map app]. exact IH. }
  assert (H : (c * (inject_Z (pairs n res m A B g0) + e * inject_Z m) < (2 - c) * inject_Z (pairs n res m A B g0) - c * (e * inject_Z m))%Q).
  { apply S; [exact G0|]. intros a b Ia Ib _. exfalso. destruct X as [-> | ->]; easy. }
  unfold pairs in H. rewrite Z0 in H. change (inject_Z (len (filter _ []))) with 0%Q in H.
  assert (0 <= c * (e * inject_Z m))%Q; [|lra]. apply Qmult_le_0_compat; [lra|]. apply Qmult_le_0_compat; [exact E|]. rewrite <- (Zle_Qle 0). lia.
Qed.
Lemma seen_in rt s w ts : seen rt s w ts <> [] -> filter (fun t => Qle_bool 0 t) (map (fun t => rt (t - s)%Q) ts) <> [].
Proof.
  unfold seen. induction (map _ ts) as [|t l IH]; [easy|]. cbn [filter]. destruct (Qle_bool 0 t); cbn [andb]; [discriminate|exact IH].
Qed.
Lemma slice_ok rt ts s d : seen rt s d ts <> [] -> slice_timestamps rt ts (Some s) (Some d) = Ok (seen rt s d ts).
Proof.
  intros H. destruct (slice_timestamps rt ts (Some s) (Some d)) as [l|] eqn:E; [apply slice_seen in E; now rewrite E|]. exfalso.
  unfold slice_timestamps in E. cbn [bind] in E. destruct (getitem_last_ok _ (seen_in rt s d ts H)) as (x & G). rewrite G in E. discriminate.
Qed.
Lemma correlate_ok M P ats b s w res : 0 < num_bins P -> Z.odd (num_bins P) = false -> (0 < res)%Q -> seen (rt M) s w ats <> [] -> seen (rt M) s w b <> [] ->
  exists ys, correlate M P ats b s w res = Ok ys.
Proof.
  intros N O R HA HB. destruct (correlate M P ats b s w res) as [ys|x] eqn:E; [now exists ys|exfalso]. unfold correlate in E.
  rewrite (slice_ok _ _ _ _ HA), (slice_ok _ _ _ _ HB) in E. cbn [bind] in E.
  assert (HI : forall l, l <> [] -> exists h, histogram l (num_bins P) res = Ok h /\ len h = num_bins P).
  { intros l NL. destruct (histogram l (num_bins P) res) as [h|] eqn:HH.
    - exists h. split; [reflexivity|]. destruct (PairProofs.histogram_hits _ _ _ _ R HH) as (_ & L & _). unfold len. lia.
    - exfalso. unfold histogram in HH. destruct l; [congruence|]. replace (num_bins P <=? 0) with false in HH by lia. replace (Qeq_bool res 0) with false in HH; [discriminate|].
      symmetry. apply not_true_iff_false. intros X. apply Qeq_bool_iff in X. lra. }
  destruct (HI _ HA) as (ha & EA & LA). destruct (HI _ HB) as (hb & EB & LB). rewrite EA, EB in E. cbn [bind] in E. unfold get_xcorr in E. rewrite LA, O in E.
  destruct (num_bins P =? 1) eqn:ON; [apply Z.eqb_eq in ON; rewrite ON in O; discriminate|discriminate].
Qed.
(** rounding keeps a factor near 1 *)
Lemma freq_forward u M d1 d2 sep f0 : rounds u M -> small u -> (0 < sep)%Q -> (Qabs (f0 - 1) <= 1 # 4096)%Q -> (Qabs (f0 * (1 + (d2 - d1) / sep) - 1) <= 1 # 8192)%Q ->
  (Qabs (rs M (f0 * rs M (1 + rs M (rs M (d2 - d1) / sep))) - 1) <= 1 # 4096)%Q.
Proof.
  intros R U S F0 F1. pose proof U as [U0 U1]. set (q := ((d2 - d1) / sep)%Q) in *. apply qabs_both in F0, F1.
  assert (Q1 : (Qabs q <= 1 # 1000)%Q).
  { set (v := (f0 * (1 + q))%Q) in *. assert (E : (1 + q == v / f0)%Q) by (unfold v; field; lra).
    assert ((999 # 1000) <= 1 + q <= 1001 # 1000)%Q by (rewrite E; split; [apply Qle_shift_div_l|apply Qle_shift_div_r]; lra). apply qabs_both. lra. }
  set (p := rs M (d2 - d1)). assert (DE : (d2 - d1 == q * sep)%Q) by (unfold q; field; lra).
  assert (D1 : (Qabs (d2 - d1) <= (1 # 1000) * sep)%Q). { rewrite DE, Qabs_Qmult, (Qabs_pos sep) by lra. apply Qmult_le_compat_r; lra. }
  pose proof (round_le u M _ _ R U D1) as P1. fold p in P1. apply qabs_both in P1. rewrite DE in P1.
  assert (P2 : (Qabs (p / sep - q) <= u * (1 # 1000))%Q).
  { assert (E : (p / sep - q == (p - q * sep) / sep)%Q) by (field; lra). rewrite E. apply qabs_both. split; [apply Qle_shift_div_l|apply Qle_shift_div_r]; lra. }
  apply qabs_both in P2, Q1. set (x := (p / sep)%Q) in *. clearbody x. clear P1 p D1 DE.
  assert (X1 : (Qabs x <= 2 # 1000)%Q) by (apply qabs_both; lra). pose proof (round_le u M x _ R U X1) as X2. set (df := rs M x) in *. apply qabs_both in X2. clearbody df.
  assert (W1 : (Qabs (1 + df) <= 2)%Q) by (apply qabs_both; lra). pose proof (round_le u M _ _ R U W1) as W2. set (g := rs M (1 + df)) in *. apply qabs_both in W2. clearbody g.
  set (y := (f0 * (1 + q))%Q) in *. assert (G1 : (Qabs (g - (1 + q)) <= 4 * u)%Q) by (apply qabs_both; lra).
  assert (V1 : (Qabs (f0 * g - y) <= 2 * (4 * u))%Q). { assert (E : (f0 * g - y == f0 * (g - (1 + q)))%Q) by (unfold y; ring). rewrite E. apply prod_le; [apply qabs_both; lra|exact G1]. }
  apply qabs_both in V1. set (v := (f0 * g)%Q) in *. clearbody v y. assert (V2 : (Qabs v <= 2)%Q) by (apply qabs_both; lra). pose proof (round_le u M v _ R U V2) as V3. apply qabs_both in V3. apply qabs_both. lra.
Qed.
Lemma power_one k q r : (0 < q)%Q -> 0 <= k -> r = q -> (r == q * inject_Z (2 ^ k))%Q -> k = 0.
Proof.
  intros Q0 K -> E. destruct (Z.eq_dec k 0) as [|N]; [assumption|exfalso]. assert (L : 2 <= 2 ^ k) by (change 2 with (2 ^ 1) at 1; apply Z.pow_le_mono_r; lia).
  rewrite Zle_Qle in L. assert (inject_Z 2 * q <= inject_Z (2 ^ k) * q)%Q by (apply Qmult_le_compat_r; lra). change (inject_Z 2) with 2%Q in *. lra.
Qed.
Section Search.
Variables (u e : Q) (M : fpu) (P : params) (A : list Q) (last dur : Q) (s0 : fstate) (D F j W : Q).
Hypotheses (RO : rounds u M) (US : small u) (E0 : (0 <= e)%Q) (AC : accurate_to e (num_bins P) (len A) (len (bts s0)) M) (BV : by_value M) (GX : good_xc M) (NB : 0 < num_bins P) (EV : Z.odd (num_bins P) = false)
  (T0 : (0 < target_resolution P)%Q) (SP : (0 < separation_duration P)%Q) (W0 : (0 <= W)%Q) (J0 : (0 <= j)%Q) (FI0 : is_first s0 = true) (R0 : (0 < resolution s0)%Q) (REP : representable M (resolution s0)).
Hypothesis CL : forall s ws, history M P A last dur s0 s ws -> clear_state u e (rt M) P A D F j W (used_duration M P last dur (resolution s)) s 0.
Hypothesis SG : forall ys sig, correlate M P A (bts s0) 0 (used_duration M P last dur (resolution s0)) (resolution s0) = Ok ys -> sig_of M ys (resolution s0) = Ok sig -> (0 < sig)%Q /\ (threshold P <= sig)%Q.
Lemma finds_singly s ws r d1 d2 : history M P A last dur s0 s ws -> finds M P A last dur s r d1 d2 -> r = resolution s.
Proof.
  intros HI (ys & dt1 & sg & ys2 & E1 & E2 & E3 & E4 & _). destruct (history_facts M P A last dur s0 s ws FI0 R0 T0 HI) as (F1 & R1 & EQ).
  destruct (is_first s); [|congruence]. assert (ws = []) as -> by (destruct ws; [reflexivity|cbn [no_width] in F1; congruence]). rewrite (EQ eq_refl) in *.
  destruct (SG ys sg E1 E3) as [G1 G2]. cbn [confirm] in E4. replace (Qeq_bool sg 0) with false in E4; [|symmetry; apply not_true_iff_false; intros X; apply Qeq_bool_iff in X; lra].
  apply Qle_bool_iff in G2. rewrite G2 in E4. congruence.
Qed.
Lemma clear_met s ws k r d1 d2 : history M P A last dur s0 s ws -> finds M P A last dur s r d1 d2 -> (r == resolution s * inject_Z (2 ^ k))%Q -> 0 <= k ->
  clear_state u e (rt M) P A D F j W (used_duration M P last dur (resolution s)) s k.
Proof.
  intros HI FI E K. rewrite (power_one k _ r (proj1 (proj2 (history_facts M P A last dur s0 s ws FI0 R0 T0 HI))) K (finds_singly s ws r d1 d2 HI FI) E). now apply CL with ws.
Qed.
Hypothesis WR : forall s ws, history M P A last dur s0 s ws ->
    (forall tau, (0 <= tau <= W)%Q -> (Qabs (remaining D F (dt s) (f s) tau) + wider u (num_bins P) j (resolution s) <= 100000000)%Q) /\
    (Qabs F + freq_error u F (separation_duration P) W (map (wider u (num_bins P) j) (resolution s :: ws)) + u < 1 # 8192)%Q.
Lemma iteration_total s ws : history M P A last dur s0 s ws -> invariant u D F (separation_duration P) W s (map (wider u (num_bins P) j) ws) -> exists n, iteration M P A last dur s = Ok n.
Proof.
  intros HI INV. destruct (history_facts M P A last dur s0 s ws FI0 R0 T0 HI) as (F1 & R1 & E1).
  assert (NE : forall l : list Q, len l = num_bins P -> l <> []) by (intros l L ->; change (len (@nil Q)) with 0 in L; lia).
  set (q := resolution s) in *. set (w := used_duration M P last dur q) in *.
  assert (C0 : clear_state u e (rt M) P A D F j W w s 0).
  { exact (CL s ws HI). }
  destruct C0 as (_ & _ & S1 & S2). fold q in S1, S2. change (2 ^ 0) with 1 in S1, S2.
  apply stands_some in S1 as [A1 B1]; [|cbn [Z.to_nat qpower]; lra|exact E0|lia]. apply stands_some in S2 as [A2 B2]; [|lra|exact E0|lia].
  destruct (correlate_ok M P A (bts s) 0 w q NB EV R1 A1 B1) as (ys & C1). destruct (correlate_len _ _ _ _ _ _ _ _ GX C1) as [LY N2].
  destruct (delay_of_ok M ys q (NE ys LY)) as (d1 & D1). rewrite LY in D1.
  destruct (sig_of_ok M ys q ltac:(lia)) as (p & b & bg & _ & _ & HS). set (sig := zs M _ _) in HS.
  assert (CF : (if is_first s then confirm (S (length ys)) M P ys q d1 sig else Ok (q, d1)) = Ok (q, d1)).
  { destruct (is_first s) eqn:FS; [|reflexivity]. assert (ws = []) as -> by (destruct ws; [reflexivity|cbn [no_width] in F1; congruence]). unfold w, q in *. rewrite (E1 eq_refl) in *.
    destruct (SG ys sig C1 HS) as [SG1 SG2]. cbn [confirm]. replace (Qeq_bool sig 0) with false; [|symmetry; apply not_true_iff_false; intros X; apply Qeq_bool_iff in X; lra].
    apply Qle_bool_iff in SG2. now rewrite SG2. }
  destruct (correlate_ok M P A (bts s) (separation_duration P) w q NB EV R1 A2 B2) as (ys2 & C5). destruct (correlate_len _ _ _ _ _ _ _ _ GX C5) as [LY2 _].
  destruct (delay_of_ok M ys2 q (NE ys2 LY2)) as (d2 & D2). rewrite LY2 in D2.
  assert (FI : finds M P A last dur s q d1 d2) by (exists ys, d1, sig, ys2; unfold w, q in *; tauto).
  assert (G : genuine D F (separation_duration P) W s (wider u (num_bins P) j q) d1 d2).
  { apply (finds_genuine u e M P A D F j W last dur s q d1 d2); try assumption; [exact (proj1 US)|now rewrite (history_length M P A last dur s0 s ws HI)|exact (proj1 INV)| |].
    - intros FT. assert (ws = []) as -> by (destruct ws; [reflexivity|cbn [no_width] in F1; congruence]). rewrite (E1 eq_refl). exact REP.
    - intros k K0 _ _ _ K4. exact (clear_met s ws k q d1 d2 HI FI K4 K0). }
  destruct (WR s ws HI) as [WT WF]. fold q in WT, WF.
  assert (LD : (Qabs d1 <= NTP_MAXDELAY_NS)%Q).
  { destruct G as (w1 & _ & H1 & _ & _ & H2 & _). specialize (WT w1 H1).
    assert (DL : (delay_left D F s w1 == remaining D F (dt s) (f s) w1)%Q).
    { unfold delay_left, corrected, remaining. cbn [fst snd]. setoid_replace (1 + (f s - 1))%Q with (f s) by ring. reflexivity. }
    rewrite DL in H2. unfold NTP_MAXDELAY_NS. eapply Qle_trans; [|exact WT].
    assert (T : (Qabs d1 <= Qabs (remaining D F (dt s) (f s) w1) + Qabs (d1 - remaining D F (dt s) (f s) w1))%Q) by (eapply Qle_trans; [|apply Qabs_triangle]; apply Qle_lteq; right; apply Qabs_wd; ring). lra. }
  unfold iteration. fold q. fold w. rewrite C1. cbn [bind]. rewrite D1. cbn [bind]. rewrite HS. cbn [bind]. rewrite CF. cbn [bind].
  replace (Qltb NTP_MAXDELAY_NS (Qabs d1)) with false by (symmetry; unfold Qltb; apply negb_false_iff, Qle_bool_iff, LD).
  rewrite C5. cbn [bind]. rewrite D2. cbn [bind]. cbv zeta.
  destruct (negb (is_first s) && _)%bool; [now eexists|].
  set (f' := rs M (f s * rs M (1 + rs M (rs M (d2 - d1) / separation_duration P)))%Q).
  destruct (invariant_next u D F P W s (map (wider u (num_bins P) j) ws) (wider u (num_bins P) j q) d1 d2 (dt s + f s * d1) (f s * (1 + (d2 - d1) / separation_duration P))%Q SP W0 INV G) as [B3 _].
  { setoid_replace (dt s + f s * d1 - (dt s + f s * d1))%Q with 0%Q by ring. change (Qabs 0) with 0%Q. destruct US as [U0 _]. pose proof (Qabs_nonneg (dt s + f s * d1)). assert (0 <= 2 * u)%Q by lra. apply Qmult_le_0_compat; lra. }
  { setoid_replace (f s * (1 + (d2 - d1) / separation_duration P) - f s * (1 + (d2 - d1) / separation_duration P))%Q with 0%Q by ring. change (Qabs 0) with 0%Q. destruct US. lra. }
  change (wider u (num_bins P) j q :: map (wider u (num_bins P) j) ws) with (map (wider u (num_bins P) j) (q :: ws)) in B3.
  pose proof US as [U0 U1].
  assert (V1 : (Qabs (f s * (1 + (d2 - d1) / separation_duration P) - 1) <= 1 # 8192)%Q).
  { set (v := (f s * (1 + (d2 - d1) / separation_duration P))%Q) in *. assert (T : (Qabs (v - 1) <= Qabs F + Qabs (1 + F - v))%Q).
    { rewrite <- (Qabs_opp (1 + F - v)). eapply Qle_trans; [|apply Qabs_triangle]. apply Qle_lteq. right. apply Qabs_wd. ring. }
    lra. }
  pose proof (freq_forward u M d1 d2 _ (f s) RO US SP (proj1 INV) V1) as F2. fold f' in F2.
  pose proof (freq_rounded u M d1 d2 _ (f s) RO US SP (proj1 INV) F2) as F3. fold f' in F3.
  destruct (invariant_next u D F P W s (map (wider u (num_bins P) j) ws) (wider u (num_bins P) j q) d1 d2 (dt s + f s * d1) f' SP W0 INV G) as [B4 _].
  { setoid_replace (dt s + f s * d1 - (dt s + f s * d1))%Q with 0%Q by ring. change (Qabs 0) with 0%Q. pose proof (Qabs_nonneg (dt s + f s * d1)). assert (0 <= 2 * u)%Q by lra. apply Qmult_le_0_compat; lra. }
  { exact F3. }
  change (wider u (num_bins P) j q :: map (wider u (num_bins P) j) ws) with (map (wider u (num_bins P) j) (q :: ws)) in B4.
  assert (L : Qle_bool MAX_FCORR (Qabs (rs M (f' - 1))) = false).
  { apply not_true_iff_false. intros X. apply Qle_bool_iff in X. unfold MAX_FCORR in X.
    assert (O : (Qabs (f' - 1) <= 1)%Q) by (eapply Qle_trans; [exact F2|vm_compute; discriminate]). pose proof (round_le u M _ _ RO US O) as RD.
    assert (T : (Qabs (f' - 1) <= Qabs F + Qabs (1 + F - f'))%Q).
    { rewrite <- (Qabs_opp (1 + F - f')). eapply Qle_trans; [|apply Qabs_triangle]. apply Qle_lteq. right. apply Qabs_wd. ring. }
    assert (T2 : (Qabs (rs M (f' - 1)) <= Qabs (f' - 1) + Qabs (rs M (f' - 1) - (f' - 1)))%Q) by (eapply Qle_trans; [|apply Qabs_triangle]; apply Qle_lteq; right; apply Qabs_wd; ring).
    lra. }
  rewrite L. destruct (Qeq_bool q (target_resolution P)); now eexists.
Qed.
Lemma iterate_total : forall fuel s ws, history M P A last dur s0 s ws -> invariant u D F (separation_duration P) W s (map (wider u (num_bins P) j) ws) ->
  iterate fuel M P A last dur s = Err OutOfFuel \/ exists x y, iterate fuel M P A last dur s = Ok (x, y).
Proof.
  induction fuel as [|k IH]; intros s ws HI INV; [now left|]. cbn [iterate]. destruct (iteration_total s ws HI INV) as (n & IT). rewrite IT. cbn [bind].
  destruct n as [x y|s']; [right; now exists x, y|].
  destruct (iteration_cases u M P A last dur s _ RO US SP (proj1 INV) IT) as (r & d1 & d2 & FI & [[X _]|(dt' & f' & HD & HF & LT & [[X _]|(s2 & X & <- & <- & _)])]); try discriminate. injection X as <-.
  destruct (history_facts M P A last dur s0 s ws FI0 R0 T0 HI) as (F1 & R1 & E1).
  assert (G : genuine D F (separation_duration P) W s (wider u (num_bins P) j r) d1 d2).
  { apply (finds_genuine u e M P A D F j W last dur s r d1 d2); try assumption; [exact (proj1 US)|now rewrite (history_length M P A last dur s0 s ws HI)|exact (proj1 INV)| |].
    - intros FT. assert (ws = []) as -> by (destruct ws; [reflexivity|cbn [no_width] in F1; congruence]). rewrite (E1 eq_refl). exact REP.
    - intros k0 K0 _ _ _ K4. exact (clear_met s ws k0 r d1 d2 HI FI K4 K0). }
  destruct (invariant_next u D F P W s _ (wider u (num_bins P) j r) d1 d2 (dt s') (f s') SP W0 INV G HD HF) as (B1 & B2).
  apply (IH s' (r :: ws)); [eapply history_S; eassumption|]. split; [exact LT|]. split; assumption.
Qed.
End Search.
Lemma singly_out e M P A B res D F j W : stand_out e M P A B res D F j W -> stand_out_singly e M P A B res D F j W.
Proof.
  intros (a & b & GA & GB & CL). exists a, b. split; [exact GA|]. split; [exact GB|]. cbv zeta in *. intros s ws HI. apply (CL s ws 0 HI).
  split; [lia|]. split; [reflexivity|]. split; [apply Z.mod_1_r|now left].
Qed.
Lemma time_freq_total e M P A B res D F j W : rs M = fl 53 -> accurate_to e (num_bins P) (len A) (len B) M -> (0 <= e)%Q -> good_xc M -> good_zs M -> 0 < num_bins P -> Z.odd (num_bins P) = false ->
  (0 < target_resolution P)%Q -> (0 < res)%Q -> (fl 53 res == res)%Q -> (0 < separation_duration P)%Q -> (0 <= W)%Q -> (0 <= j)%Q ->
  ends_surely M P res -> stand_out_singly e M P A B res D F j W -> within_reach M P A B res D F j W -> significant M P A B res ->
  exists n x y, forall m, (n <= m)%nat -> time_freq m M P A B res = Ok (x, y).
Proof.
  intros RS AC E0 GX GZ NB EV TR R0 RF SP W0 J0 [ES1 ES2] (a & b & GA & GB & CL) (a' & b' & GA' & GB' & WR) (a2 & b2 & GA2 & GB2 & SG).
  assert (a' = a) as -> by congruence. assert (b' = b) as -> by congruence. assert (a2 = a) as -> by congruence. assert (b2 = b) as -> by congruence. cbv zeta in CL, WR, SG.
  assert (RS' : forall v, rs M v = fl 53 v) by (intros v; now rewrite RS). unfold asked in ES1, ES2. rewrite RS in ES1, ES2.
  destruct (c55_float M P A B res RS' GX GZ (or_intror EV) ES1 ES2 TR R0) as (n & r & NR & ALL); [intros ->; discriminate|intros ->; discriminate|].
  set (last := qmin a b) in *. set (dur := rs M (rs M (inject_Z (num_wraps P) * res) * inject_Z (num_bins P))%Q) in *. set (s0 := mkS B res 0 1 true) in *.
  assert (TF : time_freq n M P A B res = iterate n M P A last dur s0) by (unfold time_freq; rewrite GA, GB; reflexivity).
  assert (SM : small U53) by (split; vm_compute; discriminate).
  destruct (iterate_total U53 e M P A last dur s0 D F j W (rounds_float M RS') SM E0 AC (float_by_value 53 M RS') GX NB EV TR SP W0 J0 eq_refl R0 (float_representable 53 M res RS' RF) CL SG WR n s0 []) as [X|(x & y & X)].
  - constructor.
  - split; [vm_compute; discriminate|]. cbn [map freq_error time_error s0 f dt]. split; [apply Qle_lteq; right; apply Qabs_wd; ring|].
    assert (E : (Qabs (D - 0) == Qabs D)%Q) by (apply Qabs_wd; ring). rewrite E. change (Qabs 0) with 0%Q. unfold U53. change (1 # 2 ^ 53)%Q with (1 # 9007199254740992)%Q. lra.
  - exfalso. apply NR. rewrite <- (ALL n (le_n n)), TF. exact X.
  - exists n, x, y. intros m L. rewrite (ALL m L), <- (ALL n (le_n n)), TF. exact X.
Qed.
Lemma scan_finds M p P fuel ats bts res x y : rt M = fl p -> rs M = fl 53 -> 54 <= p -> Forall (device_time 54) bts -> time_freq fuel M P ats bts res = Ok (x, y) ->
  fpfind fuel M P ats bts res [0%Q] false = Ok (fl 53 (0 + fl 53 (1 * x)), fl 53 (fl 53 (1 * fl 53 (1 + y)) - 1))%Q.
Proof.
  intros RT RS PP DV H. unfold fpfind. cbn [scan]. rewrite RS.
  assert (ONE : fl 53 (1 + 0) = 1%Q) by (vm_compute; reflexivity). rewrite ONE.
  set (b' := map _ bts). assert (SB : same_values b' bts).
  { unfold b'. rewrite RT. clear -DV PP. induction DV as [|t bts D DV IH]; cbn [map]; constructor; [|exact IH].
    assert (X : (fl p (t - 0) == t)%Q) by (rewrite (fl_eq p (t - 0) t) by ring; apply (device_exact 54); [lia|exact PP|exact D]).
    rewrite (fl_eq p (fl p (t - 0) / 1) t); [apply (device_exact 54); [lia|exact PP|exact D]|]. rewrite X. field. }
  rewrite (time_freq_same fuel M P ats ats b' bts res); [|intros u v; rewrite RT; apply fl_eq|apply same_refl|exact SB].
  rewrite H. reflexivity.
Qed.
Lemma c111 e M p P A B res D F j W : rt M = fl p -> rs M = fl 53 -> accurate_to e (num_bins P) (len A) (len B) M -> (0 <= e)%Q -> 54 <= p -> good_xc M -> good_zs M -> 0 < num_bins P -> Z.odd (num_bins P) = false ->
  (0 < target_resolution P)%Q -> (0 < res)%Q -> (fl 53 res == res)%Q -> (0 < separation_duration P)%Q -> (0 <= W)%Q -> (0 <= j)%Q -> Forall (device_time 54) B ->
  ends_surely M P res -> stand_out_singly e M P A B res D F j W -> within_reach M P A B res D F j W -> significant M P A B res ->
  exists n dt df ws, (forall m, (n <= m)%nat -> fpfind m M P A B res [0%Q] false = Ok (dt, df)) /\
    cells_of M P A B res ws /\ (Qabs (df - F) <= freq_off P F j W ws)%Q /\ (Qabs (dt - D) <= time_off P D F j W ws dt)%Q.
Proof.
  intros RT RS AC E0 PP GX GZ NB EV TR R0 RF SP W0 J0 DV ES SO WR SG.
  destruct (time_freq_total e M P A B res D F j W RS AC E0 GX GZ NB EV TR R0 RF SP W0 J0 ES SO WR SG) as (n & x & y & ALL).
  assert (FP : forall m, (n <= m)%nat -> fpfind m M P A B res [0%Q] false = Ok (fl 53 (0 + fl 53 (1 * x)), fl 53 (fl 53 (1 * fl 53 (1 + y)) - 1))%Q)
    by (intros m L; now apply (scan_finds M p P m A B res x y RT RS PP DV), ALL).
  set (dt := fl 53 (0 + _)) in FP. set (df := fl 53 (_ - 1)) in FP. clearbody dt df.
  destruct SO as (a & b & GA & GB & CL). destruct SG as (a' & b' & GA' & GB' & SG). assert (a' = a) as -> by congruence. assert (b' = b) as -> by congruence. cbv zeta in CL, SG.
  destruct (found_met e n M p P A B res D F j W a b dt df) as (ws & C & X & Y); try assumption; [|exact (FP n (le_n n))|].
  { intros s ws k r d1 d2 HI FI ER [K0 _]. exact (clear_met U53 e M P A _ _ (mkS B res 0 1 true) D F j W TR eq_refl R0 CL SG s ws k r d1 d2 HI FI ER K0). }
  exists n, dt, df, ws. tauto.
Qed.
Lemma c112 e M p repr o lg evA evB D F j W : rt M = fl p -> rs M = fl 53 -> accurate_to e (2 ^ buffer_order o) (len evA) (len evB) M -> (0 <= e)%Q -> 54 <= p -> good_xc M -> good_zs M -> (forall x, field_ok (repr x)) -> plain_search o -> 0 < buffer_order o ->
  (0 <= W)%Q -> (0 <= j)%Q -> common_events e M o evA evB D F j W -> let A := since (common_start evA evB) evA in let B := since (common_start evA evB) evB in
  ends_surely M (told_search o) (inject_Z (initial_res o)) -> within_reach M (told_search o) A B (inject_Z (initial_res o)) D F j W -> significant M (told_search o) A B (inject_Z (initial_res o)) ->
  exists n line ws dt df, (forall m, (n <= m)%nat -> main_files m M p repr o (encode (A1 lg) (map word_of evA)) (encode (A1 lg) (map word_of evB)) lg 0 = Ok line) /\
    widths_of M o evA evB ws /\ shows_offsets repr (flag o) dt df line /\
    (Qabs (df - F) <= search_freq_error o F j W ws + (1 # 2 ^ 50) * (1 + Qabs F + search_freq_error o F j W ws))%Q /\
    (Qabs (dt - D) <= search_time_error o D F j W ws + (1 # 2 ^ 50) * (Qabs dt + 100000000))%Q.
Proof.
  intros RT RS AC E0 PP GX GZ RP PS BO W0 J0 CE A B ES WR SG. pose proof CE as (OA & OB & NA & NB & a & b & GA & GB & CL). fold A B in CL, GA, GB.
  pose proof PS as (Z0 & FR & Q1 & WR0 & T53 & PC & FS & SP).
  assert (ST : 0 <= common_start evA evB).
  { destruct evA as [|ev evA']; [congruence|]. inv OA. match goal with X : event_ok ev |- _ => destruct X as [E _] end. unfold common_start. cbn [hd]. lia. }
  assert (PT : 0 < num_bins (told_search o)) by (cbn [told_search num_bins]; apply Z.pow_pos_nonneg; lia).
  assert (EV : Z.odd (num_bins (told_search o)) = false).
  { cbn [told_search num_bins]. replace (2 ^ buffer_order o) with (2 * 2 ^ (buffer_order o - 1)) by (rewrite <- Z.pow_succ_r by lia; f_equal; lia). rewrite Z.odd_mul. reflexivity. }
  assert (TR : (0 < target_resolution (told_search o))%Q) by (cbn [told_search target_resolution]; change 0%Q with (inject_Z 0); rewrite <- Zlt_Qlt; lia).
  assert (R0 : (0 < inject_Z (initial_res o))%Q) by (change 0%Q with (inject_Z 0); rewrite <- Zlt_Qlt; lia).
  assert (SO : stand_out_singly e M (told_search o) A B (inject_Z (initial_res o)) D F j W) by (apply singly_out; exists a, b; split; [exact GA|]; split; [exact GB|exact CL]).
  destruct (time_freq_total e M (told_search o) A B (inject_Z (initial_res o)) D F j W RS (accurate_since _ _ _ _ _ _ AC) E0 GX GZ PT EV TR R0 (res_float o PS) SP W0 J0 ES SO WR SG) as (n & x & y & ALL).
  assert (FP : forall m, (n <= m)%nat -> fpfind m M (told_search o) A B (inject_Z (initial_res o)) [0%Q] false = Ok (fl 53 (0 + fl 53 (1 * x)), fl 53 (fl 53 (1 * fl 53 (1 + y)) - 1))%Q)
    by (intros m L; now apply (scan_finds M p _ m A B _ x y RT RS PP (since_device _ _ ST OB)), ALL).
  set (dt := fl 53 (0 + _)) in FP. set (df := fl 53 (_ - 1)) in FP. clearbody dt df.
  assert (MF : forall m, (n <= m)%nat -> main_files m M p repr o (encode (A1 lg) (map word_of evA)) (encode (A1 lg) (map word_of evB)) lg 0 = Ok (output (fl 53) repr (flag o) dt df)).
  { intros m L. rewrite (files_equation m M p repr o lg evA evB a b RT RS PP PS OA OB NA NB GA GB). fold A B. rewrite (FP m L). reflexivity. }
  destruct (c105 e n M p repr o lg evA evB D F j W _ RT RS AC E0 PP RP PS W0 J0 CE (MF n (le_n n))) as (ws & dt' & df' & R1).
  exists n, (output (fl 53) repr (flag o) dt df), ws, dt', df'. split; [exact MF|exact R1].
Qed.
