From Coq Require Import QArith Qabs Qround Qminmax Lqa.
From Coq Require Import ZifyBool.
From Verif Require Import Float Base TimestampsModel TimestampsSpec EpochsModel UtilsModel UtilsSpec UtilsProofs UtilsProofs2 FpfindModel FpfindSpec FpfindProofs FpfindProofs3 MainProofs3 AccuracySpec AccuracyProofs PairSpec PairProofs PairProofs2 SignalSpec.
Local Open Scope Z_scope.

(** ** Equal values *)
Lemma view_same s w B B' : same_values B B' -> same_values (view s w B) (view s w B').
Proof.
  intros SV. unfold view, window. induction SV as [|x y B B' E SV IH]; [constructor|]. cbn [filter].
  replace (Qle_bool s y) with (Qle_bool s x) by (apply Qle_bool_cong; rewrite E; tauto). replace (Qle_bool (s + w) y) with (Qle_bool (s + w) x) by (apply Qle_bool_cong; rewrite E; tauto).
  destruct (Qle_bool s x && negb (Qle_bool (s + w) x)); [|exact IH]. cbn [map]. constructor; [now rewrite E|exact IH].
Qed.
Lemma lag_eq n res res' a a' b b' : (res == res')%Q -> (a == a')%Q -> (b == b')%Q -> lag n res a b = lag n res' a' b'.
Proof. intros R E F. unfold lag. rewrite (Qfloor_comp (b / res) (b' / res')), (Qfloor_comp (a / res) (a' / res')) by (now rewrite ?E, ?F, ?R). reflexivity. Qed.
Lemma pairs_same n res res' m A A' B B' g : (res == res')%Q -> same_values A A' -> same_values B B' -> pairs n res m A B g = pairs n res' m A' B' g.
Proof.
  intros R SA SB. unfold pairs. induction SA as [|a a' A A' E SA IH]; [reflexivity|]. cbn [list_prod]. rewrite !filter_app. autorewrite with lens. rewrite IH. f_equal.
  clear IH. induction SB as [|b b' B B' F SB IH]; [reflexivity|]. cbn [map filter fst snd]. rewrite (lag_eq n res res' a a' b b' R E F).
  destruct (lag n res' a' b' / m =? g); autorewrite with lens; rewrite IH; reflexivity.
Qed.
Lemma frequent_same e n res res' m A A' B B' d : (res == res')%Q -> same_values A A' -> same_values B B' -> frequent e n res m A B d -> frequent e n res' m A' B' d.
Proof.
  intros R SA SB (g & G & MX & FI & D). exists g. split; [exact G|]. split; [|split].
  - intros h H. rewrite <- !(pairs_same n res res' m A A' B B') by assumption. now apply MX.
  - intros h H. rewrite <- !(pairs_same n res res' m A A' B B') by assumption. now apply FI.
  - now rewrite <- R.
Qed.
Lemma same_refl l : same_values l l.
Proof. unfold same_values. induction l; constructor; [reflexivity|assumption]. Qed.
Lemma same_sym a b : same_values a b -> same_values b a.
Proof. unfold same_values. induction 1; constructor; [now symmetry|assumption]. Qed.
Lemma same_trans a b c : same_values a b -> same_values b c -> same_values a c.
Proof. unfold same_values. intros H. revert c. induction H as [|x y a b E H IH]; intros c K; inversion K; subst; constructor; [now rewrite E|now apply IH]. Qed.
Lemma measured_same e P A dur last first res B B' r d1 d2 : same_values B B' -> measured e P A dur last first res B r d1 d2 -> measured e P A dur last first res B' r d1 d2.
Proof.
  intros SB (w & k & WL & K0 & K1 & K2 & ER & MD & F1 & LD & F2). exists w, k. repeat (split; [assumption|]).
  split; [apply (frequent_same e _ res res _ (view 0 w A) (view 0 w A) (view 0 w B)); [reflexivity|apply same_refl|now apply view_same|exact F1]|]. split; [exact LD|].
  apply (frequent_same e _ r r _ (view (separation_duration P) w A) (view (separation_duration P) w A) (view (separation_duration P) w B)); [reflexivity|apply same_refl|now apply view_same|exact F2].
Qed.
(** ** The group of a coincidence *)
Lemma frequent_signal e n res m A B (T : Q -> Q -> Prop) d : (forall a b, {T a b} + {~ T a b}) -> signal e n res m A B T -> frequent e n res m A B d ->
  exists a b, In a A /\ In b B /\ T a b /\ (d == inject_Z (centered (n / m) (lag n res a b / m) * m) * res)%Q.
Proof.
  intros TD (g0 & G0 & S) (g & G & MX & _ & D).
  set (hit := fun c : Q * Q => if TD (fst c) (snd c) then lag n res (fst c) (snd c) / m =? g else false).
  destruct (existsb hit (list_prod A B)) eqn:E.
  - apply existsb_exists in E as ((a & b) & I & H). apply in_prod_iff in I as [IA IB]. unfold hit in H. cbn [fst snd] in H.
    destruct (TD a b) as [Tab|]; [|discriminate]. exists a, b. split; [exact IA|]. split; [exact IB|]. split; [exact Tab|]. replace (lag n res a b / m) with g by lia. exact D.
  - exfalso. assert (N : forall a b, In a A -> In b B -> T a b -> lag n res a b / m <> g).
    { intros a b IA IB Tab L. assert (X : existsb hit (list_prod A B) = true); [|congruence].
      apply existsb_exists. exists (a, b). split; [now apply in_prod|]. unfold hit. cbn [fst snd]. destruct (TD a b); [lia|contradiction]. }
    specialize (S g G N). specialize (MX g0 G0). lra.
Qed.
Lemma inject_Z_minus x y : inject_Z (x - y) = (inject_Z x - inject_Z y)%Q.
Proof. unfold Z.sub. now rewrite inject_Z_plus, inject_Z_opp. Qed.
Lemma floor_bounds x y : (0 < y)%Q -> (inject_Z (Qfloor (x / y)) * y <= x)%Q /\ (x < (inject_Z (Qfloor (x / y)) + 1) * y)%Q.
Proof. intros Y. destruct (quotient_floor x y Y) as [A B]. split; [exact A|]. now rewrite inject_Z_plus in B. Qed.
(** the start of the group is within its width of the difference *)
Lemma lag_near n res m a b x u : 0 < m -> 0 < n / m -> n mod m = 0 -> (0 < res)%Q -> (Qabs (b - a - x) <= u)%Q ->
  (Qabs x + (res * inject_Z m + u) <= inject_Z n * res / 2)%Q ->
  (Qabs (inject_Z (centered (n / m) (lag n res a b / m) * m) * res - x) <= res * inject_Z m + u)%Q.
Proof.
  intros M0 N0 ND R X AL. apply Qabs_Qle_condition in X as [X1 X2]. set (h := n / m) in *. assert (NH : n = m * h) by (unfold h; apply Z_div_exact_2; lia).
  set (L := Qfloor (b / res) - Qfloor (a / res)). assert (G : lag n res a b / m = (L / m) mod h).
  { unfold lag. fold L. rewrite NH, Z.rem_mul_r by lia. rewrite Z.add_comm, Z.mul_comm, Z.div_add_l, (Z.div_small (L mod m)) by (try apply Z.mod_pos_bound; lia). lia. }
  rewrite G. set (g := L / m). pose proof (Z.div_mod L m ltac:(lia)) as DM. fold g in DM. pose proof (Z.mod_pos_bound L m M0) as MB.
  destruct (floor_bounds b res R) as [B1 B2]. destruct (floor_bounds a res R) as [A1 A2].
  assert (M1 : (inject_Z 1 <= inject_Z m)%Q) by (rewrite <- Zle_Qle; lia). change (inject_Z 1) with 1%Q in M1.
  assert (QL : (inject_Z L == inject_Z (Qfloor (b / res)) - inject_Z (Qfloor (a / res)))%Q) by (unfold L; rewrite inject_Z_minus; reflexivity).
  set (fb := inject_Z (Qfloor (b / res))) in *. set (fa := inject_Z (Qfloor (a / res))) in *.
  assert (G1 : (inject_Z (m * g) <= inject_Z L)%Q) by (rewrite <- Zle_Qle; lia). assert (G2 : (inject_Z L <= inject_Z (m * g) + inject_Z m - 1)%Q).
  { change 1%Q with (inject_Z 1). rewrite <- inject_Z_plus, <- inject_Z_minus, <- Zle_Qle. lia. }
  set (mg := inject_Z (m * g)) in *. set (qm := inject_Z m) in *.
  assert (P1 : (mg * res <= inject_Z L * res)%Q) by (apply Qmult_le_compat_r; lra).
  assert (P2 : (inject_Z L * res <= (mg + qm - 1) * res)%Q) by (apply Qmult_le_compat_r; lra).
  assert (P3 : (1 * res <= qm * res)%Q) by (apply Qmult_le_compat_r; lra).
  rewrite QL in P1, P2.
  assert (XL : (mg * res - res - u < x)%Q) by lra. assert (XU : (x < mg * res + qm * res + u)%Q) by lra.
  assert (RG : - h <= 2 * g < h).
  { assert (AX : (- Qabs x <= x)%Q /\ (x <= Qabs x)%Q) by (split; [rewrite <- (Qopp_involutive x) at 2; apply Qopp_le_compat; rewrite <- (Qabs_opp x); apply Qle_Qabs|apply Qle_Qabs]).
    assert (NQ : (inject_Z n == qm * inject_Z h)%Q) by (rewrite NH, inject_Z_mult; reflexivity).
    assert (MG : (mg == qm * inject_Z g)%Q) by (unfold mg; rewrite inject_Z_mult; reflexivity).
    setoid_replace (inject_Z n * res / 2)%Q with (inject_Z n * res * (1 # 2))%Q in AL by (unfold Qdiv; change (/ 2)%Q with (1 # 2)%Q; ring).
    assert (C1 : (mg * res * 2 < inject_Z n * res)%Q) by lra. assert (C2 : (- (inject_Z n * res) < (mg * res) * 2)%Q) by lra.
    assert (QR : (0 < qm * res)%Q) by (apply Qmult_lt_0_compat; lra).
    rewrite NQ, MG in C1, C2. split.
    - apply Z.lt_le_incl. rewrite Zlt_Qlt, inject_Z_opp, inject_Z_mult. apply (Qmult_lt_r _ _ (qm * res)); [exact QR|]. change (inject_Z 2) with 2%Q. lra.
    - rewrite Zlt_Qlt, inject_Z_mult. apply (Qmult_lt_r _ _ (qm * res)); [exact QR|]. change (inject_Z 2) with 2%Q. lra. }
  rewrite centered_mod by exact RG. rewrite (Z.mul_comm g m). fold mg. apply Qabs_Qle_condition. split; lra.
Qed.
Lemma view_bounds s w A a : In a (view s w A) -> (0 <= a)%Q /\ (a < w)%Q.
Proof.
  intros I. unfold view, window in I. apply in_map_iff in I as (t & <- & I). apply filter_In in I as [_ C]. apply andb_true_iff in C as [C1 C2]. apply Qle_bool_iff in C1.
  split; [lra|]. assert (t < s + w)%Q; [|lra]. apply Qnot_le_lt. intros L. apply Qle_bool_iff in L. rewrite L in C2. discriminate.
Qed.
Lemma coincident_near D F j dt f s a b : (Qabs (f - 1) < 1 # 8192)%Q -> coincident D F j dt f s a b -> (Qabs (b - a - remaining D F dt f (s + a)) <= RATIO * j)%Q.
Proof.
  intros LF C. apply Qabs_Qlt_condition in LF as [L1 L2]. unfold coincident in C. set (x := (b - a - remaining D F dt f (s + a))%Q).
  assert (E : (dt + f * (s + b) - (D + (1 + F) * (s + a)) == f * x)%Q) by (unfold x, remaining; field; lra). rewrite E, Qabs_Qmult in C.
  rewrite (Qabs_pos f) in C by lra. pose proof (Qabs_nonneg x) as X0. unfold RATIO. set (ax := Qabs x) in *. clearbody ax. clear E x.
  assert (K : ((8191 # 8192) * ax <= f * ax)%Q) by (apply Qmult_le_compat_r; lra). lra.
Qed.
Lemma clear_genuine e P A B D F j dur last W first q dt f r d1 d2 : (0 < q)%Q -> 0 < num_bins P -> (0 <= j)%Q -> (Qabs (f - 1) < 1 # 8192)%Q ->
  (forall k, 0 <= k -> (first = false -> k = 0) -> num_bins P mod 2 ^ k = 0 -> (k = 0 \/ (q * inject_Z (2 ^ k) <= 10000)%Q) -> clear e P A B D F j dur last W q dt f k) ->
  measured e P A dur last first q (shown dt f B) r d1 d2 -> genuine D F (separation_duration P) W (mkS [] q dt f first) (r + RATIO * j) d1 d2.
Proof.
  intros Q0 N0 J0 LF CL (w & k & WL & K0 & K1 & K2 & ER & MD & F1 & LD & F2).
  assert (M0 : 0 < 2 ^ k) by (apply Z.pow_pos_nonneg; lia).
  assert (N2 : num_bins P = 2 ^ k * (num_bins P / 2 ^ k)) by (apply Z_div_exact_2; lia). assert (NK : 0 < num_bins P / 2 ^ k) by nia.
  destruct (CL k K0 K1 MD) as [AL SG]; [destruct K2 as [K2|K2]; [now left|right; now rewrite <- ER]|]. destruct (SG w WL) as (LW & S1 & S2). clear SG.
  set (sep := separation_duration P) in *. set (m := 2 ^ k) in *. set (rr := (q * inject_Z m)%Q) in *.
  assert (QM : (inject_Z 1 <= inject_Z m)%Q) by (rewrite <- Zle_Qle; lia). change (inject_Z 1) with 1%Q in QM.
  assert (RR : (0 < rr)%Q) by (unfold rr; apply Qmult_lt_0_compat; lra).
  assert (RJ : (0 <= RATIO * j)%Q) by (apply Qmult_le_0_compat; [vm_compute; discriminate|exact J0]).
  assert (TD : forall s a b, {coincident D F j dt f s a b} + {~ coincident D F j dt f s a b}).
  { intros s a b. unfold coincident. destruct (Qlt_le_dec j (Qabs (dt + f * (s + b) - (D + (1 + F) * (s + a))))) as [L|L]; [right|left; exact L]. now apply Qlt_not_le. }
  destruct (frequent_signal e _ _ _ _ _ _ d1 (TD 0%Q) S1 F1) as (a1 & b1 & I1 & J1 & T1 & E1).
  assert (F2' : frequent e (num_bins P) rr 1 (view sep w A) (view sep w (shown dt f B)) d2) by (apply (frequent_same e _ r rr _ (view sep w A) (view sep w A) (view sep w (shown dt f B))); [exact ER|apply same_refl|apply same_refl|exact F2]).
  destruct (frequent_signal e _ _ _ _ _ _ d2 (TD sep) S2 F2') as (a2 & b2 & I2 & J2 & T2 & E2).
  apply view_bounds in I1. apply view_bounds in I2. apply (coincident_near _ _ _ _ _ _ _ _ LF) in T1, T2.
  assert (A1 : (Qabs (remaining D F dt f (0 + a1)) + (rr + RATIO * j) <= inject_Z (num_bins P) * q / 2)%Q) by (apply AL; left; lra).
  assert (A2 : (Qabs (remaining D F dt f (sep + a2)) + (rr + RATIO * j) <= inject_Z (num_bins P) * q / 2)%Q) by (apply AL; right; lra).
  exists a1, a2. split; [lra|]. split; [lra|]. split; [rewrite ER; fold rr; lra|].
  assert (DL : forall tau, (delay_left D F (mkS [] q dt f first) tau == remaining D F dt f tau)%Q).
  { intros tau. unfold delay_left, corrected, remaining. cbn [fst snd FpfindModel.dt FpfindModel.f]. setoid_replace (1 + (f - 1))%Q with f by ring. reflexivity. }
  rewrite !DL, ER. fold rr. split.
  - rewrite E1. setoid_replace (remaining D F dt f a1) with (remaining D F dt f (0 + a1)) by (unfold remaining; now rewrite Qplus_0_l). apply lag_near; assumption.
  - rewrite E2. pose proof (lag_near (num_bins P) rr 1 a2 b2 (remaining D F dt f (sep + a2)) (RATIO * j)%Q) as LN. rewrite Z.div_1_r in *. rewrite Qmult_1_r in LN. apply LN; try assumption; [lia|apply Z.mod_1_r|].
    eapply Qle_trans; [exact A2|]. assert (NQ : (0 <= inject_Z (num_bins P))%Q) by (rewrite <- (Zle_Qle 0); lia).
    assert (q <= rr)%Q by (unfold rr; setoid_replace q with (1 * q)%Q at 1 by ring; rewrite (Qmult_comm q); apply Qmult_le_compat_r; lra).
    assert (q * inject_Z (num_bins P) <= rr * inject_Z (num_bins P))%Q by (apply Qmult_le_compat_r; lra). 
    setoid_replace (inject_Z (num_bins P) * q / 2)%Q with (q * inject_Z (num_bins P) * (1 # 2))%Q by (unfold Qdiv; change (/ 2)%Q with (1 # 2)%Q; ring).
    setoid_replace (inject_Z (num_bins P) * rr / 2)%Q with (rr * inject_Z (num_bins P) * (1 # 2))%Q by (unfold Qdiv; change (/ 2)%Q with (1 # 2)%Q; ring). lra.
Qed.
(** ** All iterations *)
Lemma shown_next dt f d1 df dt' f' B : ~ (f' == 0)%Q -> (dt' == dt + f * d1)%Q -> (f' == f * (1 + df))%Q ->
  same_values (map (corrected (d1, df)) (shown dt f B)) (shown dt' f' B).
Proof.
  intros N ED EF. unfold shown. rewrite map_map. apply same_map. intros t _. unfold corrected. cbn [fst snd].
  assert (N1 : ~ (f == 0)%Q) by (intros E; apply N; rewrite EF, E; ring). assert (N2 : ~ (1 + df == 0)%Q) by (intros E; apply N; rewrite EF, E; ring).
  rewrite ED, EF. field. split; assumption.
Qed.
Lemma map_corrected_same c B B' : same_values B B' -> same_values (map (corrected c) B) (map (corrected c) B').
Proof. unfold same_values. induction 1 as [|x y B B' E H IH]; constructor; [now apply corrected_cong|exact IH]. Qed.
Lemma search_accuracy e P A B D F j dur last W res : (0 <= j)%Q -> (0 < separation_duration P)%Q -> (0 <= W)%Q -> 0 < num_bins P -> (0 < target_resolution P)%Q ->
  (forall ws q dt f k, stage e P A B dur last res ws q dt f -> doublings P ws q k -> clear e P A B D F j dur last W q dt f k) ->
  forall first q dt f B' out, search e P A dur last first q dt f B' out -> forall ws, (0 < q)%Q -> (Qabs (f - 1) < 1 # 8192)%Q -> first = no_width ws -> same_values B' (shown dt f B) ->
  stage e P A B dur last res ws q dt f -> invariant 0 D F (separation_duration P) W (mkS [] q dt f first) (widened j ws) ->
  exists ws', widths_used e P A B dur last res ws' /\ (Qabs (snd out - F) <= freq_error 0 F (separation_duration P) W (widened j ws'))%Q /\
    (Qabs (fst out - D) <= time_error 0 F (separation_duration P) W (widened j ws') D)%Q.
Proof.
  intros J0 S0 W0 N0 T0 CL first q dt f B' out SE. induction SE as [q dt f B' r d1 d2 dt' df ME IM E1 E2|first q dt f B' r d1 d2 dt' df ME NI E1 E2 LD ET|first q dt f B' r d1 d2 dt' f' q' B2 out ME NI E1 E2 LD NT EQ SV SE IH];
    intros ws Q0 LF FW SB ST INV.
  - exists ws. assert (ws <> []) by (destruct ws; [discriminate|discriminate]). 
    assert (ME' : measured e P A dur last (no_width ws) q (shown dt f B) r d1 d2) by (rewrite <- FW; apply (measured_same _ _ _ _ _ _ _ B'); assumption).
    split; [exists ws, q, dt, f, r, d1, d2; tauto|]. cbn [fst snd].
    destruct INV as (_ & I1 & I2). cbn [FpfindModel.f FpfindModel.dt] in I1, I2. rewrite E1, E2. split.
    + setoid_replace (f - 1 - F)%Q with (- (1 + F - f))%Q by ring. now rewrite Qabs_opp.
    + rewrite Qabs_Qminus. lra.
  - assert (GE : genuine D F (separation_duration P) W (mkS [] q dt f first) (r + RATIO * j) d1 d2).
    { apply (clear_genuine e P A B D F j dur last W first q dt f r d1 d2 Q0 N0 J0 LF); [|apply (measured_same _ _ _ _ _ _ _ B'); assumption].
      intros k K0 K1 K2 K3. apply (CL ws q dt f k ST). split; [exact K0|]. split; [|tauto]. intros NE. apply K1. rewrite FW. now destruct ws. }
    destruct (invariant_next 0 D F P W _ (widened j ws) (r + RATIO * j) d1 d2 dt' (1 + df)%Q S0 W0 INV GE) as [A1 A2].
    + cbn [FpfindModel.f FpfindModel.dt]. setoid_replace (dt' - (dt + f * d1))%Q with 0%Q by (rewrite E1; ring). change (Qabs 0) with 0%Q. pose proof (Qabs_nonneg dt'). lra.
    + cbn [FpfindModel.f FpfindModel.dt]. setoid_replace (1 + df - f * (1 + (d2 - d1) / separation_duration P))%Q with 0%Q by (rewrite E2; ring). change (Qabs 0) with 0%Q. lra.
    + exists (r :: ws). 
      assert (ME' : measured e P A dur last (no_width ws) q (shown dt f B) r d1 d2) by (rewrite <- FW; apply (measured_same _ _ _ _ _ _ _ B'); assumption).
      split; [exists ws, q, dt, f, r, d1, d2; split; [exact ST|]; split; [exact ME'|]; right; split; [reflexivity|]; split; [intros NE; apply NI; rewrite FW; now destruct ws|exact ET]|]. cbn [fst snd]. change (widened j (r :: ws)) with (r + RATIO * j :: widened j ws)%Q. split.
      * setoid_replace (df - F)%Q with (- (1 + F - (1 + df)))%Q by ring. now rewrite Qabs_opp.
      * rewrite Qabs_Qminus. lra.
  - assert (ME' : measured e P A dur last first q (shown dt f B) r d1 d2) by (apply (measured_same _ _ _ _ _ _ _ B'); assumption).
    assert (GE : genuine D F (separation_duration P) W (mkS [] q dt f first) (r + RATIO * j) d1 d2).
    { apply (clear_genuine e P A B D F j dur last W first q dt f r d1 d2 Q0 N0 J0 LF); [|exact ME'].
      intros k K0 K1 K2 K3. apply (CL ws q dt f k ST). split; [exact K0|]. split; [|tauto]. intros NE. apply K1. rewrite FW. now destruct ws. }
    destruct (invariant_next 0 D F P W _ (widened j ws) (r + RATIO * j) d1 d2 dt' f' S0 W0 INV GE) as [A1 A2].
    + cbn [FpfindModel.f FpfindModel.dt]. setoid_replace (dt' - (dt + f * d1))%Q with 0%Q by (rewrite E1; ring). change (Qabs 0) with 0%Q. pose proof (Qabs_nonneg dt'). lra.
    + cbn [FpfindModel.f FpfindModel.dt]. setoid_replace (f' - f * (1 + (d2 - d1) / separation_duration P))%Q with 0%Q by (rewrite E2; ring). change (Qabs 0) with 0%Q. lra.
    + apply (IH (r :: ws)).
      * rewrite EQ. eapply Qlt_le_trans; [exact T0|]. apply Q.le_max_r.
      * exact LD.
      * reflexivity.
      * apply (same_trans _ _ _ SV). apply (same_trans _ (map (corrected (d1, (d2 - d1) / separation_duration P)%Q) (shown dt f B))); [now apply map_corrected_same|].
        apply shown_next; [|exact E1|exact E2]. intros Z. apply Qabs_Qlt_condition in LD. lra.
      * apply (stage_S e P A B dur last res ws q dt f r d1 d2); try assumption; [now rewrite <- FW|]. intros NE. apply NI. rewrite FW. now destruct ws.
      * split; [|split; [exact A1|exact A2]]. cbn [FpfindModel.f]. lra.
Qed.
Lemma c98 e fuel M P A B res D F W j x y : exact_fpu M -> accurate_to e (num_bins P) (len A) (len B) M -> (0 <= j)%Q -> (0 < target_resolution P)%Q -> (0 < res)%Q -> (0 < separation_duration P)%Q -> (0 <= W)%Q ->
  always_clear e P A B res D F j W -> time_freq fuel M P A B res = Ok (x, y) -> found_within 1 e P A B res D F j W (x - D) (y - F).
Proof.
  intros EX AC J0 T0 R S0 W0 CL H. destruct (c95 e fuel M P A B res (x, y) EX AC T0 R H) as (last & dur & LC & ED & SE).
  assert (N0 : 0 < num_bins P).
  { destruct fuel as [|fuel]; unfold time_freq in H; [destruct (getitem A (-1)), (getitem B (-1)); discriminate|].
    apply bind_ok in H as (a & _ & H). apply bind_ok in H as (b & _ & H). cbn [iterate] in H. apply bind_ok in H as (nx & H & _). unfold iteration in H.
    apply bind_ok in H as (ys & H & _). apply (correlate_counted e M P) in H; [apply H|exact EX|exact AC|exact R]. }
  destruct (search_accuracy e P A B D F j dur last W res J0 S0 W0 N0 T0 (fun ws q dt f k => CL last dur ws q dt f k LC ED) true res 0%Q 1%Q B (x, y) SE [] R ltac:(reflexivity) eq_refl) as (ws & WU & B1 & B2).
  - unfold shown. rewrite <- (map_id B) at 1. apply same_map. intros t _. field.
  - constructor.
  - split; [vm_compute; discriminate|]. cbn [widened map freq_error time_error FpfindModel.f FpfindModel.dt]. split; [apply Qle_lteq; right; apply Qabs_wd; ring|].
    setoid_replace (D - 0)%Q with D by ring. lra.
  - exists last, dur, ws. rewrite !Qmult_1_l. tauto.
Qed.
Lemma c98_fpfind e fuel M P A bob res df0s dt df : exact_fpu M -> accurate_to e (num_bins P) (len A) (len bob) M -> good_xc M -> (0 < target_resolution P)%Q -> (0 < res)%Q -> (0 < separation_duration P)%Q ->
  (forall df0, In df0 df0s -> ~ (1 + df0 == 0)%Q) -> fpfind fuel M P A bob res df0s false = Ok (dt, df) ->
  exists df0 B, In df0 df0s /\ same_values B (map (corrected (0, df0)%Q) bob) /\
    forall D F j W, (0 <= j)%Q -> (0 <= W)%Q -> let D' := (D / (1 + df0))%Q in let F' := ((1 + F) / (1 + df0) - 1)%Q in
      always_clear e P A B res D' F' j W -> found_within (Qabs (1 + df0)) e P A B res D' F' j W (dt - D) (df - F).
Proof.
  intros EX AC GX T0 R S0 NZ H. destruct (c53_fpfind fuel M P A bob res df0s dt df GX EX NZ H) as (df0 & (c1 & c2) & B & I & SV & TF & CO).
  exists df0, B. split; [exact I|]. split; [exact SV|]. intros D F j W J0 W0 D' F' CL. specialize (NZ df0 I).
  pose proof (c54 _ _ _ _ _ _ _ _ GX TF) as LT. apply Qabs_Qlt_condition in LT as [LT1 LT2].
  pose proof (CO 0%Q) as C0. pose proof (CO 1%Q) as C1. unfold corrected in C0, C1. cbn [fst snd] in C0, C1.
  assert (NC : ~ (1 + c2 == 0)%Q) by lra.
  assert (SL : (/ (1 + df) == / ((1 + df0) * (1 + c2)))%Q).
  { setoid_replace (/ (1 + df))%Q with ((1 - dt) / (1 + df) - (0 - dt) / (1 + df))%Q by (unfold Qdiv; ring). rewrite C0, C1. field. split; assumption. }
  assert (ND : ~ (1 + df == 0)%Q).
  { intros E. rewrite E in SL. change (/ 0)%Q with 0%Q in SL. assert (X : ((1 + df0) * (1 + c2) * / ((1 + df0) * (1 + c2)) == 0)%Q) by (rewrite <- SL; ring).
    rewrite Qmult_inv_r in X; [discriminate X|]. intros Z. apply Qmult_integral in Z. tauto. }
  assert (DF : (1 + df == (1 + df0) * (1 + c2))%Q).
  { assert (X : (/ / (1 + df) == / / ((1 + df0) * (1 + c2)))%Q) by now rewrite SL. now rewrite !Qinv_involutive in X. }
  assert (DT : (dt == (1 + df0) * c1)%Q).
  { setoid_replace dt with (- ((0 - dt) / (1 + df)) * (1 + df))%Q by (field; exact ND). rewrite C0, DF. field. split; assumption. }
  rewrite (len_shown _ _ _ SV) in AC. destruct (c98 e fuel M P A B res D' F' W j c1 c2 EX AC J0 T0 R S0 W0 CL TF) as (last & dur & ws & LC & DU & WU & E1 & E2). rewrite Qmult_1_l in E1, E2.
  exists last, dur, ws. split; [exact LC|]. split; [exact DU|]. split; [exact WU|]. split.
  - setoid_replace (df - F)%Q with ((1 + df0) * (c2 - F'))%Q by (setoid_replace df with (1 + df - 1)%Q by ring; rewrite DF; unfold F'; field; exact NZ).
    rewrite Qabs_Qmult, !(Qmult_comm (Qabs (1 + df0))). apply Qmult_le_compat_r; [exact E1|apply Qabs_nonneg].
  - setoid_replace (dt - D)%Q with ((1 + df0) * (c1 - D'))%Q by (rewrite DT; unfold D'; field; exact NZ).
    rewrite Qabs_Qmult, !(Qmult_comm (Qabs (1 + df0))). apply Qmult_le_compat_r; [exact E2|apply Qabs_nonneg].
Qed.
