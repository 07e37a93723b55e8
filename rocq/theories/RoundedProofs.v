From Coq Require Import QArith Qabs Qround Qminmax Lqa.
From Coq Require Import ZifyBool.
From Verif Require Import Float Base TimestampsModel TimestampsSpec EpochsModel UtilsModel UtilsSpec UtilsProofs UtilsProofs2 FpfindModel FpfindSpec FpfindProofs FpfindProofs2 FpfindProofs3 MainProofs3 AccuracySpec AccuracyProofs PairSpec PairProofs PairProofs2 SignalSpec SignalProofs SignalCase RoundedSpec.
Local Open Scope Z_scope.

(** ** The correlation of a window *)
Lemma slice_seen rt ts s d l : slice_timestamps rt ts (Some s) (Some d) = Ok l -> l = seen rt s d ts.
Proof.
  intros H. unfold slice_timestamps in H. cbn [bind] in H. apply bind_ok in H as (x & _ & H). injection H as <-. clear x. unfold seen.
  induction (map (fun t => rt (t - s)%Q) ts) as [|t l IH]; [reflexivity|]. cbn [filter]. destruct (Qle_bool 0 t); cbn [andb filter]; [|exact IH].
  unfold Qltb. destruct (negb (Qle_bool d t)); [f_equal|]; exact IH.
Qed.
Lemma seen_length rt s w ts : len (seen rt s w ts) <= len ts.
Proof.
  unfold seen, len. rewrite <- (map_length (fun t => rt (t - s)%Q) ts). apply inj_le. induction (map (fun t => rt (t - s)%Q) ts) as [|t l IH]; [apply le_n|].
  cbn [filter length]. destruct (_ && _); cbn [length]; lia.
Qed.
(** values of [ys] near the counts, with the relative error [c] - 1 *)
Definition tallied (c e : Q) (n : Z) (res : Q) (m : Z) (A B : list Q) (ys : list Q) : Prop :=
  len ys * m = n /\ forall g, 0 <= g < len ys -> let p := inject_Z (pairs n res m A B g) in let y := nth (Z.to_nat g) ys 0%Q in
    ((2 - c) * p - c * (e * inject_Z m) <= y <= c * (p + e * inject_Z m))%Q.
Lemma correlate_tallied e M P ats b s w res ys : accurate_to e (num_bins P) (len ats) (len b) M -> (0 < res)%Q -> correlate M P ats b s w res = Ok ys ->
  0 < num_bins P /\ tallied 1 e (num_bins P) res 1 (seen (rt M) s w ats) (seen (rt M) s w b) ys.
Proof.
  intros AC R H. unfold correlate in H. apply bind_ok in H as (a1 & A1 & H). apply bind_ok in H as (b1 & B1 & H).
  apply bind_ok in H as (ha & Ha & H). apply bind_ok in H as (hb & Hb & H).
  apply slice_seen in A1. apply slice_seen in B1. rewrite A1 in Ha. rewrite B1 in Hb.
  set (A := seen (rt M) s w ats) in *. set (B := seen (rt M) s w b) in *. set (n := num_bins P) in *.
  destruct (histogram_hits _ _ _ _ R Ha) as (N & LA & KA & PA). destruct (histogram_hits _ _ _ _ R Hb) as (_ & LB & KB & PB).
  unfold get_xcorr in H. destruct (len ha =? 1) eqn:O; [discriminate|]. destruct (Z.odd (len ha)); [discriminate|]. injection H as <-.
  destruct (AC ha hb) as [LX NX]; [apply (hits_within A n res ha _ R Ha), seen_length|apply (hits_within B n res hb _ R Hb), seen_length|].
  split; [exact N|]. split; [unfold len; rewrite LX, LA; lia|]. unfold len. rewrite LX, LA, Z2Nat.id by lia. intros g G. cbv zeta.
  assert (K : (Qabs (nth (Z.to_nat g) (xc M ha hb) 0 - inject_Z (pairs n res 1 A B g)) <= e)%Q).
  { rewrite <- (pairs_correlation n res A B g N G).
    replace (sum_below (Z.to_nat n) _) with (correlation ha hb (Z.to_nat g)); [apply NX; lia|].
    unfold correlation. rewrite LA. apply sum_below_ext. intros i I.
    rewrite <- (KA (Z.of_nat i)), Nat2Z.id by lia. f_equal.
    rewrite <- KB by (apply Z.mod_pos_bound; lia). f_equal.
    rewrite Z2Nat.inj_mod, Z2Nat.inj_add, Nat2Z.id by lia. reflexivity. }
  apply Qabs_Qle_condition in K. change (inject_Z 1) with 1%Q. lra.
Qed.
Lemma merge_sums M : forall k ys ys1, (length ys <= k)%nat -> merge M ys = Ok ys1 -> length ys = (2 * length ys1)%nat /\
  forall i, (i < length ys1)%nat -> nth i ys1 0%Q = rs M (nth (2 * i) ys 0 + nth (2 * i + 1) ys 0)%Q.
Proof.
  induction k as [|k IH]; intros ys ys1 L H.
  - destruct ys; [|cbn in L; lia]. injection H as <-. split; [reflexivity|]. intros i I. cbn in I. lia.
  - destruct ys as [|a [|b r]]; [injection H as <-; split; [reflexivity|]; intros i I; cbn in I; lia|discriminate|].
    cbn [merge] in H. apply bind_ok in H as (m & E & H). injection H as <-. cbn [length] in L. destruct (IH r m ltac:(lia) E) as [LM NM].
    split; [cbn [length]; lia|]. intros [|i] I; [reflexivity|]. cbn [length] in I.
    replace (2 * S i)%nat with (S (S (2 * i))) by lia. replace (S (S (2 * i)) + 1)%nat with (S (S (2 * i + 1))) by lia. cbn [nth]. apply NM. lia.
Qed.
Lemma merge_tallied u c e n res m A B M ys ys1 : rounds u M -> (0 <= u)%Q -> (1 <= c)%Q -> (0 <= e)%Q -> 0 < m -> tallied c e n res m A B ys -> merge M ys = Ok ys1 ->
  tallied ((1 + u) * c) e n res (2 * m) A B ys1.
Proof.
  intros RO U C1 E0 M0 [L C] H. destruct (merge_sums M (length ys) ys ys1 (le_n _) H) as [LM NM].
  split; [unfold len in *; nia|]. intros g G. cbv zeta. rewrite (NM (Z.to_nat g)) by (unfold len in G; lia).
  rewrite pairs_double, inject_Z_plus, inject_Z_mult by assumption.
  pose proof (C (2 * g) ltac:(unfold len in *; lia)) as Ca. pose proof (C (2 * g + 1) ltac:(unfold len in *; lia)) as Cb. cbv zeta in Ca, Cb.
  replace (Z.to_nat (2 * g)) with (2 * Z.to_nat g)%nat in Ca by lia. replace (Z.to_nat (2 * g + 1)) with (2 * Z.to_nat g + 1)%nat in Cb by lia.
  set (ya := nth (2 * Z.to_nat g) ys 0%Q) in *. set (yb := nth (2 * Z.to_nat g + 1) ys 0%Q) in *.
  assert (PA : (0 <= inject_Z (pairs n res m A B (2 * g)))%Q) by (rewrite <- (Zle_Qle 0); unfold pairs, len; lia).
  assert (PB : (0 <= inject_Z (pairs n res m A B (2 * g + 1)))%Q) by (rewrite <- (Zle_Qle 0); unfold pairs, len; lia).
  set (pa := inject_Z (pairs n res m A B (2 * g))) in *. set (pb := inject_Z (pairs n res m A B (2 * g + 1))) in *. change (inject_Z 2) with 2%Q.
  assert (M1 : (0 < inject_Z m)%Q) by (rewrite <- (Zlt_Qlt 0); lia). assert (EM : (0 <= e * inject_Z m)%Q) by (apply Qmult_le_0_compat; lra).
  setoid_replace (e * (2 * inject_Z m))%Q with (2 * (e * inject_Z m))%Q by ring. set (em := (e * inject_Z m)%Q) in *. clearbody em pa pb.
  set (z := (ya + yb)%Q). assert (Z1 : (z <= c * (pa + pb + 2 * em))%Q) by (unfold z; lra). assert (Z2 : ((2 - c) * (pa + pb) - c * (2 * em) <= z)%Q) by (unfold z; lra).
  set (p := (pa + pb)%Q) in *. assert (P0 : (0 <= p)%Q) by (unfold p; lra). set (em2 := (2 * em)%Q) in *. assert (EM2 : (0 <= em2)%Q) by (unfold em2; lra).
  specialize (RO z). clearbody z p em2. apply Qabs_Qle_condition in RO.
  assert (AZ : (Qabs z <= c * (p + em2))%Q).
  { apply Qabs_Qle_condition. split; [|exact Z1]. assert (0 <= (2 - c + c) * p)%Q by (apply Qmult_le_0_compat; lra). lra. }
  assert (UZ : (u * Qabs z <= u * (c * (p + em2)))%Q) by (rewrite !(Qmult_comm u); now apply Qmult_le_compat_r).
  set (uc := (u * (c * (p + em2)))%Q) in *.
  setoid_replace ((1 + u) * c * (p + em2))%Q with (c * (p + em2) + uc)%Q by (unfold uc; ring).
  setoid_replace ((2 - (1 + u) * c) * p - (1 + u) * c * em2)%Q with ((2 - c) * p - c * em2 - uc)%Q by (unfold uc; ring).
  clearbody uc. lra.
Qed.
Lemma axis_rounded M n res : 0 <= n -> len (axis M n res) = n /\ forall p, 0 <= p < n -> nth (Z.to_nat p) (axis M n res) 0%Q = rs M (inject_Z p * res)%Q.
Proof.
  intros N. unfold axis. split; [unfold len; rewrite map_length, seq_length; lia|].
  intros p I. rewrite (nth_indep _ 0%Q (rs M (inject_Z (Z.of_nat 0) * res)%Q)) by (rewrite map_length, seq_length; lia).
  rewrite (map_nth (fun i => rs M (inject_Z (Z.of_nat i) * res)%Q)), seq_nth by lia. cbn [Nat.add]. now rewrite Z2Nat.id by lia.
Qed.
(** the delay of the first peak, rounded *)
Lemma delay_rounded u M ys r d : rounds u M -> (0 <= u)%Q -> (0 < r)%Q -> 0 < len ys -> delay_of M (len ys) ys r = Ok d ->
  exists p, first_peak ys p /\ (Qabs (d - inject_Z (centered (len ys) p) * r) <= u * (inject_Z (len ys) * r))%Q.
Proof.
  intros RO U R N H. assert (NE : ys <> []) by (intros ->; now cbn in N). destruct (argmax_spec ys NE) as (p & A & FP). pose proof FP as ((P0 & P1) & _).
  exists p. split; [exact FP|]. destruct (axis_rounded M (len ys) r ltac:(lia)) as [LX EV].
  unfold delay_of, get_timing_delay_fft in H. rewrite A in H. cbn [bind] in H. unfold delay_at in H. rewrite (getitem_nth _ p 0%Q) in H by lia. cbn [bind] in H.
  assert (B : forall q, 0 <= q <= len ys -> (Qabs (rs M (inject_Z q * r) - inject_Z q * r) <= u * (inject_Z (len ys) * r))%Q).
  { intros q Hq. eapply Qle_trans; [apply RO|]. rewrite !(Qmult_comm u). apply Qmult_le_compat_r; [|exact U].
    assert (Q0 : (0 <= inject_Z q)%Q) by (rewrite <- (Zle_Qle 0); lia). assert (Q1 : (inject_Z q <= inject_Z (len ys))%Q) by (rewrite <- Zle_Qle; lia).
    rewrite Qabs_pos by (apply Qmult_le_0_compat; lra). apply Qmult_le_compat_r; lra. }
  assert (R0 : (rs M (inject_Z 0 * r) == 0)%Q).
  { specialize (RO (inject_Z 0 * r)%Q). change (inject_Z 0) with 0%Q in *. setoid_replace (0 * r)%Q with 0%Q in RO at 2 by ring. setoid_replace (0 * r)%Q with 0%Q in RO at 2 by ring.
    change (Qabs 0) with 0%Q in RO. apply Qabs_Qle_condition in RO. lra. }
  assert (N0 : (0 <= u * (inject_Z (len ys) * r))%Q).
  { apply Qmult_le_0_compat; [exact U|]. apply Qmult_le_0_compat; [rewrite <- (Zle_Qle 0); lia|lra]. }
  unfold centered. destruct (p =? 0) eqn:Z0.
  - rewrite (getitem_nth _ 0 0%Q) in H by lia. cbn [bind] in H. rewrite !EV in H by lia. replace p with 0 in * by lia. change (Z.abs 0 <? Z.abs 0) with false in H. cbn iota in H. injection H as <-.
    rewrite R0. replace (2 * 0 <? len ys) with true by lia. change (inject_Z 0) with 0%Q. setoid_replace (- 0 - 0 * r)%Q with 0%Q by ring. exact N0.
  - rewrite (getitem_nth _ (len ys - p) 0%Q) in H by lia. cbn [bind] in H. rewrite !EV in H by lia. destruct (Z.abs p <? Z.abs (len ys - p)) eqn:C; injection H as <-.
    + replace (2 * p <? len ys) with true by lia. apply B. lia.
    + replace (2 * p <? len ys) with false by lia. replace (p - len ys) with (- (len ys - p)) by lia. rewrite inject_Z_opp.
      setoid_replace (- rs M (inject_Z (len ys - p) * r) - - inject_Z (len ys - p) * r)%Q with (- (rs M (inject_Z (len ys - p) * r) - inject_Z (len ys - p) * r))%Q by ring.
      rewrite Qabs_opp. apply B. lia.
Qed.
(** a peak of the tallies has a coincidence *)
Lemma peak_coincidence c e n res m A B ys (T : Q -> Q -> Prop) p : (forall a b, {T a b} + {~ T a b}) -> 0 < m -> tallied c e n res m A B ys -> stands c e n res m A B T -> first_peak ys p ->
  exists a b, In a A /\ In b B /\ T a b /\ lag n res a b / m = p.
Proof.
  intros TD M0 [L C] (g0 & G0 & S) (P0 & P1 & _). assert (ND : n / m = len ys) by (rewrite <- L; apply Z.div_mul; lia). rewrite ND in *.
  set (hit := fun c : Q * Q => if TD (fst c) (snd c) then lag n res (fst c) (snd c) / m =? p else false).
  destruct (existsb hit (list_prod A B)) eqn:E.
  - apply existsb_exists in E as ((a & b) & I & H). apply in_prod_iff in I as [IA IB]. unfold hit in H. cbn [fst snd] in H.
    destruct (TD a b) as [Tab|]; [|discriminate]. exists a, b. split; [exact IA|]. split; [exact IB|]. split; [exact Tab|]. lia.
  - exfalso. assert (N : forall a b, In a A -> In b B -> T a b -> lag n res a b / m <> p).
    { intros a b IA IB Tab LL. assert (X : existsb hit (list_prod A B) = true); [|congruence].
      apply existsb_exists. exists (a, b). split; [now apply in_prod|]. unfold hit. cbn [fst snd]. destruct (TD a b); [lia|contradiction]. }
    specialize (S p P0 N). specialize (P1 g0 G0). pose proof (C p P0) as Cp. pose proof (C g0 G0) as Cg. cbv zeta in Cp, Cg. lra.
Qed.
(** ** The loop of the first iteration *)
Lemma qpower_ge1 x k : (1 <= x)%Q -> (1 <= qpower x k)%Q.
Proof.
  intros X. induction k as [|k IH]; cbn [qpower]; [lra|]. assert (1 * 1 <= x * qpower x k)%Q; [|lra].
  apply Qle_trans with (x * 1)%Q; [lra|]. rewrite !(Qmult_comm x). apply Qmult_le_compat_r; lra.
Qed.
Lemma confirm_tallied u e n res A B M P : rounds u M -> (0 <= u)%Q -> (0 <= e)%Q -> representable M res -> forall fuel k ys r dt1 sig r' d, 0 <= k -> (r == res * inject_Z (2 ^ k))%Q ->
  (k = 0 \/ (r <= 10000)%Q) -> tallied (qpower (1 + u) (Z.to_nat k)) e n res (2 ^ k) A B ys -> delay_of M (len ys) ys r = Ok dt1 ->
  by_value M -> confirm fuel M P ys r dt1 sig = Ok (r', d) ->
  exists k' ys', 0 <= k' /\ (r' == res * inject_Z (2 ^ k'))%Q /\ (k' = 0 \/ (r' <= 10000)%Q) /\
    tallied (qpower (1 + u) (Z.to_nat k')) e n res (2 ^ k') A B ys' /\ delay_of M (len ys') ys' r' = Ok d.
Proof.
  intros RO U E0 REP. induction fuel as [|fuel IH]; intros k ys r dt1 sig r' d K ER OR C D MO H; [discriminate|]. cbn [confirm] in H.
  destruct (Qeq_bool sig 0); [discriminate|]. destruct (Qle_bool (threshold P) sig).
  - injection H as <- <-. exists k, ys. tauto.
  - apply bind_ok in H as (ys1 & E1 & H). destruct (Qltb 10000 _) eqn:T; [discriminate|]. apply Qltb_ge in T.
    apply bind_ok in H as (d1 & E2 & H). apply bind_ok in H as (sg & E3 & H).
    apply (IH (k + 1) ys1 (rs M (r * 2)%Q) d1 sg r' d); try assumption; [lia|..].
    + assert (EQ : (r * 2 == res * inject_Z (2 ^ (k + 1)))%Q) by (rewrite ER, Z.pow_add_r, inject_Z_mult by lia; change (inject_Z (2 ^ 1)) with 2%Q; ring).
      rewrite (MO _ _ EQ). apply REP. lia.
    + now right.
    + replace (Z.to_nat (k + 1)) with (S (Z.to_nat k)) by lia. cbn [qpower]. rewrite Z.pow_add_r, Z.mul_comm by lia. change (2 ^ 1) with 2.
      apply (merge_tallied _ _ _ _ _ _ _ _ M ys); try assumption; [apply qpower_ge1; lra|]. apply Z.pow_pos_nonneg; lia.
Qed.
(** ** What is found is genuine *)
Lemma seen_bounds rt s w A a : In a (seen rt s w A) -> (0 <= a)%Q /\ (a < w)%Q.
Proof.
  intros I. unfold seen in I. apply filter_In in I as [_ C]. apply andb_true_iff in C as [C1 C2]. apply Qle_bool_iff in C1. split; [exact C1|].
  apply Qnot_le_lt. intros L. apply Qle_bool_iff in L. rewrite L in C2. discriminate.
Qed.
Lemma coincident_near2 D F j dt f s a b : (Qabs (f - 1) <= 1 # 4096)%Q -> coincident D F j dt f s a b -> (Qabs (b - a - remaining D F dt f (s + a)) <= (2049 # 2048) * j)%Q.
Proof.
  intros LF C. apply Qabs_Qle_condition in LF as [L1 L2]. unfold coincident in C. set (x := (b - a - remaining D F dt f (s + a))%Q).
  assert (E : (dt + f * (s + b) - (D + (1 + F) * (s + a)) == f * x)%Q) by (unfold x, remaining; field; lra). rewrite E, Qabs_Qmult in C.
  rewrite (Qabs_pos f) in C by lra. pose proof (Qabs_nonneg x) as X0. set (ax := Qabs x) in *. clearbody ax. clear E x.
  assert (K : ((4095 # 4096) * ax <= f * ax)%Q) by (apply Qmult_le_compat_r; lra). lra.
Qed.
Lemma finds_genuine u e M P A D F j W last dur s r d1 d2 : rounds u M -> (0 <= u)%Q -> (0 <= e)%Q -> accurate_to e (num_bins P) (len A) (len (bts s)) M -> by_value M ->
  (0 < resolution s)%Q -> (0 <= j)%Q -> (Qabs (f s - 1) <= 1 # 4096)%Q -> (is_first s = true -> representable M (resolution s)) ->
  (forall k, 0 <= k -> (is_first s = false -> k = 0) -> num_bins P mod 2 ^ k = 0 -> (k = 0 \/ (resolution s * inject_Z (2 ^ k) <= 10000)%Q) -> (r == resolution s * inject_Z (2 ^ k))%Q ->
     clear_state u e (rt M) P A D F j W (used_duration M P last dur (resolution s)) s k) ->
  finds M P A last dur s r d1 d2 -> genuine D F (separation_duration P) W s (wider u (num_bins P) j r) d1 d2.
Proof.
  intros RO U E0 AC MO Q0 J0 LF REP CL (ys & dt1 & sg & ys2 & E1 & E2 & E3 & E4 & E8 & E9). set (w := used_duration M P last dur (resolution s)) in *.
  set (q := resolution s) in *. set (n := num_bins P) in *. set (sep := separation_duration P) in *.
  destruct (correlate_tallied e M P A (bts s) 0 w q ys AC Q0 E1) as [N C]. fold n in N, C.
  assert (LY : len ys = n) by (destruct C; lia).
  assert (exists k ys', 0 <= k /\ (is_first s = false -> k = 0) /\ (r == q * inject_Z (2 ^ k))%Q /\ (k = 0 \/ (r <= 10000)%Q) /\
    tallied (qpower (1 + u) (Z.to_nat k)) e n q (2 ^ k) (seen (rt M) 0 w A) (seen (rt M) 0 w (bts s)) ys' /\ delay_of M (len ys') ys' r = Ok d1) as (k & ys' & K0 & K1 & K2 & K3 & K4 & K5).
  { destruct (is_first s).
    - destruct (confirm_tallied u e n q (seen (rt M) 0 w A) (seen (rt M) 0 w (bts s)) M P RO U E0 (REP eq_refl) (S (length ys)) 0 ys q dt1 sg r d1) as (k & ys' & K); try assumption.
      + lia.
      + change (inject_Z (2 ^ 0)) with 1%Q. ring.
      + now left.
      + now rewrite LY.
      + exists k, ys'. split; [tauto|]. split; [discriminate|]. tauto.
    - injection E4 as <- <-. exists 0, ys. split; [lia|]. split; [reflexivity|]. split; [change (inject_Z (2 ^ 0)) with 1%Q; ring|]. split; [now left|].
      split; [exact C|now rewrite LY]. }
  assert (M0 : 0 < 2 ^ k) by (apply Z.pow_pos_nonneg; lia).
  assert (M1 : (inject_Z 1 <= inject_Z (2 ^ k))%Q) by (rewrite <- Zle_Qle; lia). change (inject_Z 1) with 1%Q in M1.
  assert (R1 : (0 < r)%Q) by (rewrite K2; apply Qmult_lt_0_compat; [exact Q0|lra]).
  assert (MD : n mod 2 ^ k = 0) by (destruct K4 as [L _]; rewrite <- L; apply Z.mod_mul; lia).
  assert (ND : n / 2 ^ k = len ys') by (destruct K4 as [L _]; rewrite <- L; apply Z.div_mul; lia).
  assert (LN : 0 < len ys') by (destruct K4 as [L _]; nia).
  destruct (CL k K0 K1 MD) as (AL & LW & S1 & S2); [destruct K3 as [K3|K3]; [now left|right; now rewrite <- K2]|exact K2|]. fold q n sep in AL, S1, S2.
  set (m := 2 ^ k) in *. set (rr := (q * inject_Z m)%Q) in *. assert (RR : (0 < rr)%Q) by lra.
  set (J := ((2049 # 2048) * j)%Q) in *. assert (J1 : (0 <= J)%Q) by (unfold J; lra).
  assert (TD : forall s0 a b, {coincident D F j (dt s) (f s) s0 a b} + {~ coincident D F j (dt s) (f s) s0 a b}).
  { intros s0 a b. unfold coincident. destruct (Qlt_le_dec j (Qabs (dt s + f s * (s0 + b) - (D + (1 + F) * (s0 + a))))) as [L|L]; [right|left; exact L]. now apply Qlt_not_le. }
  destruct (correlate_tallied e M P A (bts s) sep w r ys2 AC R1 E8) as [_ C2]. fold n in C2. assert (LY2 : len ys2 = n) by (destruct C2; lia).
  destruct (delay_rounded u M ys' r d1 RO U R1 LN K5) as (p1 & P1 & B1).
  destruct (delay_rounded u M ys2 r d2 RO U R1 ltac:(lia)) as (p2 & P2 & B2); [now rewrite LY2|].
  destruct (peak_coincidence _ e n q m _ _ ys' _ p1 (TD 0%Q) M0 K4 S1 P1) as (a1 & b1 & I1 & J1' & T1 & G1).
  assert (S2' : stands 1 e n r 1 (seen (rt M) sep w A) (seen (rt M) sep w (bts s)) (coincident D F j (dt s) (f s) sep)).
  { destruct S2 as (g0 & G0 & S2). exists g0. split; [exact G0|]. intros g G NG. rewrite !(pairs_same n r rr 1 _ _ _ _ _ K2 (same_refl _) (same_refl _)). apply S2; [exact G|].
    intros a b Ia Ib Tab. rewrite <- (lag_eq n r rr a a b b K2) by reflexivity. now apply NG. }
  destruct (peak_coincidence _ e n r 1 _ _ ys2 _ p2 (TD sep) ltac:(lia) C2 S2' P2) as (a2 & b2 & I2 & J2' & T2 & G2).
  apply seen_bounds in I1. apply seen_bounds in I2. apply (coincident_near2 _ _ _ _ _ _ _ _ LF) in T1, T2. fold J in T1, T2.
  assert (A1 : (Qabs (remaining D F (dt s) (f s) (0 + a1)) + (rr + J) <= inject_Z n * q / 2)%Q) by (apply AL; left; lra).
  assert (A2 : (Qabs (remaining D F (dt s) (f s) (sep + a2)) + (rr + J) <= inject_Z n * q / 2)%Q) by (apply AL; right; lra).
  assert (NQ : (0 < inject_Z n)%Q) by (rewrite <- (Zlt_Qlt 0); lia).
  pose proof (lag_near n q m a1 b1 _ J M0 ltac:(lia) MD Q0 T1 A1) as L1.
  pose proof (lag_near n r 1 a2 b2 (remaining D F (dt s) (f s) (sep + a2)) J ltac:(lia) ltac:(rewrite Z.div_1_r; lia) (Z.mod_1_r n) R1 T2) as L2.
  assert (QX : (1 * q <= inject_Z m * q)%Q) by (apply Qmult_le_compat_r; lra). assert (QR : (q <= r)%Q) by (rewrite K2; unfold rr; lra).
  assert (L2' : (Qabs (inject_Z (centered (n / 1) (lag n r a2 b2 / 1) * 1) * r - remaining D F (dt s) (f s) (sep + a2)) <= r * inject_Z 1 + J)%Q).
  { apply L2. assert (q * inject_Z n <= r * inject_Z n)%Q by (apply Qmult_le_compat_r; lra).
    setoid_replace (inject_Z n * r / 2)%Q with (r * inject_Z n * (1 # 2))%Q by (unfold Qdiv; change (/ 2)%Q with (1 # 2)%Q; ring).
    setoid_replace (inject_Z n * q / 2)%Q with (q * inject_Z n * (1 # 2))%Q in A2 by (unfold Qdiv; change (/ 2)%Q with (1 # 2)%Q; ring).
    change (inject_Z 1) with 1%Q. assert (r == rr)%Q by exact K2. lra. }
  clear L2. rewrite G1, ND in L1. rewrite G2, Z.div_1_r, Z.mul_1_r in L2'. change (inject_Z 1) with 1%Q in L2'.
  assert (EQ1 : (inject_Z (centered (len ys') p1 * m) * q == inject_Z (centered (len ys') p1) * r)%Q) by (rewrite inject_Z_mult, K2; unfold rr; ring). rewrite EQ1 in L1.
  rewrite LY2 in B2. assert (LE : (inject_Z (len ys') * r <= inject_Z n * r)%Q).
  { apply Qmult_le_compat_r; [|lra]. rewrite <- Zle_Qle. destruct K4 as [L _]. fold m in L. nia. }
  assert (B1' : (u * (inject_Z (len ys') * r) <= u * (inject_Z n * r))%Q) by (rewrite !(Qmult_comm u); now apply Qmult_le_compat_r).
  assert (WI : (wider u n j r == r + J + u * (inject_Z n * r))%Q) by (unfold wider, J; ring). assert (UN : (0 <= u * (inject_Z n * r))%Q) by (apply Qmult_le_0_compat; [exact U|]; apply Qmult_le_0_compat; lra).
  exists a1, a2. split; [lra|]. split; [lra|]. rewrite WI. split; [lra|].
  assert (DL : forall tau, (delay_left D F s tau == remaining D F (dt s) (f s) tau)%Q).
  { intros tau. unfold delay_left, corrected, remaining. cbn [fst snd]. setoid_replace (1 + (f s - 1))%Q with (f s) by ring. reflexivity. }
  rewrite !DL. split.
  - setoid_replace (remaining D F (dt s) (f s) a1) with (remaining D F (dt s) (f s) (0 + a1)) by (unfold remaining; now rewrite Qplus_0_l).
    fold rr in L1. apply Qabs_Qle_condition in L1. apply Qabs_Qle_condition in B1. apply Qabs_Qle_condition. lra.
  - apply Qabs_Qle_condition in L2'. apply Qabs_Qle_condition in B2. apply Qabs_Qle_condition. lra.
Qed.
(** ** All iterations *)
Lemma history_facts M P A last dur s0 s ws : is_first s0 = true -> (0 < resolution s0)%Q -> (0 < target_resolution P)%Q -> history M P A last dur s0 s ws ->
  is_first s = no_width ws /\ (0 < resolution s)%Q /\ (ws = [] -> s = s0).
Proof.
  intros F0 R0 T0 H. induction H as [|s ws r d1 d2 s' H IH FI IT]; [tauto|]. split; [|split; [|discriminate]].
  - unfold iteration in IT. cbn [no_width]. repeat (match type of IT with bind _ _ = _ => apply bind_ok in IT as (? & _ & IT) | (let '(_, _) := ?x in _) = _ => destruct x | (if ?c then _ else _) = _ => destruct c; try discriminate end; cbv zeta in IT).
    now injection IT as <-.
  - unfold iteration in IT. repeat (match type of IT with bind _ _ = _ => apply bind_ok in IT as (? & _ & IT) | (let '(_, _) := ?x in _) = _ => destruct x | (if ?c then _ else _) = _ => destruct c; try discriminate end; cbv zeta in IT).
    injection IT as <-. cbn [resolution]. match goal with |- (0 < qmax ?x ?y)%Q => destruct (qmax_cases x y) as [(-> & L)|(-> & L)] end; lra.
Qed.
Lemma history_length M P A last dur s0 s ws : history M P A last dur s0 s ws -> len (bts s) = len (bts s0).
Proof. intros H. induction H as [|s ws r d1 d2 s' H IH FI IT]; [reflexivity|]. now rewrite (again_length _ _ _ _ _ _ _ IT). Qed.
Lemma accuracy_wider u M P ats e d s0 D F W (h : Q -> Q) : rounds u M -> small u -> (0 < separation_duration P)%Q -> (0 <= W)%Q ->
  (forall s ws r d1 d2, history M P ats e d s0 s ws -> (Qabs (f s - 1) <= 1 # 4096)%Q -> finds M P ats e d s r d1 d2 -> genuine D F (separation_duration P) W s (h r) d1 d2) ->
  forall fuel s ws x y, history M P ats e d s0 s ws -> invariant u D F (separation_duration P) W s (map h ws) -> (is_first s = true \/ ws <> []) ->
  iterate fuel M P ats e d s = Ok (x, y) ->
  exists ws', ended M P ats e d s0 ws' /\ (Qabs (y - F) <= freq_error u F (separation_duration P) W (map h ws') + u)%Q /\
    (Qabs (x - D) <= time_error u F (separation_duration P) W (map h ws') D + 2 * u * (Qabs x + 100000000))%Q.
Proof.
  intros R U S HW GEN. induction fuel as [|k IH]; intros s ws x y RE INV NE H; [discriminate|]. cbn [iterate] in H.
  destruct (iteration M P ats e d s) as [n|] eqn:IT; cbn [bind] in H; [|discriminate].
  destruct (iteration_cases u M P ats e d s n R U S (proj1 INV) IT) as (r & d1 & d2 & FI & CA). pose proof (GEN s ws r d1 d2 RE (proj1 INV) FI) as G.
  assert (OUT : forall f0 E, (Qabs (f0 - 1) <= 1 # 4096)%Q -> (Qabs (1 + F - f0) <= E)%Q -> (Qabs (rs M (f0 - 1) - F) <= E + u)%Q).
  { intros f0 E A B. assert (C : (Qabs (f0 - 1) <= 1)%Q) by (eapply Qle_trans; [exact A|vm_compute; discriminate]).
    pose proof (round_le u M _ _ R U C) as C2. apply qabs_both in B, C2. apply qabs_both. lra. }
  destruct CA as [(-> & NF & SPU)|(dt' & f' & HD & HF & LT & [[-> HR]|(s' & -> & <- & <- & NF)])].
  - injection H as <- <-. destruct INV as (LT & EF & ED). exists ws. destruct NE as [NE|NE]; [congruence|].
    split; [eexists; eexists; eexists; split; [exact IT|left; split; [assumption|]; split; [assumption|]; exists r, d1, d2; now split]|]. split; [now apply OUT|]. rewrite Qabs_Qminus. exact ED.
  - injection H as <- <-. destruct (invariant_next u D F P W s (map h ws) (h r) d1 d2 dt' f' S HW INV G HD HF) as (A & B).
    exists (r :: ws). split; [eexists; eexists; eexists; split; [exact IT|right; exists r, d1, d2, ws; repeat split; assumption]|].
    split; [now apply OUT|]. rewrite Qabs_Qminus. exact B.
  - destruct (invariant_next u D F P W s (map h ws) (h r) d1 d2 (dt s') (f s') S HW INV G HD HF) as (A & B).
    apply (IH s' (r :: ws) x y); [eapply history_S; eassumption| |right; discriminate|exact H].
    split; [exact LT|]. split; assumption.
Qed.
(** only what the search meets has to be clear *)
Lemma c99_met u e fuel M P A B res D F W j x y a b : rounds u M -> by_value M -> (0 <= u)%Q -> (u <= 1 # 2 ^ 50)%Q -> accurate_to e (num_bins P) (len A) (len B) M -> (0 <= e)%Q ->
  (0 < target_resolution P)%Q -> (0 < res)%Q -> representable M res -> (0 < separation_duration P)%Q -> (0 <= W)%Q -> (0 <= j)%Q ->
  getitem A (-1) = Ok a -> getitem B (-1) = Ok b ->
  let last := qmin a b in let dur := rs M (rs M (inject_Z (num_wraps P) * res) * inject_Z (num_bins P))%Q in let s0 := mkS B res 0 1 true in
  (forall s ws k r d1 d2, history M P A last dur s0 s ws -> finds M P A last dur s r d1 d2 -> (r == resolution s * inject_Z (2 ^ k))%Q -> doublings P ws (resolution s) k ->
     clear_state u e (rt M) P A D F j W (used_duration M P last dur (resolution s)) s k) ->
  time_freq fuel M P A B res = Ok (x, y) ->
  exists ws, ended M P A last dur s0 ws /\ let ws' := map (wider u (num_bins P) j) ws in
    (Qabs (y - F) <= freq_error u F (separation_duration P) W ws' + u)%Q /\
    (Qabs (x - D) <= time_error u F (separation_duration P) W ws' D + 2 * u * (Qabs x + 100000000))%Q.
Proof.
  intros RO BV U0 U1 AC E0 T0 R0 REP S0 W0 J0 Ga Gb last dur s0 CL H. unfold time_freq in H. rewrite Ga, Gb in H. cbn [bind] in H. fold last dur in H.
  apply (accuracy_wider u M P A last dur s0 D F W (wider u (num_bins P) j) RO (conj U0 (Qle_trans u (1 # 2 ^ 50) (1 # 1000000000) U1 ltac:(vm_compute; discriminate))) S0 W0) with (fuel := fuel) (s := s0) (ws := []).
  - intros s ws r d1 d2 HI LF FI. destruct (history_facts M P A last dur s0 s ws eq_refl R0 T0 HI) as (F1 & R1 & E1).
    apply (finds_genuine u e M P A D F j W last dur s r d1 d2); try assumption.
    + rewrite (history_length M P A last dur s0 s ws HI). exact AC.
    + intros FT. assert (ws = []) as -> by (destruct ws; [reflexivity|cbn [no_width] in F1; congruence]). rewrite (E1 eq_refl). exact REP.
    + intros k K0 K1 K2 K3 K4. apply (CL s ws k r d1 d2 HI FI K4). split; [exact K0|]. split; [|tauto]. intros NE. apply K1. rewrite F1. now destruct ws.
  - constructor.
  - split; [vm_compute; discriminate|]. cbn [map freq_error time_error s0 f dt]. split; [apply Qle_lteq; right; apply Qabs_wd; ring|].
    assert (E : (Qabs (D - 0) == Qabs D)%Q) by (apply Qabs_wd; ring). rewrite E. change (Qabs 0) with 0%Q. assert (0 <= u * 100000000)%Q by lra. lra.
  - now left.
  - exact H.
Qed.
Lemma c99 u e fuel M P A B res D F W j x y a b : rounds u M -> by_value M -> (0 <= u)%Q -> (u <= 1 # 2 ^ 50)%Q -> accurate_to e (num_bins P) (len A) (len B) M -> (0 <= e)%Q ->
  (0 < target_resolution P)%Q -> (0 < res)%Q -> representable M res -> (0 < separation_duration P)%Q -> (0 <= W)%Q -> (0 <= j)%Q ->
  getitem A (-1) = Ok a -> getitem B (-1) = Ok b ->
  let last := qmin a b in let dur := rs M (rs M (inject_Z (num_wraps P) * res) * inject_Z (num_bins P))%Q in let s0 := mkS B res 0 1 true in
  (forall s ws k, history M P A last dur s0 s ws -> doublings P ws (resolution s) k ->
     clear_state u e (rt M) P A D F j W (used_duration M P last dur (resolution s)) s k) ->
  time_freq fuel M P A B res = Ok (x, y) ->
  exists ws, ended M P A last dur s0 ws /\ let ws' := map (wider u (num_bins P) j) ws in
    (Qabs (y - F) <= freq_error u F (separation_duration P) W ws' + u)%Q /\
    (Qabs (x - D) <= time_error u F (separation_duration P) W ws' D + 2 * u * (Qabs x + 100000000))%Q.
Proof. intros RO BV U0 U1 AC E0 T0 R0 REP S0 W0 J0 Ga Gb last dur s0 CL. apply (c99_met u e); try assumption. intros s ws k r d1 d2 HI _ _. now apply CL. Qed.
Lemma float_by_value p M : (forall x, rs M x = fl p x) -> by_value M.
Proof. intros H x y E. rewrite !H. now rewrite (fl_eq p x y E). Qed.
Lemma float_representable p M x : (forall y, rs M y = fl p y) -> (fl p x == x)%Q -> representable M x.
Proof.
  intros H E k K. rewrite H. assert (S : (x * inject_Z (2 ^ k) == x * pow2 k)%Q) by (now rewrite pow2_Z).
  rewrite (fl_eq p _ _ S), fl_scale, E. now symmetry.
Qed.
(** ** Deciding whether the coincidences stand out *)
Definition stands_b (c e : Q) (n : Z) (res : Q) (m : Z) (A B : list Q) (T : Q -> Q -> bool) (g0 : Z) : bool :=
  forallb (fun i => let g := Z.of_nat i in
    existsb (fun z => T (fst z) (snd z) && (lag n res (fst z) (snd z) / m =? g)) (list_prod A B) ||
    negb (Qle_bool ((2 - c) * inject_Z (pairs n res m A B g0) - c * (e * inject_Z m)) (c * (inject_Z (pairs n res m A B g) + e * inject_Z m)))%Q) (seq 0 (Z.to_nat (n / m))).
Lemma stands_ok c e n res m A B D F j dt f s g0 : 0 <= g0 < n / m -> stands_b c e n res m A B (coincident_b D F j dt f s) g0 = true -> stands c e n res m A B (coincident D F j dt f s).
Proof.
  intros G H. exists g0. split; [exact G|]. intros g Hg N. unfold stands_b in H. rewrite forallb_forall in H. specialize (H (Z.to_nat g)). cbv zeta in H. rewrite Z2Nat.id in H by lia.
  specialize (H ltac:(apply in_seq; lia)). apply orb_true_iff in H as [H|H].
  - apply existsb_exists in H as ((a & b) & I & C). apply in_prod_iff in I as [IA IB]. cbn [fst snd] in C. apply andb_true_iff in C as [C1 C2]. exfalso. apply (N a b IA IB); [now apply Qle_bool_iff|lia].
  - apply Qnot_le_lt. intros L. apply Qle_bool_iff in L. rewrite L in H. discriminate.
Qed.
