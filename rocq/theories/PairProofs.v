(** The search measures differences of pairs of events. *)
From Coq Require Import QArith Qabs Qround Qminmax Lqa Permutation.
From Coq Require Import ZifyBool.
From Verif Require Import Float Base TimestampsModel TimestampsSpec EpochsModel UtilsModel UtilsSpec UtilsProofs UtilsProofs2 FpfindModel FpfindSpec FpfindProofs FpfindProofs2 FpfindProofs3 MainProofs3 PairSpec.
Local Open Scope Z_scope.

(** ** Counting *)
Lemma sum_delta F z N : 0 <= z -> sum_below N (fun i => (if z =? Z.of_nat i then 1 else 0) * F i) = if z <? Z.of_nat N then F (Z.to_nat z) else 0.
Proof.
  intros Z0. induction N as [|N IH]; cbn [sum_below]; [now replace (z <? Z.of_nat 0) with false by lia|].
  rewrite IH. destruct (z =? Z.of_nat N) eqn:E.
  - replace (z <? Z.of_nat N) with false by lia. replace (z <? Z.of_nat (S N)) with true by lia. replace (Z.to_nat z) with N by lia. lia.
  - destruct (z <? Z.of_nat N) eqn:L; [replace (z <? Z.of_nat (S N)) with true by lia|replace (z <? Z.of_nat (S N)) with false by lia]; lia.
Qed.
Lemma lag_bin n res a b g : 0 < n -> 0 <= g < n -> (lag n res a b / 1 =? g) = (bin_index n res b =? (bin_index n res a + g) mod n).
Proof.
  intros N G. rewrite Z.div_1_r. unfold lag, bin_index. set (x := Qfloor (b / res)). set (y := Qfloor (a / res)).
  rewrite Zplus_mod_idemp_l. apply Bool.eq_iff_eq_true. rewrite !Z.eqb_eq. split; intros H.
  - rewrite <- H, Zplus_mod_idemp_r. f_equal. lia.
  - rewrite Zminus_mod, H, <- Zminus_mod. replace (y + g - y) with g by lia. now apply Z.mod_small.
Qed.
Lemma hits_row n res a B g : 0 < n -> 0 <= g < n ->
  len (filter (fun c => lag n res (fst c) (snd c) / 1 =? g) (map (fun b => (a, b)) B)) = hits n res ((bin_index n res a + g) mod n) B.
Proof.
  intros N G. induction B as [|b B IH]; [reflexivity|]. cbn [map filter hits fst snd]. rewrite lag_bin by assumption.
  destruct (bin_index n res b =? _); autorewrite with lens; rewrite IH; lia.
Qed.
Lemma pairs_correlation n res A B g : 0 < n -> 0 <= g < n ->
  sum_below (Z.to_nat n) (fun i => hits n res (Z.of_nat i) A * hits n res ((Z.of_nat i + g) mod n) B) = pairs n res 1 A B g.
Proof.
  intros N G. unfold pairs. induction A as [|a A IH].
  - cbn [hits list_prod filter]. change (len (@nil (Q * Q))) with 0. generalize (Z.to_nat n). intros m. induction m as [|m IH]; cbn [sum_below]; [reflexivity|]. rewrite IH. lia.
  - cbn [list_prod hits]. rewrite filter_app. autorewrite with lens. rewrite hits_row, <- IH by assumption.
    pose proof (bin_range n res a N) as R.
    pose proof (sum_delta (fun i => hits n res ((Z.of_nat i + g) mod n) B) (bin_index n res a) (Z.to_nat n) ltac:(lia)) as D.
    replace (bin_index n res a <? Z.of_nat (Z.to_nat n)) with true in D by lia. cbv beta in D. rewrite Z2Nat.id in D by lia. rewrite <- D.
    rewrite <- (Z.mul_1_l (sum_below (Z.to_nat n) (fun i => hits n res (Z.of_nat i) A * _))), <- sum_below_lin.
    apply sum_below_ext. intros i _. rewrite Z.mul_add_distr_r. lia.
Qed.
Lemma pairs_double n res m A B g : 0 < m -> pairs n res (2 * m) A B g = pairs n res m A B (2 * g) + pairs n res m A B (2 * g + 1).
Proof.
  intros M0. unfold pairs. induction (list_prod A B) as [|c l IH]; [reflexivity|]. cbn [filter].
  set (x := lag n res (fst c) (snd c)) in *. assert (D : x / (2 * m) = x / m / 2) by (rewrite Z.mul_comm; symmetry; apply Z.div_div; lia).
  rewrite D. set (y := x / m) in *.
  destruct (y / 2 =? g) eqn:E1, (y =? 2 * g) eqn:E2, (y =? 2 * g + 1) eqn:E3; autorewrite with lens; rewrite ?IH; lia.
Qed.

(** ** The correlation of a window *)
Definition counted (e : Q) (n : Z) (res : Q) (m : Z) (A B : list Q) (ys : list Q) : Prop :=
  len ys * m = n /\ forall g, 0 <= g < len ys -> (Qabs (nth (Z.to_nat g) ys 0 - inject_Z (pairs n res m A B g)) <= e * inject_Z m)%Q.
Lemma slice_view M ts s d l : exact_fpu M -> slice_timestamps (rt M) ts (Some s) (Some d) = Ok l -> same_values l (view s d ts).
Proof.
  intros [RT _] H. unfold slice_timestamps in H. cbn [bind] in H. apply bind_ok in H as (x & _ & H). injection H as <-. clear x. unfold view, window.
  induction ts as [|t ts IH]; cbn [filter map]; [constructor|].
  replace (Qle_bool 0 (rt M (t - s))) with (Qle_bool s t) by (apply Qle_bool_cong; rewrite RT; lra).
  destruct (Qle_bool s t) eqn:L; cbn [andb filter map]; [|exact IH].
  replace (Qltb (rt M (t - s)) d) with (negb (Qle_bool (s + d) t)).
  - destruct (negb (Qle_bool (s + d) t)); cbn [map]; [constructor; [apply RT|]|]; exact IH.
  - unfold Qltb. f_equal. apply Qle_bool_cong. rewrite RT. split; lra.
Qed.
Lemma histogram_hits arr n res h : (0 < res)%Q -> histogram arr n res = Ok h ->
  0 < n /\ length h = Z.to_nat n /\ (forall k, 0 <= k < n -> nth (Z.to_nat k) h 0 = hits n res k arr) /\ Forall (fun v => 0 <= v) h.
Proof.
  intros R H. assert (arr <> [] /\ 0 < n) as [A N].
  { unfold histogram in H. destruct arr; [discriminate|]. split; [discriminate|]. destruct (n <=? 0) eqn:E; [discriminate|lia]. }
  pose proof (histogram_nonneg _ _ _ _ N R H) as NN.
  destruct (histogram_ok arr n res A N R) as (h' & E & L & K & _). rewrite E in H. injection H as ->.
  split; [exact N|]. split; [unfold len in L; lia|]. split; assumption.
Qed.
Lemma hits_within l n res h c : (0 < res)%Q -> histogram l n res = Ok h -> len l <= c -> histogram_of n c h.
Proof.
  intros R H C. assert (l <> [] /\ 0 < n) as [L N].
  { unfold histogram in H. destruct l; [discriminate|]. split; [discriminate|]. destruct (n <=? 0) eqn:E; [discriminate|lia]. }
  now apply (histogram_within l n res).
Qed.
(** an iteration keeps the number of target times *)
Lemma again_length M P A last dur s s' : iteration M P A last dur s = Ok (Again s') -> len (bts s') = len (bts s).
Proof.
  intros IT. unfold iteration in IT. repeat (match type of IT with bind _ _ = _ => apply bind_ok in IT as (? & _ & IT) | (let '(_, _) := ?x in _) = _ => destruct x | (if ?c then _ else _) = _ => destruct c; try discriminate end; cbv zeta in IT).
  injection IT as <-. cbn [bts]. unfold len. now rewrite map_length.
Qed.
Lemma accurate_to_less e n a b a' b' M : a <= a' -> b <= b' -> accurate_to e n a' b' M -> accurate_to e n a b M.
Proof.
  intros A B AC h k (H1 & H2 & H3) (K1 & K2 & K3). apply AC; [split; [exact H1|]; split; [exact H2|]; lia|split; [exact K1|]; split; [exact K2|]; lia].
Qed.
Lemma correlate_counted e M P ats b s w res ys : exact_fpu M -> accurate_to e (num_bins P) (len ats) (len b) M -> (0 < res)%Q -> correlate M P ats b s w res = Ok ys ->
  0 < num_bins P /\ counted e (num_bins P) res 1 (view s w ats) (view s w b) ys.
Proof.
  intros EX AC R H. unfold correlate in H. apply bind_ok in H as (a1 & A1 & H). apply bind_ok in H as (b1 & B1 & H).
  apply bind_ok in H as (ha & Ha & H). apply bind_ok in H as (hb & Hb & H).
  apply (slice_view M) in A1; [|exact EX]. apply (slice_view M) in B1; [|exact EX].
  rewrite (histogram_same _ _ _ _ A1) in Ha. rewrite (histogram_same _ _ _ _ B1) in Hb.
  set (A := view s w ats) in *. set (B := view s w b) in *. set (n := num_bins P) in *.
  destruct (histogram_hits _ _ _ _ R Ha) as (N & LA & KA & PA). destruct (histogram_hits _ _ _ _ R Hb) as (_ & LB & KB & PB).
  unfold get_xcorr in H. destruct (len ha =? 1) eqn:O; [discriminate|]. destruct (Z.odd (len ha)); [discriminate|]. injection H as <-.
  destruct (AC ha hb) as [LX NX].
  { apply (hits_within A n res ha _ R Ha). unfold A, view, len. rewrite map_length. apply inj_le, window_length_le. }
  { apply (hits_within B n res hb _ R Hb). unfold B, view, len. rewrite map_length. apply inj_le, window_length_le. }
  split; [exact N|]. split; [unfold len; rewrite LX, LA; lia|]. unfold len. rewrite LX, LA, Z2Nat.id by lia. intros g G.
  rewrite Qmult_1_r. rewrite <- (pairs_correlation n res A B g N G).
  replace (sum_below (Z.to_nat n) _) with (correlation ha hb (Z.to_nat g)); [apply NX; lia|].
  unfold correlation. rewrite LA. apply sum_below_ext. intros i I.
  rewrite <- (KA (Z.of_nat i)), Nat2Z.id by lia. f_equal.
  rewrite <- KB by (apply Z.mod_pos_bound; lia). f_equal.
  rewrite Z2Nat.inj_mod, Z2Nat.inj_add, Nat2Z.id by lia. reflexivity.
Qed.
Lemma merge_nth M : exact_fpu M -> forall k ys ys1, (length ys <= k)%nat -> merge M ys = Ok ys1 -> length ys = (2 * length ys1)%nat /\
  forall i, (i < length ys1)%nat -> (nth i ys1 0 == nth (2 * i) ys 0 + nth (2 * i + 1) ys 0)%Q.
Proof.
  intros EX. induction k as [|k IH]; intros ys ys1 L H.
  - destruct ys; [|cbn in L; lia]. injection H as <-. split; [reflexivity|]. intros i I. cbn in I. lia.
  - destruct ys as [|a [|b r]]; [injection H as <-; split; [reflexivity|]; intros i I; cbn in I; lia|discriminate|].
    cbn [merge] in H. apply bind_ok in H as (m & E & H). injection H as <-. cbn [length] in L. destruct (IH r m ltac:(lia) E) as [LM NM].
    split; [cbn [length]; lia|]. intros [|i] I; [apply EX|]. cbn [length] in I.
    replace (2 * S i)%nat with (S (S (2 * i))) by lia. replace (S (S (2 * i)) + 1)%nat with (S (S (2 * i + 1))) by lia. cbn [nth]. apply NM. lia.
Qed.
Lemma merge_counted e n res m A B M ys ys1 : exact_fpu M -> 0 < m -> counted e n res m A B ys -> merge M ys = Ok ys1 -> counted e n res (2 * m) A B ys1.
Proof.
  intros EX M0 [L C] H. destruct (merge_nth M EX (length ys) ys ys1 (le_n _) H) as [LM NM].
  split; [unfold len in *; nia|]. intros g G. rewrite (NM (Z.to_nat g)) by (unfold len in G; lia).
  rewrite pairs_double, inject_Z_plus, inject_Z_mult by assumption.
  pose proof (C (2 * g) ltac:(unfold len in *; lia)) as C0. pose proof (C (2 * g + 1) ltac:(unfold len in *; lia)) as C1.
  replace (Z.to_nat (2 * g)) with (2 * Z.to_nat g)%nat in C0 by lia. replace (Z.to_nat (2 * g + 1)) with (2 * Z.to_nat g + 1)%nat in C1 by lia.
  apply Qabs_Qle_condition in C0. apply Qabs_Qle_condition in C1. apply Qabs_Qle_condition. change (inject_Z 2) with 2%Q.
  set (u := (e * inject_Z m)%Q) in *. setoid_replace (e * (2 * inject_Z m))%Q with (2 * u)%Q by (unfold u; ring). clearbody u. split; lra.
Qed.
Lemma axis_exact M n res : exact_fpu M -> 0 <= n -> len (axis M n res) = n /\ even_axis res (axis M n res).
Proof.
  intros [_ RS] N. unfold axis. split; [unfold len; rewrite map_length, seq_length; lia|].
  intros i I. rewrite map_length, seq_length in I.
  rewrite (nth_indep _ 0%Q (rs M (inject_Z (Z.of_nat 0) * res)%Q)) by (now rewrite map_length, seq_length).
  rewrite (map_nth (fun i => rs M (inject_Z (Z.of_nat i) * res)%Q)), seq_nth by assumption. cbn [Nat.add]. apply RS.
Qed.
(** the delay of counted pairs *)
Lemma delay_frequent e n res m A B M ys r d : exact_fpu M -> 0 < m -> 0 < n -> (0 < res)%Q -> (r == res * inject_Z m)%Q -> counted e n res m A B ys ->
  delay_of M (len ys) ys r = Ok d -> frequent e n res m A B d.
Proof.
  intros EX M0 N R ER [L C] H. assert (LN : 0 < len ys) by nia. assert (ND : n / m = len ys) by (rewrite <- L; apply Z.div_mul; lia).
  destruct (axis_exact M (len ys) r EX ltac:(lia)) as [LX EV].
  assert (M1 : (0 < inject_Z m)%Q) by (rewrite <- (Zlt_Qlt 0); lia).
  assert (R0 : (0 < r)%Q) by (rewrite ER; apply Qmult_lt_0_compat; assumption).
  assert (NE : ys <> []) by (intros ->; now cbn in LN).
  destruct (c50 ys (axis M (len ys) r) r NE LX EV R0) as (p & a & b & (P0 & P1 & P2) & G & V & _).
  unfold delay_of in H. rewrite G in H. cbn [bind] in H. injection H as <-.
  unfold frequent. exists p. rewrite ND. split; [exact P0|].
  assert (S : forall h, 0 <= h < len ys -> (- (e * inject_Z m) <= nth (Z.to_nat h) ys 0 - inject_Z (pairs n res m A B h) <= e * inject_Z m)%Q).
  { intros h Hh. apply Qabs_Qle_condition. now apply C. }
  set (u := (e * inject_Z m)%Q) in *. assert (U : (2 * e * inject_Z m == 2 * u)%Q) by (unfold u; ring). clearbody u.
  split; [|split].
  - intros h Hh. rewrite U. pose proof (P1 h Hh). pose proof (S h Hh). pose proof (S p P0). lra.
  - intros h Hh. rewrite U. pose proof (P2 h Hh). pose proof (S h ltac:(lia)). pose proof (S p P0). lra.
  - rewrite V. destruct (p =? 0) eqn:E.
    + replace p with 0 by lia. unfold centered. replace (2 * 0 <? len ys) with true by lia. cbn [Z.mul]. change (inject_Z 0) with 0%Q. ring.
    + rewrite inject_Z_mult, ER. ring.
Qed.
(** ** The loop of the first iteration *)
Lemma confirm_counted e n res A B M P : exact_fpu M -> forall fuel k ys r dt1 sig r' d, 0 <= k -> (r == res * inject_Z (2 ^ k))%Q ->
  (k = 0 \/ (r <= 10000)%Q) -> counted e n res (2 ^ k) A B ys -> delay_of M (len ys) ys r = Ok dt1 -> confirm fuel M P ys r dt1 sig = Ok (r', d) ->
  exists k' ys', 0 <= k' /\ (r' == res * inject_Z (2 ^ k'))%Q /\ (k' = 0 \/ (r' <= 10000)%Q) /\ counted e n res (2 ^ k') A B ys' /\ delay_of M (len ys') ys' r' = Ok d.
Proof.
  intros EX. induction fuel as [|fuel IH]; intros k ys r dt1 sig r' d K ER OR C D H; [discriminate|]. cbn [confirm] in H.
  destruct (Qeq_bool sig 0); [discriminate|]. destruct (Qle_bool (threshold P) sig).
  - injection H as <- <-. exists k, ys. tauto.
  - apply bind_ok in H as (ys1 & E1 & H). destruct (Qltb 10000 _) eqn:T; [discriminate|]. apply Qltb_ge in T.
    apply bind_ok in H as (d1 & E2 & H). apply bind_ok in H as (sg & E3 & H).
    apply (IH (k + 1) ys1 (rs M (r * 2)%Q) d1 sg r' d); try assumption; [lia|..].
    + rewrite (proj2 EX), ER, Z.pow_add_r, inject_Z_mult by lia. change (inject_Z (2 ^ 1)) with 2%Q. ring.
    + now right.
    + rewrite Z.pow_add_r, Z.mul_comm by lia. change (2 ^ 1) with 2. apply (merge_counted _ _ _ _ _ _ M ys); try assumption. apply Z.pow_pos_nonneg; lia.
Qed.
Lemma duration_exact M P last dur res : exact_fpu M -> 0 < num_bins P -> (0 < res)%Q ->
  window_length (num_bins P) res dur last (used_duration M P last dur res).
Proof.
  intros [RT RS] N R. unfold used_duration, window_length. set (n := num_bins P) in *.
  assert (N1 : (0 < inject_Z n)%Q) by (rewrite <- (Zlt_Qlt 0); lia).
  assert (Y : (0 < res * inject_Z n)%Q) by (apply Qmult_lt_0_compat; assumption). set (y := (res * inject_Z n)%Q) in *.
  assert (EY : (rs M y == y)%Q) by apply RS.
  exists (rneQ (rs M (dur / rs M y))), (Qfloor (rt M (last / rs M y))). split; [|split].
  - rewrite (rneQ_eq _ (dur / y)%Q) by (now rewrite RS, EY). apply rneQ_nearest.
  - rewrite (Qfloor_comp _ (last / y)%Q) by (now rewrite RT, EY). now apply quotient_floor.
  - set (k := Z.min _ _). set (c := (_ <? _)%Z). assert (RD : forall x, ((if c then rt M else rs M) x == x)%Q) by (intros x; destruct c; auto).
    rewrite !RD. unfold y. ring.
Qed.
Lemma qmax_Qmax x y x' y' : (x == x')%Q -> (y == y')%Q -> (qmax x y == Qmax x' y')%Q.
Proof.
  intros E F. destruct (qmax_cases x y) as [(-> & L)|(-> & L)].
  - rewrite Q.max_l; [exact E|]. now rewrite <- E, <- F.
  - rewrite Q.max_r; [exact F|]. rewrite <- E, <- F. lra.
Qed.
(** ** One iteration *)
Definition outcome (P : params) (e : Q) (A : list Q) (dur last : Q) (s : fstate) (nx : next) : Prop :=
  exists r d1 d2, measured e P A dur last (is_first s) (resolution s) (bts s) r d1 d2 /\
    (is_first s = false /\ implausible P (dt s) (f s) d1 d2 /\ (exists a b, nx = Return a b /\ a == dt s /\ b == f s - 1)%Q \/
     (is_first s = false -> ~ implausible P (dt s) (f s) d1 d2) /\ exists dt' f', (dt' == dt s + f s * d1)%Q /\ (f' == f s * (1 + (d2 - d1) / separation_duration P))%Q /\
       (Qabs (f' - 1) < 1 # 8192)%Q /\
       ((r == target_resolution P)%Q /\ (exists b, nx = Return dt' b /\ b == f' - 1)%Q \/
        ~ (r == target_resolution P)%Q /\ exists B' res', nx = Again (mkS B' res' dt' f' false) /\ 
          (res' == Qmax (r / (separation_duration P / dur / RES_REFINE_FACTOR)) (target_resolution P))%Q /\ (target_resolution P <= res')%Q /\
          same_values B' (map (corrected (d1, (d2 - d1) / separation_duration P)%Q) (bts s)))).
Lemma iteration_outcome e M P A last dur s nx : exact_fpu M -> accurate_to e (num_bins P) (len A) (len (bts s)) M -> (0 < resolution s)%Q ->
  iteration M P A last dur s = Ok nx -> outcome P e A dur last s nx.
Proof.
  intros EX AC R H. destruct EX as [RT RS]. assert (EX : exact_fpu M) by (split; assumption). unfold iteration in H. set (w := used_duration M P last dur (resolution s)) in *.
  apply bind_ok in H as (ys & E1 & H). apply bind_ok in H as (dt1 & E2 & H). apply bind_ok in H as (sg & E3 & H).
  apply bind_ok in H as ((r & d1) & E4 & H).
  destruct (correlate_counted e M P A (bts s) 0 w (resolution s) ys EX AC R E1) as [N C].
  assert (LY : len ys = num_bins P) by (destruct C; lia).
  assert (exists k ys', 0 <= k /\ (is_first s = false -> k = 0) /\ (r == resolution s * inject_Z (2 ^ k))%Q /\ (k = 0 \/ (r <= 10000)%Q) /\
    counted e (num_bins P) (resolution s) (2 ^ k) (view 0 w A) (view 0 w (bts s)) ys' /\ delay_of M (len ys') ys' r = Ok d1) as (k & ys' & K0 & K1 & K2 & K3 & K4 & K5).
  { destruct (is_first s).
    - destruct (confirm_counted e (num_bins P) (resolution s) (view 0 w A) (view 0 w (bts s)) M P EX (S (length ys)) 0 ys (resolution s) dt1 sg r d1) as (k & ys' & K); try assumption.
      + lia.
      + change (inject_Z (2 ^ 0)) with 1%Q. ring.
      + now left.
      + now rewrite LY.
      + exists k, ys'. split; [tauto|]. split; [discriminate|]. tauto.
    - injection E4 as <- <-. exists 0, ys. split; [lia|]. split; [reflexivity|]. split; [change (inject_Z (2 ^ 0)) with 1%Q; ring|]. split; [now left|].
      split; [exact C|now rewrite LY]. }
  destruct (Qltb NTP_MAXDELAY_NS (Qabs d1)) eqn:O; [discriminate|]. apply Qltb_ge in O.
  apply bind_ok in H as (ys2 & E8 & H). apply bind_ok in H as (d2 & E9 & H).
  assert (M0 : 0 < 2 ^ k) by (apply Z.pow_pos_nonneg; lia).
  assert (R1 : (0 < r)%Q) by (rewrite K2; apply Qmult_lt_0_compat; [exact R|]; rewrite <- (Zlt_Qlt 0); lia).
  destruct (correlate_counted e M P A (bts s) (separation_duration P) w r ys2 EX AC R1 E8) as [_ C2].
  exists r, d1, d2. split.
  { exists w, k. split; [now apply duration_exact|]. split; [exact K0|]. split; [exact K1|]. split; [exact K3|]. split; [exact K2|].
    split; [destruct K4 as [L _]; rewrite <- L; apply Z.mod_mul; lia|].
    split; [now apply (delay_frequent e _ _ _ _ _ M ys' r)|]. split; [exact O|].
    apply (delay_frequent e _ _ _ _ _ M ys2 r); try assumption; [lia|change (inject_Z 1) with 1%Q; ring|].
    replace (len ys2) with (num_bins P) by (destruct C2; lia). exact E9. }
  cbv zeta in H. set (df1 := rs M (rs M (d2 - d1) / separation_duration P)%Q) in *.
  assert (DF : (df1 == (d2 - d1) / separation_duration P)%Q) by (unfold df1; now rewrite !RS).
  set (sep := separation_duration P) in *.
  match type of H with (if ?c then _ else _) = _ => destruct c eqn:G end.
  - left. apply andb_true_iff in G as [G1 G2]. split; [now destruct (is_first s)|]. split.
    + apply orb_true_iff in G2 as [G2|G2]; [apply orb_true_iff in G2 as [G2|G2]|]; apply Qltb_lt in G2; rewrite RS in G2; unfold implausible.
      * left. now rewrite <- (qmax_Qmax (Qabs (dt s)) 1) by reflexivity.
      * right. left. now rewrite <- (qmax_Qmax (Qabs (dt s)) 1) by reflexivity.
      * right. right. fold sep. rewrite <- DF. rewrite <- (qmax_Qmax (Qabs (rs M (f s - 1))) (rs M (1 # 1000000000))) by (now rewrite RS). exact G2.
    + exists (dt s), (rs M (f s - 1)%Q). split; [congruence|]. split; [reflexivity|apply RS].
  - right. split.
    { intros F1 I. rewrite F1 in G. cbn [negb andb] in G. apply orb_false_iff in G as [G G3]. apply orb_false_iff in G as [G1 G2].
      apply Qltb_ge in G1. apply Qltb_ge in G2. apply Qltb_ge in G3. rewrite RS in G1, G2, G3. unfold implausible in I. fold sep in I. rewrite <- DF in I.
      rewrite (qmax_Qmax (Qabs (dt s)) 1 (Qabs (dt s)) 1) in G1, G2 by reflexivity.
      rewrite (qmax_Qmax (Qabs (rs M (f s - 1))) (rs M (1 # 1000000000)) (Qabs (f s - 1)) (1 # 1000000000)) in G3 by (now rewrite RS).
      destruct I as [I|[I|I]]; [exact (Qlt_not_le _ _ I G1)|exact (Qlt_not_le _ _ I G2)|exact (Qlt_not_le _ _ I G3)]. }
    set (dt' := rs M (dt s + rs M (f s * d1))%Q) in *. set (f' := rs M (f s * rs M (1 + df1))%Q) in *.
    match type of H with (if ?c then _ else _) = _ => destruct c eqn:B end; [discriminate|].
    exists dt', f'. split; [unfold dt'; now rewrite !RS|]. split; [unfold f'; now rewrite !RS, DF|].
    split; [rewrite <- (RS (f' - 1)%Q); apply Qnot_le_lt; intros L; apply Qle_bool_iff in L; unfold MAX_FCORR in B; congruence|].
    match type of H with (if ?c then _ else _) = _ => destruct c eqn:T end.
    + left. apply Qeq_bool_iff in T. split; [exact T|]. exists (rs M (f' - 1)%Q). split; [congruence|apply RS].
    + right. split; [intros L; apply Qeq_bool_iff in L; congruence|].
      injection H as <-. eexists. eexists. split; [reflexivity|]. split; [|split].
      * apply qmax_Qmax; [now rewrite !RS|reflexivity].
      * destruct (qmax_cases (rs M (r / rs M (rs M (sep / dur) / RES_REFINE_FACTOR))) (target_resolution P)) as [(-> & L)|(-> & L)]; [exact L|apply Qle_refl].
      * apply same_map. intros t _. unfold corrected. cbn [fst snd]. now rewrite !RT, RS, DF.
Qed.
Lemma iterate_search e M P A last dur : exact_fpu M -> (0 < target_resolution P)%Q -> forall fuel s out, accurate_to e (num_bins P) (len A) (len (bts s)) M -> (0 < resolution s)%Q ->
  iterate fuel M P A last dur s = Ok out -> search e P A dur last (is_first s) (resolution s) (dt s) (f s) (bts s) out.
Proof.
  intros EX T0. induction fuel as [|fuel IH]; intros s out AC R H; [discriminate|]. cbn [iterate] in H. apply bind_ok in H as (nx & E & H).
  destruct (iteration_outcome e M P A last dur s nx EX AC R E) as (r & d1 & d2 & ME & [(F1 & I & a & b & -> & Ea & Eb)|(NI & dt' & f' & Ed & Ef & RG & O)]).
  - injection H as <-. rewrite F1 in *. now apply (search_interrupted e P A dur last (resolution s) (dt s) (f s) (bts s) r d1 d2).
  - destruct O as [(TR & b & -> & Eb)|(TR & B' & res' & -> & ER & LR & SV)].
    + injection H as <-. apply (search_done e P A dur last (is_first s) (resolution s) (dt s) (f s) (bts s) r d1 d2); try assumption; [now rewrite Eb, Ef|now rewrite Eb].
    + apply IH in H; [|now rewrite (again_length _ _ _ _ _ _ _ E)|cbn [resolution]; lra]. cbn [is_first resolution dt f bts] in H.
      apply (search_again e P A dur last (is_first s) (resolution s) (dt s) (f s) (bts s) r d1 d2 dt' f' res' B' out); assumption.
Qed.
Lemma getitem_app {X} (l : list X) x : getitem l (-1) = Ok x -> exists l', l = l' ++ [x].
Proof.
  destruct (getitem_last l) as [(y & G & NE)|(G & NE)]; [|congruence]. destruct (exists_last NE) as (l' & z & ->). intros H. exists l'. f_equal. f_equal.
  revert H. unfold getitem. change (-1 <? 0) with true. cbn iota. replace (-1 + len (l' ++ [z])) with (Z.of_nat (length l')) by (unfold len; rewrite app_length; cbn [length]; lia).
  replace (Z.of_nat (length l') <? 0) with false by lia. rewrite Nat2Z.id, nth_error_app2, Nat.sub_diag by lia. cbn [nth_error]. congruence.
Qed.
Lemma c95 e fuel M P A B res out : exact_fpu M -> accurate_to e (num_bins P) (len A) (len B) M -> (0 < target_resolution P)%Q -> (0 < res)%Q ->
  time_freq fuel M P A B res = Ok out -> exists last dur, last_common A B last /\ (dur == inject_Z (num_wraps P) * res * inject_Z (num_bins P))%Q /\
    search e P A dur last true res 0 1 B out.
Proof.
  intros EX AC T0 R H. unfold time_freq in H. apply bind_ok in H as (a & Ea & H). apply bind_ok in H as (b & Eb & H). cbv zeta in H.
  set (dur := rs M _) in H. exists (qmin a b), dur. split; [|split].
  - apply getitem_app in Ea as (A' & ->). apply getitem_app in Eb as (B' & ->). exists A', a, B', b. split; [reflexivity|]. split; [reflexivity|].
    unfold qmin. destruct (Qltb b a) eqn:L; [apply Qltb_lt in L; rewrite Q.min_r; [reflexivity|lra]|apply Qltb_ge in L; rewrite Q.min_l; [reflexivity|lra]].
  - unfold dur. now rewrite !(proj2 EX).
  - apply (iterate_search e M P A (qmin a b) dur EX T0) in H; [exact H|exact AC|exact R].
Qed.
Lemma exact_accurate n a b M : xc M = exact_xc -> accurate_to 0 n a b M.
Proof.
  intros E h k (L & H & _) (_ & K & _). rewrite E. unfold exact_xc, circular. split; [rewrite !map_length, seq_length; reflexivity|].
  intros i I. rewrite map_map.
  rewrite (nth_indep _ 0%Q (inject_Z (Z.abs (sumZ (map (fun i => nth i h 0 * nth ((i + 0) mod length h) k 0) (seq 0 (length h))))))) by (rewrite map_length, seq_length; assumption).
  rewrite (map_nth (fun j => inject_Z (Z.abs (sumZ (map (fun i => nth i h 0 * nth ((i + j) mod length h) k 0) (seq 0 (length h))))))).
  rewrite seq_nth by assumption. cbn [Nat.add]. rewrite sumZ_below. fold (correlation h k i).
  rewrite Z.abs_eq.
  - setoid_replace (inject_Z (correlation h k i) - inject_Z (correlation h k i))%Q with 0%Q by ring. apply Qle_refl.
  - apply sum_below_nonneg. intros j J.
    assert (G : forall l j, Forall (fun v => 0 <= v) l -> 0 <= nth j l 0).
    { intros l q Hl. destruct (Nat.lt_ge_cases q (length l)); [rewrite Forall_forall in Hl; now apply Hl, nth_In|rewrite nth_overflow by lia; lia]. }
    apply Z.mul_nonneg_nonneg; now apply G.
Qed.
