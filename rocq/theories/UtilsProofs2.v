(** Correlation peak, delays, statistics, re-centering. *)
From Coq Require Import QArith Qabs Qround Lqa Permutation.
From Coq Require Import ZifyBool.
From Verif Require Import Float Base TimestampsModel TimestampsSpec EpochsModel EpochsProofs5 UtilsModel UtilsSpec UtilsProofs.
Local Open Scope Z_scope.

(** ** Sums around the circle *)
Lemma sum_below_ext n g h : (forall i, (i < n)%nat -> g i = h i) -> sum_below n g = sum_below n h.
Proof. induction n as [|n IH]; intros H; cbn; [reflexivity|]. rewrite IH by (intros; apply H; lia). rewrite H by lia. reflexivity. Qed.
Lemma sum_below_split a b g : sum_below (a + b) g = sum_below a g + sum_below b (fun i => g (a + i)%nat).
Proof. induction b as [|b IH]; cbn; [rewrite Nat.add_0_r; lia|]. rewrite Nat.add_succ_r. cbn. rewrite IH. lia. Qed.
Lemma sum_below_lin n g h c : sum_below n (fun i => g i + c * h i) = sum_below n g + c * sum_below n h.
Proof. induction n as [|n IH]; cbn; [lia|]. rewrite IH. lia. Qed.
Lemma sum_below_nonneg n g : (forall i, (i < n)%nat -> 0 <= g i) -> 0 <= sum_below n g.
Proof. induction n as [|n IH]; intros H; cbn; [lia|]. specialize (IH ltac:(intros; apply H; lia)). specialize (H n ltac:(lia)). lia. Qed.
Lemma sum_below_pos n g : (forall i, (i < n)%nat -> 0 <= g i) -> (exists i, (i < n)%nat /\ 0 < g i) -> 0 < sum_below n g.
Proof.
  induction n as [|n IH]; intros H (i & I & P); cbn; [lia|].
  assert (A : 0 <= sum_below n g) by (apply sum_below_nonneg; intros; apply H; lia).
  pose proof (H n ltac:(lia)). destruct (Nat.eq_dec i n) as [->|D]; [lia|].
  enough (0 < sum_below n g) by lia. apply IH; [intros; apply H; lia|]. exists i; split; [lia|assumption].
Qed.
Lemma sum_rotate n k g : (k < n)%nat -> sum_below n (fun i => g ((i + k) mod n)%nat) = sum_below n g.
Proof.
  intros K.
  assert (R : sum_below n g = sum_below k g + sum_below (n - k) (fun i => g (k + i)%nat)) by (rewrite <- sum_below_split; f_equal; lia).
  assert (L : sum_below n (fun i => g ((i + k) mod n)%nat) = sum_below (n - k) (fun i => g ((i + k) mod n)%nat) +
    sum_below k (fun i => g ((n - k + i + k) mod n)%nat)).
  { rewrite <- (sum_below_split (n - k) k (fun i => g ((i + k) mod n)%nat)). f_equal; lia. }
  rewrite L, R.
  rewrite Z.add_comm. f_equal; apply sum_below_ext; intros i I.
  - f_equal. replace (n - k + i + k)%nat with (i + 1 * n)%nat by lia. rewrite Nat.mod_add by lia. apply Nat.mod_small; lia.
  - f_equal. rewrite Nat.mod_small by lia. lia.
Qed.
Lemma sq_nonneg x : 0 <= x * x. Proof. nia. Qed.
Lemma sq_pos x y : x <> y -> 0 < (x - y) * (x - y). Proof. nia. Qed.
Definition square_sum (a : list Z) : Z := sum_below (length a) (fun i => nth i a 0 * nth i a 0).
Lemma auto_lt a k : aperiodic a -> (0 < k < length a)%nat ->
  sum_below (length a) (fun i => nth i a 0 * nth ((i + k) mod length a) a 0) < square_sum a.
Proof.
  intros A K. destruct (A k K) as (i0 & I0 & D).
  assert (P : 0 < sum_below (length a) (fun i => (nth i a 0 - nth ((i + k) mod length a) a 0) * (nth i a 0 - nth ((i + k) mod length a) a 0))).
  { apply sum_below_pos; [intros; apply sq_nonneg|]. exists i0. split; [assumption|]. apply sq_pos. congruence. }
  rewrite (sum_below_ext _ _ (fun i => (nth i a 0 * nth i a 0 + 1 * (fun i => nth ((i + k) mod length a) a 0 * nth ((i + k) mod length a) a 0) i)
     + (-2) * (fun i => nth i a 0 * nth ((i + k) mod length a) a 0) i)) in P by (intros; cbn beta; lia).
  rewrite sum_below_lin, sum_below_lin in P.
  rewrite (sum_rotate (length a) k (fun j => nth j a 0 * nth j a 0)) in P by lia. unfold square_sum. lia.
Qed.
Lemma correlation_shifted a b s k : shifted a b s -> (s < length a)%nat -> (k < length a)%nat ->
  correlation a b k = sum_below (length a) (fun i => nth i a 0 * nth ((i + (k + length a - s)) mod length a) a 0).
Proof.
  intros [L H] S K. unfold correlation. apply sum_below_ext. intros i I. f_equal.
  set (j := ((i + (k + length a - s)) mod length a)%nat).
  assert (J : (j < length a)%nat) by (apply Nat.mod_upper_bound; lia).
  rewrite <- (H j J). f_equal. unfold j. rewrite Nat.add_mod_idemp_l by lia.
  replace (i + (k + length a - s) + s)%nat with (i + k + 1 * length a)%nat by lia. rewrite Nat.mod_add by lia. reflexivity.
Qed.
Lemma correlation_peak a b s k : shifted a b s -> aperiodic a -> (s < length a)%nat -> (k < length a)%nat -> k <> s ->
  correlation a b k < correlation a b s.
Proof.
  intros H A S K D. rewrite !(correlation_shifted a b s) by assumption.
  rewrite (sum_below_ext (length a) (fun i => nth i a 0 * nth ((i + (s + length a - s)) mod length a) a 0) (fun i => nth i a 0 * nth i a 0)).
  - destruct (Nat.lt_ge_cases k s) as [L|L].
    + apply auto_lt; [assumption|lia].
    + rewrite (sum_below_ext _ _ (fun i => nth i a 0 * nth ((i + (k - s)) mod length a) a 0)).
      * apply auto_lt; [assumption|lia].
      * intros i I. do 2 f_equal. replace (i + (k + length a - s))%nat with (i + (k - s) + 1 * length a)%nat by lia. apply Nat.mod_add; lia.
  - intros i I. do 2 f_equal. replace (i + (s + length a - s))%nat with (i + 1 * length a)%nat by lia. rewrite Nat.mod_add by lia. apply Nat.mod_small; lia.
Qed.

(** ** argmax *)
Lemma argmax_go_spec l : forall i best v, argmax_go l i best v = best /\ (forall x, In x l -> (x <= v)%Q) \/
  exists j, 0 <= j < len l /\ argmax_go l i best v = i + j /\ (v < nth (Z.to_nat j) l 0)%Q /\
    (forall x, In x l -> (x <= nth (Z.to_nat j) l 0)%Q) /\ (forall m, 0 <= m < j -> (nth (Z.to_nat m) l 0 < nth (Z.to_nat j) l 0)%Q).
Proof.
  induction l as [|x l IH]; intros i best v; cbn [argmax_go].
  - left. split; [reflexivity|easy].
  - rewrite len_cons. pose proof (len_nonneg l). destruct (Qltb v x) eqn:L.
    + apply Qltb_lt in L. right. destruct (IH (i + 1) i x) as [[E M]|(j & J & E & V & M & F)].
      * exists 0. split; [lia|]. cbn [Z.to_nat nth]. split; [lia|]. split; [assumption|]. split; [|intros; lia].
        intros y [->|I]; [lra|auto].
      * exists (j + 1). split; [lia|]. replace (Z.to_nat (j + 1)) with (S (Z.to_nat j)) by lia. cbn [nth].
        split; [lia|]. split; [lra|]. split.
        -- intros y [->|I]; [lra|auto].
        -- intros m Hm. destruct (Z.eq_dec m 0) as [->|]; [cbn [Z.to_nat nth]; lra|].
           replace (Z.to_nat m) with (S (Z.to_nat (m - 1))) by lia. cbn [nth]. apply F; lia.
    + apply Qltb_ge in L. destruct (IH (i + 1) best v) as [[E M]|(j & J & E & V & M & F)].
      * left. split; [assumption|]. intros y [->|I]; [lra|auto].
      * right. exists (j + 1). split; [lia|]. replace (Z.to_nat (j + 1)) with (S (Z.to_nat j)) by lia. cbn [nth].
        split; [lia|]. split; [lra|]. split.
        -- intros y [->|I]; [lra|auto].
        -- intros m Hm. destruct (Z.eq_dec m 0) as [->|]; [cbn [Z.to_nat nth]; lra|].
           replace (Z.to_nat m) with (S (Z.to_nat (m - 1))) by lia. cbn [nth]. apply F; lia.
Qed.
Lemma argmax_spec l : l <> [] -> exists p, argmax l = Ok p /\ first_peak l p.
Proof.
  intros N. destruct l as [|x l]; [congruence|]. cbn [argmax]. eexists; split; [reflexivity|].
  unfold first_peak. rewrite len_cons. pose proof (len_nonneg l).
  destruct (argmax_go_spec l 1 0 x) as [[-> M]|(j & J & -> & V & M & F)].
  - split; [lia|]. split; [|intros; lia]. intros j J. cbn [Z.to_nat nth].
    destruct (Z.eq_dec j 0) as [->|]; [cbn; lra|]. replace (Z.to_nat j) with (S (Z.to_nat (j - 1))) by lia. cbn [nth].
    apply M, nth_In. unfold len in *. lia.
  - replace (Z.to_nat (1 + j)) with (S (Z.to_nat j)) by lia. cbn [nth]. split; [lia|]. split.
    + intros m Hm. destruct (Z.eq_dec m 0) as [->|]; [cbn [Z.to_nat nth]; lra|]. replace (Z.to_nat m) with (S (Z.to_nat (m - 1))) by lia. cbn [nth].
      apply M, nth_In. unfold len in *. lia.
    + intros m Hm. destruct (Z.eq_dec m 0) as [->|]; [cbn [Z.to_nat nth]; lra|]. replace (Z.to_nat m) with (S (Z.to_nat (m - 1))) by lia. cbn [nth].
      apply F; lia.
Qed.
Lemma first_peak_unique l p q : first_peak l p -> first_peak l q -> p = q.
Proof.
  intros (A & B & C) (A' & B' & C'). destruct (Z.lt_trichotomy p q) as [L|[E|L]]; [|assumption|].
  - specialize (C' p ltac:(lia)). specialize (B q ltac:(lia)). lra.
  - specialize (C q ltac:(lia)). specialize (B' p ltac:(lia)). lra.
Qed.

(** ** C50 *)
Lemma delay_value n xs res p : 0 <= p < n -> len xs = n -> even_axis res xs -> exists a b, delay_at n xs p = Ok (a, b) /\
  (p = 0 -> (a == 0 /\ b == 0)%Q) /\
  (0 < p -> 2 * p < n -> (a == inject_Z p * res /\ b == inject_Z (p - n) * res)%Q) /\
  (0 < p -> n <= 2 * p -> (a == inject_Z (p - n) * res /\ b == inject_Z p * res)%Q).
Proof.
  intros P L E. unfold delay_at. rewrite (getitem_nth xs p 0%Q) by lia. cbn [bind].
  assert (EP : (nth (Z.to_nat p) xs 0 == inject_Z p * res)%Q).
  { rewrite (E (Z.to_nat p)) by (unfold len in L; lia). rewrite Z2Nat.id by lia. reflexivity. }
  destruct (p =? 0) eqn:Z0.
  - rewrite (getitem_nth xs 0 0%Q) by lia. cbn [bind]. replace p with 0 in * by lia. do 2 eexists.
    split; [reflexivity|]. split; [|split; intros; lia]. intros _. cbn [Z.abs Z.ltb Z.compare fst snd].
    rewrite EP. change (inject_Z 0) with 0%Q. split; lra.
  - rewrite (getitem_nth xs (n - p) 0%Q) by lia. cbn [bind].
    assert (EN : (- nth (Z.to_nat (n - p)) xs 0 == inject_Z (p - n) * res)%Q).
    { rewrite (E (Z.to_nat (n - p))) by (unfold len in L; lia). rewrite Z2Nat.id by lia.
      replace (n - p) with (- (p - n)) by lia. rewrite inject_Z_opp. lra. }
    destruct (Z.abs p <? Z.abs (n - p)) eqn:C; do 2 eexists; (split; [reflexivity|]); (split; [intros; lia|]);
      split; intros; try lia; split; assumption.
Qed.
Lemma c50 hist xs res : hist <> [] -> len xs = len hist -> even_axis res xs -> (0 < res)%Q ->
  exists p a b, first_peak hist p /\ get_timing_delay_fft hist xs = Ok (a, b) /\
    (a == if (p =? 0)%Z then 0 else inject_Z (centered (len hist) p) * res)%Q /\
    (b == if (p =? 0)%Z then 0 else inject_Z (2 * p - len hist - centered (len hist) p) * res)%Q /\
    (Qabs a <= Qabs b)%Q.
Proof.
  intros N L E R. destruct (argmax_spec hist N) as (p & A & F). pose proof F as ((P0 & P1) & _).
  destruct (delay_value (len hist) xs res p ltac:(lia) L E) as (a & b & D & D0 & D1 & D2).
  exists p, a, b. split; [exact F|]. split; [unfold get_timing_delay_fft; rewrite A; exact D|].
  unfold centered. destruct (p =? 0) eqn:Z0.
  - destruct (D0 ltac:(lia)) as [Ea Eb]. split; [exact Ea|]. split; [exact Eb|]. rewrite Ea, Eb. lra.
  - destruct (2 * p <? len hist) eqn:C.
    + destruct (D1 ltac:(lia) ltac:(lia)) as [Ea Eb]. replace (2 * p - len hist - p) with (p - len hist) by lia.
      split; [exact Ea|]. split; [exact Eb|]. rewrite Ea, Eb, !Qabs_Qmult, (Qabs_pos res) by lra.
      apply Qmul_le; [assumption|]. rewrite !inject_abs. rewrite <- Zle_Qle. lia.
    + destruct (D2 ltac:(lia) ltac:(lia)) as [Ea Eb]. replace (2 * p - len hist - (p - len hist)) with p by lia.
      split; [exact Ea|]. split; [exact Eb|]. rewrite Ea, Eb, !Qabs_Qmult, (Qabs_pos res) by lra.
      apply Qmul_le; [assumption|]. rewrite !inject_abs. rewrite <- Zle_Qle. lia.
Qed.

(** ** C49 *)
Lemma peak_near a b s ys : shifted a b s -> aperiodic a -> (s < length a)%nat -> near_correlation a b ys -> first_peak ys (Z.of_nat s).
Proof.
  intros H A S [L C]. assert (LT : forall k, (k < length a)%nat -> k <> s -> (nth k ys 0 < nth s ys 0)%Q).
  { intros k K D. pose proof (correlation_peak a b s k H A S K D) as P.
    assert (P' : (inject_Z (correlation a b k) + 1 <= inject_Z (correlation a b s))%Q) by (change 1%Q with (inject_Z 1); rewrite <- inject_Z_plus, <- Zle_Qle; lia).
    pose proof (proj1 (Qabs_Qlt_condition _ _) (C k K)) as [E1 E2].
    pose proof (proj1 (Qabs_Qlt_condition _ _) (C s S)) as [E3 E4]. lra. }
  unfold first_peak, len. rewrite Nat2Z.id. split; [lia|]. split.
  - intros j J. destruct (Nat.eq_dec (Z.to_nat j) s) as [->|D]; [lra|]. apply Qlt_le_weak, LT; lia.
  - intros j J. apply LT; lia.
Qed.
Lemma c49 a b s ys xs res : shifted a b s -> aperiodic a -> (s < length a)%nat -> near_correlation a b ys ->
  len xs = len a -> even_axis res xs -> (0 < res)%Q ->
  first_peak ys (Z.of_nat s) /\ (forall k, (k < length a)%nat -> k <> s -> (nth k ys 0 < nth s ys 0)%Q) /\
  exists d e, get_timing_delay_fft ys xs = Ok (d, e) /\
    (d == if (s =? 0)%nat then 0 else inject_Z (centered (len a) (Z.of_nat s)) * res)%Q.
Proof.
  intros H A S C L E R. pose proof (peak_near a b s ys H A S C) as F. split; [exact F|].
  assert (LY : len ys = len a) by (unfold len; f_equal; apply C). split.
  - intros k K D. destruct C as [LC C]. pose proof (correlation_peak a b s k H A S K D) as P.
    assert (P' : (inject_Z (correlation a b k) + 1 <= inject_Z (correlation a b s))%Q) by (change 1%Q with (inject_Z 1); rewrite <- inject_Z_plus, <- Zle_Qle; lia).
    pose proof (proj1 (Qabs_Qlt_condition _ _) (C k K)) as [E1 E2].
    pose proof (proj1 (Qabs_Qlt_condition _ _) (C s S)) as [E3 E4]. lra.
  - assert (N : ys <> []) by (intros ->; unfold len in LY; cbn in LY; lia).
    destruct (c50 ys xs res N ltac:(lia) E R) as (p & d & e & F' & G & Ed & _). exists d, e. split; [exact G|].
    rewrite (first_peak_unique _ _ _ F' F) in Ed. rewrite Ed, LY.
    destruct (Nat.eqb_spec s 0); [replace (Z.of_nat s =? 0) with true by lia|replace (Z.of_nat s =? 0) with false by lia]; reflexivity.
Qed.
Lemma sumZ_below n g : sumZ (map g (seq 0 n)) = sum_below n g.
Proof.
  induction n as [|n IH]; [reflexivity|]. rewrite seq_S, map_app. cbn [map Nat.add sum_below]. rewrite <- IH.
  unfold sumZ. rewrite fold_right_app. cbn [fold_right]. generalize (map g (seq 0 n)). intros l.
  induction l as [|x l IHl]; cbn [fold_right]; lia.
Qed.
(** the exact transform is one such computation *)
Lemma exact_near a b : Forall (fun v => 0 <= v) a -> Forall (fun v => 0 <= v) b -> near_correlation a b (exact_xc a b).
Proof.
  intros A B. unfold exact_xc, circular. split; [rewrite !map_length, seq_length; reflexivity|].
  intros k K. rewrite map_map.
  rewrite (nth_indep _ 0%Q (inject_Z (Z.abs (sumZ (map (fun i => nth i a 0 * nth ((i + 0) mod length a) b 0) (seq 0 (length a))))))) by (rewrite map_length, seq_length; assumption).
  rewrite (map_nth (fun k => inject_Z (Z.abs (sumZ (map (fun i => nth i a 0 * nth ((i + k) mod length a) b 0) (seq 0 (length a))))))).
  rewrite seq_nth by assumption. cbn [Nat.add]. rewrite sumZ_below. fold (correlation a b k).
  rewrite Z.abs_eq.
  - setoid_replace (inject_Z (correlation a b k) - inject_Z (correlation a b k))%Q with 0%Q by ring. reflexivity.
  - apply sum_below_nonneg. intros i I.
    assert (G : forall l j, Forall (fun v => 0 <= v) l -> 0 <= nth j l 0).
    { intros l j Hl. destruct (Nat.lt_ge_cases j (length l)); [rewrite Forall_forall in Hl; now apply Hl, nth_In|rewrite nth_overflow by lia; lia]. }
    apply Z.mul_nonneg_nonneg; now apply G.
Qed.
(** Moving every event by a whole number of bins, in any order and by any number of turns, moves the histogram. *)
Lemma hits_perm n res k l l' : Permutation l l' -> hits n res k l = hits n res k l'.
Proof. induction 1; cbn [hits]; lia. Qed.
Lemma floor_shift t res s : (0 < res)%Q -> Qfloor ((t + inject_Z s * res) / res) = Qfloor (t / res) + s.
Proof.
  intros R. assert (E : ((t + inject_Z s * res) / res == t / res + inject_Z s)%Q) by (field; lra).
  rewrite (Qfloor_comp _ _ E). 
  assert (A : (inject_Z (Qfloor (t / res) + s) <= t / res + inject_Z s)%Q) by (rewrite inject_Z_plus; pose proof (Qfloor_le (t / res)); lra).
  assert (B : (t / res + inject_Z s < inject_Z (Qfloor (t / res) + s + 1))%Q) by (rewrite !inject_Z_plus; pose proof (Qlt_floor (t / res)) as H; rewrite inject_Z_plus in H; lra).
  pose proof (Qfloor_le (t / res + inject_Z s)) as C. pose proof (Qlt_floor (t / res + inject_Z s)) as D.
  assert (L1 : Qfloor (t / res) + s < Qfloor (t / res + inject_Z s) + 1) by (rewrite Zlt_Qlt; lra).
  assert (L2 : Qfloor (t / res + inject_Z s) < Qfloor (t / res) + s + 1) by (rewrite Zlt_Qlt; lra). lia.
Qed.
Lemma histogram_shift ats bts n res s k : 0 < n -> (0 < res)%Q -> 0 <= s < n -> ats <> [] ->
  Forall2 (fun t u => exists q, u == t + inject_Z (q * n + s) * res)%Q ats k -> Permutation k bts ->
  exists ha hb, histogram ats n res = Ok ha /\ histogram bts n res = Ok hb /\ shifted ha hb (Z.to_nat s).
Proof.
  intros N R S NA F P.
  assert (NK : k <> []) by (intros ->; inversion F; congruence).
  assert (NB : bts <> []) by (intros ->; apply Permutation_sym, Permutation_nil in P; congruence).
  destruct (histogram_ok ats n res NA N R) as (ha & Ea & La & Ha & _).
  destruct (histogram_ok bts n res NB N R) as (hb & Eb & Lb & Hb & _).
  exists ha, hb. split; [exact Ea|]. split; [exact Eb|]. unfold len in *. split; [lia|].
  intros i I. replace (length ha) with (Z.to_nat n) by lia.
  assert (M : Z.of_nat ((i + Z.to_nat s) mod Z.to_nat n) = (Z.of_nat i + s) mod n) by (rewrite Nat2Z.inj_mod; f_equal; lia).
  assert (MB : 0 <= (Z.of_nat i + s) mod n < n) by (apply Z.mod_pos_bound; lia).
  rewrite <- (Nat2Z.id ((i + Z.to_nat s) mod Z.to_nat n)), M, Hb by assumption.
  rewrite <- (Nat2Z.id i) at 2. rewrite Ha by lia. rewrite <- (hits_perm n res _ k bts P). clear - F R N S I La.
  induction F as [|t u l m (q & E) F IH]; cbn [hits]; [reflexivity|]. rewrite IH. f_equal. unfold bin_index.
  assert (Eu : (u / res == (t + inject_Z (q * n + s) * res) / res)%Q) by (rewrite E; reflexivity).
  rewrite (Qfloor_comp _ _ Eu), floor_shift by assumption.
  replace (Qfloor (t / res) + (q * n + s)) with (Qfloor (t / res) + s + q * n) by lia. rewrite Z.mod_add by lia.
  generalize (Qfloor (t / res)). intros x.
  assert (In : 0 <= Z.of_nat i < n) by lia. revert In. generalize (Z.of_nat i). intros j In.
  destruct (x mod n =? j) eqn:X.
  - replace ((x + s) mod n =? (j + s) mod n) with true; [reflexivity|]. symmetry. apply Z.eqb_eq.
    rewrite <- Z.add_mod_idemp_l by lia. f_equal. lia.
  - replace ((x + s) mod n =? (j + s) mod n) with false; [reflexivity|]. symmetry. apply Z.eqb_neq. intros Y. apply Z.eqb_neq in X. apply X.
    assert (Y2 : (x + s - s) mod n = (j + s - s) mod n) by (rewrite <- (Zminus_mod_idemp_l (x + s)), <- (Zminus_mod_idemp_l (j + s)); congruence).
    replace (x + s - s) with x in Y2 by lia. replace (j + s - s) with j in Y2 by lia. rewrite (Z.mod_small j) in Y2 by lia. exact Y2.
Qed.
Lemma hits_nonneg n res k l : 0 <= hits n res k l.
Proof. induction l as [|t l IH]; cbn [hits]; [lia|]. destruct (_ =? _); lia. Qed.
Lemma histogram_nonneg arr n res h : 0 < n -> (0 < res)%Q -> histogram arr n res = Ok h -> Forall (fun v => 0 <= v) h.
Proof.
  intros N R E. assert (A : arr <> []) by (intros ->; discriminate).
  destruct (histogram_ok arr n res A N R) as (h' & E' & L & H & _). rewrite E in E'. inv E'.
  apply Forall_forall. intros v I. apply (In_nth _ _ 0) in I as (i & I & <-).
  rewrite <- (Nat2Z.id i), H by (unfold len in *; lia). apply hits_nonneg.
Qed.

(** ** C52 *)
Lemma slice_mid {A} (l : list A) i j : 0 <= i <= j -> j <= len l -> slice l i j = firstn (Z.to_nat (j - i)) (skipn (Z.to_nat i) l).
Proof.
  intros H L. unfold slice, slice_index. replace (i <? 0) with false by lia. replace (j <? 0) with false by lia.
  rewrite !Z.min_l by lia. reflexivity.
Qed.
Lemma nth_firstn' {A} (l : list A) n i d : (i < n)%nat -> nth i (firstn n l) d = nth i l d.
Proof. revert n i; induction l as [|x l IH]; intros [|n] [|i] H; cbn; try lia; try reflexivity. apply IH; lia. Qed.
Lemma nth_skipn' {A} (l : list A) n i d : nth i (skipn n l) d = nth (n + i) l d.
Proof. revert n; induction l as [|x l IH]; intros [|n]; cbn; try reflexivity; [now destruct i|]. apply IH. Qed.
Lemma nth_slice {A} (l : list A) i j k d : 0 <= i <= j -> j <= len l -> 0 <= k < j - i -> nth (Z.to_nat k) (slice l i j) d = nth (Z.to_nat (i + k)) l d.
Proof.
  intros H L K. rewrite slice_mid by assumption. rewrite nth_firstn', nth_skipn' by lia. f_equal. lia.
Qed.
Lemma len_slice {A} (l : list A) i j : 0 <= i <= j -> j <= len l -> len (slice l i j) = j - i.
Proof. intros H L. rewrite slice_mid by assumption. unfold len in *. rewrite firstn_length, skipn_length. lia. Qed.
Lemma c52 hist xs res h : len hist = 2 * h -> 0 < h -> len hist <= len xs -> even_axis res xs ->
  exists ys ts, convert_histogram_fft hist xs = (ys, ts) /\ len ys = 2 * h /\ len ts = 2 * h /\
    forall j, 0 <= j < 2 * h -> (nth (Z.to_nat j) ts 0 == inject_Z (j - h) * res)%Q /\
      nth (Z.to_nat j) ys 0%Q = nth (Z.to_nat ((j - h) mod (2 * h))) hist 0%Q.
Proof.
  intros L H LX E. unfold convert_histogram_fft. rewrite L. replace (2 * h / 2) with h by (rewrite Z.mul_comm, Z.div_mul; lia).
  do 2 eexists. split; [reflexivity|].
  assert (L1 : len (slice hist h (2 * h)) = h) by (rewrite len_slice; lia).
  assert (L2 : len (slice hist 0 h) = h) by (rewrite len_slice; lia).
  assert (L3 : len (slice xs 1 (h + 1)) = h) by (rewrite len_slice; lia).
  assert (L4 : len (slice xs 0 h) = h) by (rewrite len_slice; lia).
  split; [rewrite len_app; lia|].
  split; [rewrite len_app, len_map; unfold len in *; rewrite rev_length; lia|].
  intros j J. destruct (Z.lt_ge_cases j h) as [S|S].
  - split.
    + rewrite app_nth1 by (rewrite map_length, rev_length; unfold len in L3; lia).
      rewrite (nth_indep _ 0%Q (- 0)%Q) by (rewrite map_length, rev_length; unfold len in L3; lia).
      rewrite (map_nth Qopp), rev_nth by (unfold len in L3; lia).
      replace (length (slice xs 1 (h + 1)) - Datatypes.S (Z.to_nat j))%nat with (Z.to_nat (h - 1 - j)) by (unfold len in L3; lia).
      rewrite nth_slice by lia. rewrite (E (Z.to_nat (1 + (h - 1 - j)))) by (unfold len in *; lia). rewrite Z2Nat.id by lia.
      replace (1 + (h - 1 - j)) with (- (j - h)) by lia. rewrite inject_Z_opp. ring.
    + rewrite app_nth1 by (unfold len in L1; lia). rewrite nth_slice by lia. f_equal. f_equal.
      replace (j - h) with (j + h + (-1) * (2 * h)) by lia. rewrite Z.mod_add, Z.mod_small by lia. lia.
  - split.
    + rewrite app_nth2 by (rewrite map_length, rev_length; unfold len in L3; lia). rewrite map_length, rev_length.
      replace (Z.to_nat j - length (slice xs 1 (h + 1)))%nat with (Z.to_nat (j - h)) by (unfold len in L3; lia).
      rewrite nth_slice by lia. rewrite (E (Z.to_nat (0 + (j - h)))) by (unfold len in *; lia). rewrite Z2Nat.id by lia. reflexivity.
    + rewrite app_nth2 by (unfold len in L1; lia).
      replace (Z.to_nat j - length (slice hist h (2 * h)))%nat with (Z.to_nat (j - h)) by (unfold len in L1; lia).
      rewrite nth_slice by lia. rewrite Z.mod_small by lia. reflexivity.
Qed.
