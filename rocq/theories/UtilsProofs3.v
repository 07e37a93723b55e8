(** Peak statistics and the list of delays. *)
From Coq Require Import QArith Qabs Qround Lqa Permutation.
From Coq Require Import ZifyBool.
From Verif Require Import Float Base TimestampsModel TimestampsSpec EpochsModel EpochsProofs5 UtilsModel UtilsSpec UtilsProofs UtilsProofs2.
Local Open Scope Z_scope.

(** ** C51 *)
Definition zrange (i j : Z) : list Z := map (fun k => i + Z.of_nat k) (seq 0 (Z.to_nat (j - i))).
Lemma zrange_In i j k : In k (zrange i j) <-> i <= k < j.
Proof.
  unfold zrange. rewrite in_map_iff. split.
  - intros (x & <- & H). apply in_seq in H. lia.
  - intros H. exists (Z.to_nat (k - i)). split; [lia|]. apply in_seq. lia.
Qed.
Lemma zrange_NoDup i j : NoDup (zrange i j).
Proof.
  unfold zrange. generalize 0%nat. induction (Z.to_nat (j - i)) as [|n IH]; intros a; cbn [seq map]; constructor; [|apply IH].
  rewrite in_map_iff. intros (x & E & H). apply in_seq in H. lia.
Qed.
Lemma slice_index_range {A} (l : list A) i : 0 <= slice_index l i <= len l.
Proof. unfold slice_index. pose proof (len_nonneg l). destruct (i <? 0) eqn:E; lia. Qed.
Lemma slice_positions (l : list Q) i j : slice l i j = at_positions l (zrange (slice_index l i) (slice_index l j)).
Proof.
  unfold slice. pose proof (slice_index_range l i) as A. pose proof (slice_index_range l j) as B. revert A B.
  generalize (slice_index l i) as a. generalize (slice_index l j) as b. intros b a A B.
  unfold at_positions, zrange. rewrite map_map.
  destruct (Z.le_gt_cases b a) as [H|H].
  - rewrite take_0 by lia. replace (Z.to_nat (b - a)) with 0%nat by lia. reflexivity.
  - unfold take, drop. apply nth_ext with (d := 0%Q) (d' := nth (Z.to_nat (a + Z.of_nat 0)) l 0%Q).
    + rewrite map_length, seq_length, firstn_length, skipn_length. unfold len in *. lia.
    + intros n N. rewrite firstn_length, skipn_length in N. rewrite nth_firstn', nth_skipn' by lia.
      rewrite (map_nth (fun k => nth (Z.to_nat (a + Z.of_nat k)) l 0%Q)), seq_nth by lia. f_equal. lia.
Qed.
Lemma slice_index_mono {A} (l : list A) i j : 0 <= i <= j -> slice_index l i <= slice_index l j.
Proof. intros. unfold slice_index. replace (i <? 0) with false by lia. replace (j <? 0) with false by lia. lia. Qed.
Lemma NoDup_app' {A} (l m : list A) : NoDup l -> NoDup m -> (forall x, In x l -> In x m -> False) -> NoDup (l ++ m).
Proof.
  induction 1 as [|x l NI ND IH]; intros M D; [assumption|]. cbn [app]. constructor.
  - rewrite in_app_iff. intros [I|I]; [contradiction|]. apply (D x); [now left|assumption].
  - apply IH; [assumption|]. intros y Y1 Y2. apply (D y); [now right|assumption].
Qed.
Lemma ceil_nonneg w res : (0 <= w)%Q -> (0 < res)%Q -> 0 <= Qceiling (w / 2 / res).
Proof.
  intros W R. assert (H : (0 <= w / 2 / res)%Q).
  { apply Qle_shift_div_l; [assumption|]. apply Qle_shift_div_l; lra. }
  pose proof (Qle_ceiling (w / 2 / res)) as C. assert (L : (inject_Z 0 <= inject_Z (Qceiling (w / 2 / res)))%Q) by (change (inject_Z 0) with 0%Q; lra).
  now rewrite <- Zle_Qle in L.
Qed.
(** the bin taken as the middle *)
Definition middle_bin (n : Z) (res c : Q) : Z := if Qltb c 0 then n - Qfloor (Qabs c / res) else Qfloor (Qabs c / res).
Definition pieces (hist : list Q) (bc w : Z) : peak :=
  let left := Z.max 0 (bc - w) in
  let right := Z.min (len hist) (bc + w) in
  mkPeak (slice hist left (right + 1)) (slice hist (left / 2) left ++ slice hist (right + 1) ((len hist + right) / 2 + 1)).
Lemma pieces_split hist bc w : 0 <= w -> exists S B, splits hist (signal (pieces hist bc w)) (background (pieces hist bc w)) S B /\
  (0 <= bc < len hist -> In bc S) /\ (w = 0 -> 0 <= bc < len hist -> S = [bc]) /\ (w = 0 -> 0 <= bc < len hist -> 2 <= len hist -> B <> []).
Proof.
  intros W. unfold pieces. cbn [signal background].
  set (l := Z.max 0 (bc - w)). set (r := Z.min (len hist) (bc + w)).
  rewrite !slice_positions. do 2 eexists. split; [split; [reflexivity|split; [unfold at_positions; now rewrite <- map_app|]]|].
  2: split; [|split].
  - assert (H1 : slice_index hist (l / 2) <= slice_index hist l) by (apply slice_index_mono; subst l; lia).
    pose proof (slice_index_range hist (l / 2)). pose proof (slice_index_range hist l).
    pose proof (slice_index_range hist (r + 1)). pose proof (slice_index_range hist ((len hist + r) / 2 + 1)).
    split.
    + apply NoDup_app'; [apply zrange_NoDup| |].
      * apply NoDup_app'; [apply zrange_NoDup..|]. intros x X Y. apply zrange_In in X. apply zrange_In in Y.
        unfold slice_index in *. assert (L0 : 0 <= l) by (subst l; lia). replace (l <? 0) with false in * by lia.
        destruct (r + 1 <? 0) eqn:R; [assert (l = 0) by (subst l r; lia); lia|].
        assert (r < l -> l = 0 \/ len hist <= r) by (subst l r; lia). lia.
      * intros x X Y. apply in_app_iff in Y. apply zrange_In in X. rewrite !zrange_In in Y. lia.
    + apply Forall_forall. intros x X. rewrite !in_app_iff, !zrange_In in X. lia.
  - intros H. apply zrange_In. unfold slice_index. replace (l <? 0) with false by lia. replace (r + 1 <? 0) with false by lia. lia.
  - intros -> H. replace (slice_index hist l) with bc by (unfold slice_index; replace (l <? 0) with false by lia; lia).
    replace (slice_index hist (r + 1)) with (bc + 1) by (unfold slice_index; replace (r + 1 <? 0) with false by lia; lia).
    unfold zrange. replace (bc + 1 - bc) with 1 by lia. change (seq 0 (Z.to_nat 1)) with [0%nat]. cbn [map]. f_equal. lia.
  - intros -> H N E. apply (f_equal (@length Z)) in E. revert E. rewrite app_length. unfold zrange. rewrite !map_length, !seq_length. cbn [length].
    unfold slice_index. replace (l <? 0) with false by lia. replace (r + 1 <? 0) with false by lia.
    replace (l / 2 <? 0) with false by lia. replace ((len hist + r) / 2 + 1 <? 0) with false by lia. lia.
Qed.
Lemma statistics_none hist res w : hist <> [] -> exists p, first_peak hist p /\
  get_statistics hist (Some res) None w = Ok (pieces hist p (Qceiling (w / 2 / res))).
Proof.
  intros N. destruct (argmax_spec hist N) as (p & A & F). exists p. split; [exact F|]. unfold get_statistics. rewrite A. reflexivity.
Qed.
Lemma statistics_int hist res c w :
  get_statistics hist (Some res) (Some (c, true)) w = Ok (pieces hist (middle_bin (len hist) res c) (Qceiling (w / 2 / res))).
Proof. reflexivity. Qed.
Lemma c51_none hist res w : hist <> [] -> (0 < res)%Q -> (0 <= w)%Q ->
  exists s p S B, get_statistics hist (Some res) None w = Ok s /\ splits hist (signal s) (background s) S B /\ first_peak hist p /\ In p S.
Proof.
  intros N R W. destruct (statistics_none hist res w N) as (p & F & E).
  destruct (pieces_split hist p _ (ceil_nonneg w res W R)) as (S & B & H & I & _).
  exists (pieces hist p (Qceiling (w / 2 / res))), p, S, B. split; [exact E|]. split; [exact H|]. split; [exact F|]. apply I, F.
Qed.
Lemma c51_int hist res c w : (0 < res)%Q -> (0 <= w)%Q ->
  exists s S B, get_statistics hist (Some res) (Some (c, true)) w = Ok s /\ splits hist (signal s) (background s) S B /\
    (0 <= middle_bin (len hist) res c < len hist -> In (middle_bin (len hist) res c) S).
Proof.
  intros R W. destruct (pieces_split hist (middle_bin (len hist) res c) _ (ceil_nonneg w res W R)) as (S & B & H & I & _).
  do 3 eexists. split; [apply statistics_int|]. split; [exact H|]. exact I.
Qed.
Lemma c51_float hist res c w : (0 < res)%Q -> (0 <= w)%Q -> 0 < middle_bin (len hist) res c < len hist -> w == 0%Q ->
  get_statistics hist (Some res) (Some (c, false)) w = Err TypeError.
Proof.
  intros R W M Z0. unfold get_statistics. cbn [bind]. fold (middle_bin (len hist) res c).
  assert (E : Qceiling (w / 2 / res) = 0).
  { assert (E : (w / 2 / res == 0)%Q) by (rewrite Z0; field; lra). rewrite (Qceiling_comp _ _ E). reflexivity. }
  rewrite E. replace (0 <? middle_bin (len hist) res c - 0) with true by lia. reflexivity.
Qed.

(** ** Mean and variance *)
Lemma inject_len_pos {A} (x : A) l : (0 < inject_Z (len (x :: l)))%Q.
Proof. change 0%Q with (inject_Z 0). rewrite <- Zlt_Qlt, len_cons. pose proof (len_nonneg l). lia. Qed.
Lemma qmean_spec l : l <> [] -> is_mean l (qmean l).
Proof. intros N. destruct l as [|x l]; [congruence|]. unfold is_mean, qmean. pose proof (inject_len_pos x l). fold (qsum (x :: l)). field. lra. Qed.
Lemma qvar_spec l : l <> [] -> is_variance l (qvar l).
Proof.
  intros N. exists (qmean l). split; [now apply qmean_spec|]. unfold is_mean, qvar. rewrite len_map.
  destruct l as [|x l]; [congruence|]. pose proof (inject_len_pos x l).
  fold (qsum (map (fun y => (y - qmean (x :: l)) * (y - qmean (x :: l)))%Q (x :: l))). field. lra.
Qed.
Lemma mean_unique l m m' : l <> [] -> is_mean l m -> is_mean l m' -> (m == m')%Q.
Proof.
  intros N H H'. destruct l as [|x l]; [congruence|]. unfold is_mean in *. pose proof (inject_len_pos x l) as P.
  apply (Qmult_inj_l _ _ (inject_Z (len (x :: l)))); [lra|]. rewrite H, H'. reflexivity.
Qed.
Lemma qsum_const l c : (forall x, In x l -> x == c)%Q -> (qsum l == inject_Z (len l) * c)%Q.
Proof.
  induction l as [|x l IH]; intros H; cbn [qsum fold_right].
  - change (inject_Z (len [])) with 0%Q. ring.
  - fold (qsum l). pose proof (H x ltac:(now left)) as HX. specialize (IH ltac:(intros; apply H; now right)).
    rewrite len_cons, inject_Z_plus, IH, HX. ring.
Qed.
Lemma qmean_const l c : l <> [] -> (forall x, In x l -> x == c)%Q -> (qmean l == c)%Q.
Proof. intros N H. apply (mean_unique l); [assumption|now apply qmean_spec|]. unfold is_mean. fold (qsum l). now rewrite (qsum_const l c). Qed.
Lemma qvar_const l c : l <> [] -> (forall x, In x l -> x == c)%Q -> (qvar l == 0)%Q.
Proof.
  intros N H. unfold qvar.
  rewrite (qsum_const _ 0).
  - destruct l as [|x l]; [congruence|]. pose proof (inject_len_pos x l). rewrite len_map. field. lra.
  - intros y Y. apply in_map_iff in Y as (x & <- & I). pose proof (H x I) as HX. rewrite (qmean_const l c), HX by assumption. ring.
Qed.
Lemma qsum_nonneg l : (forall x, In x l -> 0 <= x)%Q -> (0 <= qsum l)%Q.
Proof. induction l as [|x l IH]; intros H; cbn [qsum fold_right]; [lra|]. fold (qsum l). specialize (IH ltac:(intros; apply H; now right)). specialize (H x ltac:(now left)). lra. Qed.
Lemma qsum_zero l : (forall x, In x l -> 0 <= x)%Q -> (qsum l == 0)%Q -> forall x, In x l -> (x == 0)%Q.
Proof.
  induction l as [|y l IH]; intros H E x I; [easy|]. cbn [qsum fold_right] in E. fold (qsum l) in E.
  pose proof (qsum_nonneg l ltac:(intros; apply H; now right)). pose proof (H y ltac:(now left)).
  destruct I as [->|I]; [lra|]. apply IH; [intros; apply H; now right|lra|assumption].
Qed.
Lemma Qsq_nonneg x : (0 <= x * x)%Q.
Proof. destruct (Qlt_le_dec x 0); nra. Qed.
(** zero deviation exactly for a flat list *)
Lemma qvar_zero l : l <> [] -> (qvar l == 0)%Q <-> (forall x y, In x l -> In y l -> x == y)%Q.
Proof.
  intros N. split.
  - intros E. assert (G : forall x, In x l -> (x == qmean l)%Q).
    { intros x I. assert (Z0 : ((x - qmean l) * (x - qmean l) == 0)%Q).
      { apply (qsum_zero (map (fun x => (x - qmean l) * (x - qmean l))%Q l)).
        - intros y Y. apply in_map_iff in Y as (z & <- & _). apply Qsq_nonneg.
        - destruct l as [|a l]; [congruence|]. pose proof (inject_len_pos a l) as P.
          assert (qsum (map (fun x => (x - qmean (a :: l)) * (x - qmean (a :: l)))%Q (a :: l)) == qvar (a :: l) * inject_Z (len (a :: l)))%Q as -> by (unfold qvar; field; lra).
          rewrite E. ring.
        - apply in_map_iff. now exists x. }
      apply Qmult_integral in Z0. lra. }
    intros x y X Y. pose proof (G x X). pose proof (G y Y). lra.
  - intros H. destruct l as [|a l]; [congruence|]. apply (qvar_const _ a); [assumption|]. intros x I. apply H; [assumption|now left].
Qed.
Lemma c51_flat s m : background s <> [] -> peak_max s = Some m -> (forall x y, In x (background s) -> In y (background s) -> x == y)%Q ->
  significance exact_zs s = Ok 0%Q.
Proof.
  intros N M H. unfold significance. destruct (background s) as [|b bg] eqn:E; [congruence|]. rewrite M. unfold exact_zs.
  apply (qvar_zero _ N) in H. apply Qeq_bool_iff in H. now rewrite H.
Qed.

(** ** The value of the significance *)
Lemma rsqrt_spec x : (0 <= x)%Q -> near_sqrt x (rsqrt x).
Proof.
  intros X. unfold rsqrt. set (n := Z.sqrt (Qfloor x)).
  assert (F : 0 <= Qfloor x).
  { pose proof (Qlt_floor x) as L. assert (0 < Qfloor x + 1) by (rewrite Zlt_Qlt; change (inject_Z 0) with 0%Q; lra). lia. }
  pose proof (Z.sqrt_spec _ F) as [A B]. fold n in A, B. pose proof (Z.sqrt_nonneg (Qfloor x)) as N. fold n in N.
  assert (L : (inject_Z n * inject_Z n <= x)%Q).
  { rewrite <- inject_Z_mult. apply Qle_trans with (inject_Z (Qfloor x)); [rewrite <- Zle_Qle; exact A|apply Qfloor_le]. }
  assert (U : (x < (inject_Z n + 1) * (inject_Z n + 1))%Q).
  { apply Qlt_le_trans with (inject_Z (Qfloor x + 1)); [apply Qlt_floor|]. change 1%Q with (inject_Z 1). rewrite <- inject_Z_plus, <- inject_Z_mult, <- Zle_Qle. lia. }
  assert (NQ : (0 <= inject_Z n)%Q) by (change 0%Q with (inject_Z 0); now rewrite <- Zle_Qle).
  assert (EH : (inject_Z (2 * n + 1) / 2 == inject_Z n + (1 # 2))%Q).
  { rewrite inject_Z_plus, inject_Z_mult. change (inject_Z 2) with 2%Q. change (inject_Z 1) with 1%Q. field. }
  set (h := (inject_Z (2 * n + 1) / 2)%Q) in *. unfold near_sqrt.
  assert (DOWN : (x <= h * h)%Q -> 0 <= n /\ (x <= (inject_Z n + (1 # 2)) * (inject_Z n + (1 # 2)))%Q /\
    (n = 0 \/ ((inject_Z n - (1 # 2)) * (inject_Z n - (1 # 2)) <= x)%Q)).
  { intros H. rewrite EH in H. split; [assumption|]. split; [exact H|]. destruct (Z.eq_dec n 0) as [E|E]; [now left|right].
    assert (1 <= inject_Z n)%Q by (change 1%Q with (inject_Z 1); rewrite <- Zle_Qle; lia). nra. }
  assert (UP : (h * h <= x)%Q -> 0 <= n + 1 /\ (x <= (inject_Z (n + 1) + (1 # 2)) * (inject_Z (n + 1) + (1 # 2)))%Q /\
    (n + 1 = 0 \/ ((inject_Z (n + 1) - (1 # 2)) * (inject_Z (n + 1) - (1 # 2)) <= x)%Q)).
  { intros H. rewrite EH in H. split; [lia|]. rewrite inject_Z_plus. change (inject_Z 1) with 1%Q. split; [nra|]. right.
    apply Qle_trans with ((inject_Z n + (1 # 2)) * (inject_Z n + (1 # 2)))%Q; [apply Qle_lteq; right; ring|exact H]. }
  destruct (x ?= h * h)%Q eqn:C.
  - apply Qeq_alt in C. destruct (Z.even n); [apply DOWN|apply UP]; lra.
  - apply Qlt_alt in C. apply DOWN; lra.
  - apply Qgt_alt in C. apply UP; lra.
Qed.
Lemma c51_value s m mean var : background s <> [] -> peak_max s = Some m -> is_mean (background s) mean -> is_variance (background s) var -> ~ (var == 0)%Q ->
  exists n, (mean <= m -> significance exact_zs s = Ok (inject_Z n / 1000))%Q /\ (m < mean -> significance exact_zs s = Ok (inject_Z (- n) / 1000))%Q /\
    near_sqrt ((m - mean) * (m - mean) / var * 1000000)%Q n.
Proof.
  intros N M HM HV NZ. unfold significance. destruct (background s) as [|b bg] eqn:E; [congruence|]. rewrite M. unfold exact_zs.
  rewrite <- E in *. clear E b bg.
  assert (EM : (qmean (background s) == mean)%Q) by (apply (mean_unique (background s)); [assumption|now apply qmean_spec|assumption]).
  assert (EV : (qvar (background s) == var)%Q).
  { destruct HV as (m' & HM' & HV'). assert (Em : (m' == mean)%Q) by (apply (mean_unique (background s)); assumption).
    assert (NM : map (fun x => (x - m') * (x - m'))%Q (background s) <> []) by (destruct (background s); cbn; congruence).
    apply (mean_unique _ _ _ NM); [|assumption]. destruct (qvar_spec (background s) N) as (m2 & A & B).
    assert (E2 : (m2 == m')%Q) by (apply (mean_unique (background s)); assumption).
    unfold is_mean in *. rewrite len_map in *. rewrite B. clear - E2. induction (background s) as [|x l IH]; cbn; [reflexivity|].
    rewrite IH, E2. reflexivity. }
  destruct (Qeq_bool (qvar (background s)) 0) eqn:Z0; [apply Qeq_bool_iff in Z0; lra|].
  eexists. split; [intros LE; replace (Qle_bool 0 (m - qmean (background s))) with true by (symmetry; apply Qle_bool_iff; rewrite EM; lra); reflexivity|].
  split; [intros LT; replace (Qle_bool 0 (m - qmean (background s))) with false
            by (symmetry; destruct (Qle_bool 0 (m - qmean (background s))) eqn:LE; [apply Qle_bool_iff in LE; rewrite EM in LE; lra|reflexivity]); reflexivity|].
  assert (EX : ((m - qmean (background s)) * (m - qmean (background s)) * 1000000 / qvar (background s) == (m - mean) * (m - mean) / var * 1000000)%Q).
  { rewrite EM, EV. field. assumption. }
  assert (VP : (0 < var)%Q).
  { assert (0 <= qvar (background s))%Q.
    { unfold qvar. destruct (background s) as [|x l]; [congruence|]. apply Qle_shift_div_l; [apply inject_len_pos|].
      rewrite Qmult_0_l. apply qsum_nonneg. intros y Y. apply in_map_iff in Y as (z & <- & _). apply Qsq_nonneg. }
    lra. }
  assert (SP := rsqrt_spec ((m - qmean (background s)) * (m - qmean (background s)) * 1000000 / qvar (background s))%Q).
  revert SP. generalize (rsqrt ((m - qmean (background s)) * (m - qmean (background s)) * 1000000 / qvar (background s))%Q). intros n SP.
  destruct SP as (A & B & C).
  - rewrite EX. assert (0 <= (m - mean) * (m - mean) / var)%Q by (apply Qle_shift_div_l; [assumption|]; rewrite Qmult_0_l; apply Qsq_nonneg). lra.
  - split; [exact A|]. rewrite EX in B, C. split; [exact B|exact C].
Qed.

(** ** get_top_k_delays_fft *)
Lemma nth_seq_id {A} (l : list A) d : map (fun k => nth k l d) (seq 0 (length l)) = l.
Proof. induction l as [|x l IH]; [reflexivity|]. cbn [length seq map nth]. f_equal. rewrite <- seq_shift, map_map. exact IH. Qed.
Lemma delay_centered n xs res p : 0 <= p < n -> len xs = n -> even_axis res xs ->
  exists a b, get_delay_at_index_fft xs p = Ok (a, b) /\
    (a == if (p =? 0)%Z then 0 else inject_Z (centered n p) * res)%Q.
Proof.
  intros P L E. destruct (delay_value n xs res p P L E) as (a & b & D & D0 & D1 & D2). exists a, b.
  unfold get_delay_at_index_fft. replace (p <? 0) with false by lia. rewrite L. split; [exact D|].
  destruct (p =? 0) eqn:Z0; [apply D0; lia|]. unfold centered. destruct (2 * p <? n) eqn:C; [apply D1; lia|apply D2; lia].
Qed.
Lemma top_one part order hist xs res : hist <> [] -> len xs = len hist -> even_axis res xs ->
  exists p a b, first_peak hist p /\ get_top_k_delays_fft part order hist xs 1 = Ok [(None, a, b)] /\
    get_timing_delay_fft hist xs = Ok (a, b) /\ (a == if (p =? 0)%Z then 0 else inject_Z (centered (len hist) p) * res)%Q.
Proof.
  intros N L E. destruct (argmax_spec hist N) as (p & A & F). destruct F as (F0 & F1).
  destruct (delay_centered (len hist) xs res p F0 L E) as (a & b & D & V). exists p, a, b.
  split; [now split|]. split; [|split; [|exact V]].
  - unfold get_top_k_delays_fft. change (1 <? 1) with false. change (1 =? 1) with true. cbn iota. rewrite A. cbn [bind]. now rewrite D.
  - unfold get_timing_delay_fft. rewrite A. cbn [bind]. unfold get_delay_at_index_fft in D. replace (p <? 0) with false in D by lia. now rewrite L in D.
Qed.
Lemma top_k part order hist xs res k : 2 <= k <= len hist -> len xs = len hist -> even_axis res xs ->
  top_positions hist k part -> Permutation order (map Z.of_nat (seq 0 (Z.to_nat k))) ->
  descending (map (fun o => nth (Z.to_nat (nth (Z.to_nat o) part 0)) hist 0%Q) order) ->
  exists ps rs, get_top_k_delays_fft part order hist xs k = Ok rs /\ Permutation ps part /\
    map (fun r => fst (fst r)) rs = map (fun p => Some (nth (Z.to_nat p) hist 0%Q)) ps /\
    descending (at_positions hist ps) /\
    Forall2 (fun p r => snd (fst r) == if (p =? 0)%Z then 0 else inject_Z (centered (len hist) p) * res)%Q ps rs.
Proof.
  intros K L E (PL & ND & RG & _) PO DE.
  set (pos := fun o => nth (Z.to_nat o) part 0).
  exists (map pos order).
  assert (O : forall o, In o order -> 0 <= o < k).
  { intros o I. apply (Permutation_in _ PO) in I. apply in_map_iff in I as (i & <- & I). apply in_seq in I. lia. }
  assert (PR : forall o, In o order -> 0 <= pos o < len hist).
  { intros o I. apply O in I. rewrite Forall_forall in RG. apply RG. unfold pos. apply nth_In. unfold len in PL. lia. }
  assert (PP : Permutation (map pos order) part).
  { transitivity (map pos (map Z.of_nat (seq 0 (Z.to_nat k)))); [now apply Permutation_map|].
    rewrite map_map. unfold pos. replace (Z.to_nat k) with (length part) by (unfold len in PL; lia).
    assert (X : map (fun x => nth (Z.to_nat (Z.of_nat x)) part 0) (seq 0 (length part)) = part); [|now rewrite X].
    transitivity (map (fun x => nth x part 0) (seq 0 (length part))); [|apply nth_seq_id]. apply map_ext. intros a. now rewrite Nat2Z.id. }
  assert (G : forall o, In o order -> exists a b,
     (let* x := getitem part o in let* y := getitem hist x in let* (a, b) := get_delay_at_index_fft xs x in Ok (Some y, a, b)) = Ok (Some (nth (Z.to_nat (pos o)) hist 0%Q), a, b) /\
     (a == if (pos o =? 0)%Z then 0 else inject_Z (centered (len hist) (pos o)) * res)%Q).
  { intros o I. pose proof (O o I). pose proof (PR o I) as R. destruct (delay_centered (len hist) xs res (pos o) R L E) as (a & b & D & V).
    exists a, b. split; [|exact V]. rewrite (getitem_nth part o 0) by lia. cbn [bind]. fold (pos o).
    rewrite (getitem_nth hist (pos o) 0%Q) by lia. cbn [bind]. now rewrite D. }
  assert (M : exists rs, mapM (fun o => let* x := getitem part o in let* y := getitem hist x in let* (a, b) := get_delay_at_index_fft xs x in Ok (Some y, a, b)) order = Ok rs /\
    map (fun r => fst (fst r)) rs = map (fun p => Some (nth (Z.to_nat p) hist 0%Q)) (map pos order) /\
    Forall2 (fun p r => snd (fst r) == if (p =? 0)%Z then 0 else inject_Z (centered (len hist) p) * res)%Q (map pos order) rs).
  { clear - G. induction order as [|o order IH]; cbn [mapM map]; [exists []; repeat split; constructor|].
    destruct (G o (or_introl eq_refl)) as (a & b & -> & V). cbn [bind].
    destruct IH as (rs & -> & M & F); [intros; apply G; now right|]. eexists. split; [reflexivity|]. cbn [map fst snd].
    split; [now f_equal|]. constructor; [exact V|exact F]. }
  destruct M as (rs & M & MM & F). exists rs. split; [|split; [exact PP|split; [exact MM|split; [|exact F]]]].
  - unfold get_top_k_delays_fft. replace (k <? 1) with false by lia. replace (k =? 1) with false by lia. replace (len hist <? k) with false by lia. exact M.
  - unfold at_positions. rewrite map_map. exact DE.
Qed.

(** ** End to end, from events to the delay *)
Lemma c69 ats bts n res s k ys : 0 < n -> (0 < res)%Q -> 0 <= s < n -> ats <> [] ->
  Forall2 (fun t u => exists q, u == t + inject_Z (q * n + s) * res)%Q ats k -> Permutation k bts ->
  exists ha hb, histogram ats n res = Ok ha /\ histogram bts n res = Ok hb /\
    (aperiodic ha -> near_correlation ha hb ys ->
     exists d e, get_timing_delay_fft ys (map (fun i => inject_Z (Z.of_nat i) * res)%Q (seq 0 (Z.to_nat n))) = Ok (d, e) /\
       (d == if (s =? 0)%Z then 0 else inject_Z (centered n s) * res)%Q).
Proof.
  intros N R S NA F P. destruct (histogram_shift ats bts n res s k N R S NA F P) as (ha & hb & Ea & Eb & SH).
  destruct (histogram_ok ats n res NA N R) as (h' & Ea' & L & _). rewrite Ea in Ea'. injection Ea' as <-.
  exists ha, hb. split; [exact Ea|]. split; [exact Eb|]. intros AP NC.
  assert (LA : length ha = Z.to_nat n) by (unfold len in L; lia).
  destruct (c49 ha hb (Z.to_nat s) ys (map (fun i => inject_Z (Z.of_nat i) * res)%Q (seq 0 (Z.to_nat n))) res SH AP) as (_ & _ & d & e & D & V).
  - lia.
  - exact NC.
  - rewrite L. unfold len. rewrite map_length, seq_length. lia.
  - intros i I. rewrite map_length, seq_length in I.
    rewrite (nth_indep _ 0%Q (inject_Z (Z.of_nat 0) * res)%Q) by (now rewrite map_length, seq_length).
    rewrite (map_nth (fun i => inject_Z (Z.of_nat i) * res)%Q), seq_nth by assumption. cbn [Nat.add]. reflexivity.
  - exact R.
  - exists d, e. split; [exact D|]. rewrite V, L, Z2Nat.id by lia.
    destruct (s =? 0) eqn:E; [replace (Z.to_nat s =? 0)%nat with true by lia|replace (Z.to_nat s =? 0)%nat with false by lia]; reflexivity.
Qed.

(** ** Significance over the whole histogram *)
Lemma raw_exact s : (significance_raw s = Ok None <-> background s <> [] /\ forall x y, In x (background s) -> In y (background s) -> (x == y)%Q) /\
  (significance_raw s = Ok None \/ significance_raw s = Err TypeError).
Proof.
  unfold significance_raw. destruct (background s) as [|a l] eqn:B.
  { split; [split; [discriminate|intros [X _]; congruence]|now right]. }
  assert (N : a :: l <> []) by discriminate. pose proof (qvar_zero (a :: l) N) as V.
  destruct (Qeq_bool (qvar (a :: l)) 0) eqn:Q.
  - apply Qeq_bool_iff in Q. split; [|now left]. split; [intros _; split; [assumption|now apply V]|reflexivity].
  - apply Qeq_bool_neq in Q. split; [|now right]. split; [discriminate|]. intros [_ X]. apply V in X. contradiction.
Qed.
Lemma raw_never s v : significance_raw s <> Ok (Some v).
Proof. unfold significance_raw. destruct (background s); [congruence|]. destruct (Qeq_bool _ _); congruence. Qed.
Lemma total_spec s m : signal s <> [] -> background s <> [] -> is_mean (background s) m ->
  exists v, peak_total s = Ok (Some v) /\ (v == fold_right Qplus 0 (map (fun x => x - m) (signal s)))%Q.
Proof.
  intros NS NB M. unfold peak_total, peak_mean. destruct (signal s) as [|x l] eqn:E; [congruence|]. destruct (background s) as [|b bg] eqn:B; [congruence|].
  eexists. split; [reflexivity|]. rewrite <- B in *. clear E B NS b bg.
  assert (EM : (qmean (background s) == m)%Q) by (apply (mean_unique (background s)); [assumption|now apply qmean_spec|assumption]).
  rewrite EM. clear EM M NB. generalize (x :: l) as l'. clear x l. intros l.
  induction l as [|x l IH]; [reflexivity|]. cbn [qsum map fold_right] in *. rewrite len_cons, inject_Z_plus. rewrite <- IH. fold (qsum l). change (inject_Z 1) with 1%Q. ring.
Qed.
(** an odd number of bins: one time is missing *)
Lemma c52_odd hist xs h : len hist = 2 * h + 1 -> 0 <= h -> len hist <= len xs ->
  exists ys ts, convert_histogram_fft hist xs = (ys, ts) /\ len ys = 2 * h + 1 /\ len ts = 2 * h.
Proof.
  intros L H X. unfold convert_histogram_fft. rewrite L. replace ((2 * h + 1) / 2) with h by lia.
  do 2 eexists. split; [reflexivity|]. rewrite !len_app. unfold len at 3. rewrite map_length, rev_length. fold (len (slice xs 1 (h + 1))).
  rewrite !len_slice by lia. lia.
Qed.
