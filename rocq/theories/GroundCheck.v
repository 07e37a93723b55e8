(** A decision procedure for [outnumbered], given bounds of [off_by] and [blur], and a correlation for sparse histograms. *)
From Coq Require Import QArith Qabs Qround Lqa List Lia.
From Coq Require Import ZifyBool.
From Verif Require Import Float Base TimestampsModel UtilsModel UtilsSpec FpfindModel FpfindSpec AccuracySpec PairSpec PairProofs RoundedSpec WholeSpec GroundSpec.
Import ListNotations. Local Open Scope Z_scope.

(** ** Whole turns *)
Lemma turn_range C x : (0 < C)%Q -> (0 <= turn C x < C)%Q.
Proof.
  intros H. unfold turn. pose proof (Qfloor_le (x / C)) as L. pose proof (Qlt_floor (x / C)) as U. rewrite inject_Z_plus in U. change (inject_Z 1) with 1%Q in U. set (k := inject_Z (Qfloor (x / C))) in *. clearbody k.
  apply (Qmult_le_l _ _ C H) in L. apply (Qmult_lt_l _ _ C H) in U.
  setoid_replace (C * (x / C))%Q with x in L by (field; intros E; rewrite E in H; discriminate H). setoid_replace (C * (x / C))%Q with x in U by (field; intros E; rewrite E in H; discriminate H). lra.
Qed.
Lemma turn_unique C x y k : (0 < C)%Q -> (y == x - C * inject_Z k)%Q -> (0 <= y < C)%Q -> (turn C x == y)%Q.
Proof.
  intros H E [Y0 Y1]. unfold turn. assert (K : Qfloor (x / C) = k); [|rewrite K; lra].
  assert (NZ : ~ (C == 0)%Q) by lra. assert (D : (x / C == inject_Z k + y / C)%Q) by (rewrite E; field; exact NZ).
  assert (0 <= y / C)%Q by (apply Qle_shift_div_l; lra). assert (y / C < 1)%Q by (apply Qlt_shift_div_r; lra).
  pose proof (Qfloor_le (x / C)) as L. pose proof (Qlt_floor (x / C)) as U. set (z := Qfloor (x / C)) in *. clearbody z.
  assert (A1 : (inject_Z z < inject_Z (k + 1))%Q) by (rewrite inject_Z_plus; change (inject_Z 1) with 1%Q; lra).
  assert (A2 : (inject_Z k < inject_Z (z + 1))%Q) by lra. rewrite <- Zlt_Qlt in A1, A2. lia.
Qed.
Lemma turn_less C x y v : (0 < C)%Q -> (turn C (y - v) <= turn C (x - v))%Q -> (turn C (x - y) <= turn C (x - v))%Q.
Proof.
  intros H L. pose proof (turn_range C (x - v) H) as R1. pose proof (turn_range C (y - v) H) as R2.
  assert (E : (turn C (x - y) == turn C (x - v) - turn C (y - v))%Q); [|rewrite E; lra].
  apply (turn_unique C (x - y) _ (Qfloor ((x - v) / C) - Qfloor ((y - v) / C)) H); [|lra]. unfold turn. unfold Z.sub. rewrite inject_Z_plus, inject_Z_opp. ring.
Qed.
(** ** Counting *)
Lemma filter_mono {X} (f g : X -> bool) l : (forall x, In x l -> f x = true -> g x = true) -> len (filter f l) <= len (filter g l).
Proof.
  induction l as [|x l IH]; intros H; cbn [filter]; [lia|]. assert (I : len (filter f l) <= len (filter g l)) by (apply IH; intros y Y; apply H; now right).
  pose proof (H x (or_introl eq_refl)) as HX. destruct (f x); [rewrite (HX eq_refl), !len_cons; lia|]. destruct (g x); rewrite ?len_cons; lia.
Qed.
Lemma least (f : Q -> Q) l : l <> [] -> exists x, In x l /\ forall y, In y l -> (f x <= f y)%Q.
Proof.
  induction l as [|x l IH]; intros N; [congruence|]. destruct l as [|z l]; [exists x; split; [now left|]; intros y [<-|[]]; apply Qle_refl|].
  destruct IH as (m & I & M); [discriminate|]. destruct (Qlt_le_dec (f x) (f m)) as [L|L].
  - exists x. split; [now left|]. intros y [<-|Y]; [apply Qle_refl|]. specialize (M y Y). lra.
  - exists m. split; [now right|]. intros y [<-|Y]; [exact L|now apply M].
Qed.
Definition near (C l v x : Q) : bool := Qle_bool (turn C (x - v)) l.
Lemma most_at_one C l v ds : (0 < C)%Q -> filter (near C l v) ds = [] \/ exists v', In v' ds /\ len (filter (near C l v) ds) <= len (filter (near C l v') ds).
Proof.
  intros H. destruct (filter (near C l v) ds) as [|z zs] eqn:E; [now left|right]. destruct (least (fun x => turn C (x - v)) (filter (near C l v) ds)) as (v' & I & M); [rewrite E; discriminate|].
  exists v'. split; [now apply filter_In in I|]. rewrite <- E. apply filter_mono. intros x X N. assert (IN : In x (filter (near C l v) ds)) by (apply filter_In; now split).
  unfold near in *. apply Qle_bool_iff in N. apply Qle_bool_iff. eapply Qle_trans; [|exact N]. apply turn_less; [exact H|]. now apply M.
Qed.
(** ** The check *)
Definition delays (A B : list Q) (D F j0 s w m : Q) : list Q :=
  map (fun c => Qred (star D F (snd c) - fst c)) (filter (fun c => both_in D F s w m c && negb (common D F j0 c)) (list_prod A B)).
Definition outnumbered_b (e : Q) (n : Z) (A B : list Q) (D F j0 q w s m d : Q) : bool :=
  let C := (inject_Z n * q)%Q in let l := (2 * q + 2 * d)%Q in let k := inject_Z (Qfloor (2 * d / q) + 3) in let N := inject_Z (commons A B D F j0 s w m) in
  let ds := delays A B D F j0 s w m in
  Qltb (k * (2 * e)) N && forallb (fun v => Qltb (k * (inject_Z (len (filter (near C l v) ds)) + 2 * e)) N) ds.
Lemma time_in_mono s w m m' t : (m <= m')%Q -> time_in s w m t = true -> time_in s w m' t = true.
Proof. unfold time_in. rewrite !andb_true_iff, !Qle_bool_iff. intros M [H1 H2]. split; lra. Qed.
Lemma both_in_mono D F s w m m' c : (m <= m')%Q -> both_in D F s w m c = true -> both_in D F s w m' c = true.
Proof. unfold both_in. rewrite !andb_true_iff. intros M [H1 H2]. split; now apply (time_in_mono _ _ m). Qed.
Lemma turn_eq C x y : (x == y)%Q -> (turn C x == turn C y)%Q.
Proof. intros E. unfold turn. assert (K : Qfloor (x / C) = Qfloor (y / C)) by (apply Qfloor_comp; rewrite E; reflexivity). rewrite K, E. reflexivity. Qed.
Lemma accidentals_delays A B D F j0 s w m m' C l l' v : (m <= m')%Q -> (l <= l')%Q -> accidentals A B D F j0 s w m C l v <= len (filter (near C l' v) (delays A B D F j0 s w m')).
Proof.
  intros M L. unfold accidentals, delays. induction (list_prod A B) as [|c cs IH]; [reflexivity|]. cbn [filter].
  destruct (both_in D F s w m c && negb (common D F j0 c) && Qle_bool (turn C (star D F (snd c) - fst c - v)) l) eqn:H.
  - apply andb_true_iff in H as [H H3]. apply andb_true_iff in H as [H1 H2]. rewrite (both_in_mono _ _ _ _ _ _ _ M H1), H2. cbn [andb map filter].
    replace (near C l' v _) with true; [rewrite !len_cons; lia|]. symmetry. unfold near. apply Qle_bool_iff. apply Qle_bool_iff in H3. eapply Qle_trans; [|exact L]. eapply Qle_trans; [|exact H3].
    apply Qle_lteq. right. apply turn_eq. rewrite Qred_correct. reflexivity.
  - destruct (both_in D F s w m' c && negb (common D F j0 c)); [|exact IH]. cbn [map filter]. destruct (near C l' v _); [rewrite len_cons; lia|exact IH].
Qed.
Lemma ltb_lt x y : Qltb x y = true -> (x < y)%Q.
Proof. unfold Qltb. intros H. apply negb_true_iff in H. apply Qnot_le_lt. intros X. apply Qle_bool_iff in X. congruence. Qed.
Lemma floor_factor q d d' : (0 < q)%Q -> (0 <= d)%Q -> (d <= d')%Q -> 0 <= Qfloor (2 * d / q) + 3 <= Qfloor (2 * d' / q) + 3.
Proof.
  intros Q0 D0 L. assert (E : (2 * d / q <= 2 * d' / q)%Q). { apply Qle_shift_div_l; [exact Q0|]. setoid_replace (2 * d / q * q)%Q with (2 * d)%Q by (field; lra). lra. }
  pose proof (Qfloor_resp_le _ _ E). assert (Z : (inject_Z 0 <= 2 * d / q)%Q) by (apply Qle_shift_div_l; [exact Q0|]; change (inject_Z 0) with 0%Q; lra).
  pose proof (Qfloor_resp_le _ _ Z) as ZF. rewrite Qfloor_Z in ZF. lia.
Qed.
Lemma outnumbered_ok e P A B D F j0 j W ws q w s m d : (0 <= e)%Q -> (0 < q)%Q -> 0 < num_bins P -> (0 <= blur P D F j W ws)%Q -> (off_by P D F j W ws <= m)%Q -> (blur P D F j W ws <= d)%Q ->
  outnumbered_b e (num_bins P) A B D F j0 q w s m d = true -> outnumbered e P A B D F j0 j W ws q w s.
Proof.
  intros E0 Q0 N0 B0 HM HD H. unfold outnumbered. set (m0 := off_by P D F j W ws) in *. set (d0 := blur P D F j W ws) in *. intros v. unfold outnumbered_b in H. cbv zeta in H.
  apply andb_true_iff in H as [H1 H2]. apply ltb_lt in H1. rewrite forallb_forall in H2. set (C := (inject_Z (num_bins P) * q)%Q) in *.
  assert (C0 : (0 < C)%Q) by (apply Qmult_lt_0_compat; [rewrite <- (Zlt_Qlt 0); lia|exact Q0]).
  assert (CM : commons A B D F j0 s w m <= commons A B D F j0 s w m0).
  { unfold commons. apply filter_mono. intros c _ X. apply andb_true_iff in X as [X1 X2]. rewrite X2, (both_in_mono _ _ _ _ (- m) (- m0) c ltac:(lra) X1). reflexivity. }
  assert (AM : accidentals A B D F j0 s w m0 C (2 * q + 2 * d0) v <= len (filter (near C (2 * q + 2 * d) v) (delays A B D F j0 s w m))) by (apply accidentals_delays; lra).
  pose proof (floor_factor q d0 d Q0 B0 HD) as FF. set (k := Qfloor (2 * d / q) + 3) in *. set (k0 := Qfloor (2 * d0 / q) + 3) in *. set (a := accidentals A B D F j0 s w m0 C (2 * q + 2 * d0) v) in *.
  assert (A0 : 0 <= a) by apply len_nonneg. rewrite Zle_Qle in CM. eapply Qlt_le_trans; [|exact CM].
  assert (GO : forall c, a <= c -> (inject_Z k * (inject_Z c + 2 * e) < inject_Z (commons A B D F j0 s w m) -> inject_Z k0 * (inject_Z a + 2 * e) < inject_Z (commons A B D F j0 s w m))%Q).
  { intros c AC X. eapply Qle_lt_trans; [|exact X]. rewrite Zle_Qle in AC, A0. destruct FF as [F1 F2]. rewrite Zle_Qle in F1, F2. change (inject_Z 0) with 0%Q in *.
    apply Qle_trans with (inject_Z k * (inject_Z a + 2 * e))%Q; [apply Qmult_le_compat_r; lra|]. rewrite !(Qmult_comm (inject_Z k)). apply Qmult_le_compat_r; lra. }
  destruct (most_at_one C (2 * q + 2 * d) v (delays A B D F j0 s w m) C0) as [Z|(v' & I & L)].
  - apply (GO 0); [rewrite Z in AM; exact AM|]. change (inject_Z 0) with 0%Q. setoid_replace (0 + 2 * e)%Q with (2 * e)%Q by ring. exact H1.
  - apply (GO (len (filter (near C (2 * q + 2 * d) v') (delays A B D F j0 s w m)))); [lia|]. apply ltb_lt. exact (H2 v' I).
Qed.
(** ** The correlation of histograms with few counts *)
Fixpoint occupied (i : Z) (l : list Z) : list (Z * Z) := match l with [] => [] | v :: r => if v =? 0 then occupied (i + 1) r else (i, v) :: occupied (i + 1) r end.
Fixpoint at_bin (x : Z) (cs : list (Z * Z)) : Z := match cs with [] => 0 | (i, v) :: r => if i =? x then v else at_bin x r end.
Definition sparse_xc (h k : list Z) : list Q :=
  let n := len h in let oh := occupied 0 h in let ok := occupied 0 k in
  map (fun d => inject_Z (Z.abs (sumZ (map (fun c => snd c * at_bin ((fst c + Z.of_nat d) mod n) ok) oh)))) (seq 0 (length h)).
Lemma at_later l : forall i x, x < i -> at_bin x (occupied i l) = 0.
Proof. induction l as [|v l IH]; intros i x H; [reflexivity|]. cbn [occupied]. destruct (v =? 0); [apply IH; lia|]. cbn [at_bin]. replace (i =? x) with false by lia. apply IH; lia. Qed.
Lemma at_ok l : forall i x, i <= x -> at_bin x (occupied i l) = nth (Z.to_nat (x - i)) l 0.
Proof.
  induction l as [|v l IH]; intros i x H; [now destruct (Z.to_nat (x - i))|]. cbn [occupied]. destruct (Z.eq_dec x i) as [->|N].
  - rewrite Z.sub_diag. cbn [Z.to_nat nth]. destruct (v =? 0) eqn:V; [rewrite at_later by lia; lia|]. cbn [at_bin]. now rewrite Z.eqb_refl.
  - replace (Z.to_nat (x - i)) with (S (Z.to_nat (x - (i + 1)))) by lia. cbn [nth]. rewrite <- IH by lia. destruct (v =? 0); [reflexivity|]. cbn [at_bin]. now replace (i =? x) with false by lia.
Qed.
Lemma sum_occupied (g : Z -> Z) l : forall i, sumZ (map (fun c => snd c * g (fst c)) (occupied i l)) = sumZ (map (fun j => nth j l 0 * g (i + Z.of_nat j)) (seq 0 (length l))).
Proof.
  induction l as [|v l IH]; intros i; [reflexivity|]. cbn [occupied length seq map]. rewrite <- seq_shift, map_map.
  assert (E : sumZ (map (fun c => snd c * g (fst c)) (occupied (i + 1) l)) = sumZ (map (fun j => nth (S j) (v :: l) 0 * g (i + Z.of_nat (S j))) (seq 0 (length l)))).
  { rewrite IH. f_equal. apply map_ext. intros j. cbn [nth]. do 2 f_equal. lia. }
  unfold sumZ in *. cbn [fold_right]. destruct (v =? 0) eqn:V; [rewrite E; cbn [nth]; assert (v = 0) as -> by lia; rewrite Z.mul_0_l; reflexivity|].
  cbn [map fold_right fst snd nth Z.of_nat]. rewrite Z.add_0_r, E. reflexivity.
Qed.
Lemma sparse_exact h k : sparse_xc h k = exact_xc h k.
Proof.
  unfold sparse_xc, exact_xc, circular. rewrite map_map. apply map_ext_in. intros d ID. apply in_seq in ID. do 2 f_equal.
  rewrite (sum_occupied (fun x => at_bin ((x + Z.of_nat d) mod len h) (occupied 0 k)) h 0). f_equal. apply map_ext. intros j. f_equal.
  assert (L : len h = Z.of_nat (length h)) by reflexivity. rewrite L. pose proof (Z.mod_pos_bound (0 + Z.of_nat j + Z.of_nat d) (Z.of_nat (length h)) ltac:(lia)) as M.
  rewrite at_ok by lia. f_equal. rewrite Z.sub_0_r. rewrite Z.add_0_l, <- Nat2Z.inj_add, <- Nat2Z.inj_mod. apply Nat2Z.id.
Qed.
