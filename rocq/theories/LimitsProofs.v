(** Proof of C185. *)
From Coq Require Import QArith Qabs Lqa.
From Verif Require Import Base Float TimestampsModel EpochsModel TimestampsSpec EpochsSpec EpochsProps LimitsSpec.
Import ListNotations.
Local Open Scope Z_scope.

Lemma same_nth a b : same_values a b -> forall i, (nth i a 0 == nth i b 0)%Q.
Proof. induction 1; intros [|i]; cbn [nth]; try reflexivity; auto. Qed.
Lemma nth_map_ev {A} (g : event -> A) evs i d : (i < length evs)%nat -> nth i (map g evs) d = g (nth i evs (0, 0)).
Proof. intros I. rewrite (nth_indep _ d (g (0, 0))) by (rewrite map_length; lia). apply map_nth. Qed.
Lemma ints_apart (g : Z -> Z) evs lim : (forall a b, a + lim <= b -> g a < g b) -> told_apart evs (map inject_Z (map (fun ev => g (fst ev)) evs)) lim.
Proof.
  intros G i j I J H. rewrite map_map, !nth_map_ev by assumption. rewrite <- Zlt_Qlt. now apply G.
Qed.
Lemma floor_apart r k a b : a + 256 / rvalue r <= b -> floor_units r (k + a) < floor_units r (k + b).
Proof. unfold floor_units. destruct r; cbn [rvalue]; [change (256 / 1) with 256|change (256 / 8) with 32|change (256 / 256) with 1]; intros; Z.to_euclidean_division_equations; lia. Qed.
Lemma units_apart r a b : a < b -> (in_units r a < in_units r b)%Q.
Proof.
  intros H. unfold in_units. apply Qlt_shift_div_l; [reflexivity|].
  assert (E : (inject_Z (a * rvalue r) / inject_Z 256 * inject_Z 256 == inject_Z (a * rvalue r))%Q) by (field; discriminate). rewrite E.
  rewrite <- Zlt_Qlt. destruct r; cbn [rvalue]; lia.
Qed.
Lemma F2_nth {A B} (R : A -> B -> Prop) l m a b : Forall2 R l m -> forall i, (i < length l)%nat -> R (nth i l a) (nth i m b).
Proof. induction 1; intros [|i] I; cbn [nth length] in *; try lia; auto. apply IHForall2. lia. Qed.
Lemma c185 e evs full r fr : Forall (t1_ok e) evs -> Forall (fun ev => t1_word e ev <> 0) evs -> len evs < 2 ^ 32 ->
  exists T, read_T1 (t1_file e evs) full r fr = Ok (T, map snd evs) /\ told_apart evs (evalues T) (if full && fr then 33 else limit full r fr).
Proof.
  intros O N L. destruct full, fr; cbn [andb limit].
  - destruct (C33 e evs r O N L) as (xs & E & LX & F & _). eexists. split; [exact E|]. cbn [evalues]. intros i j I J H.
    destruct (F2_nth _ _ _ (0, 0) 0%Q F i I) as [Hi _]. destruct (F2_nth _ _ _ (0, 0) 0%Q F j J) as [Hj _].
    apply Qabs_Qle_condition in Hi. apply Qabs_Qle_condition in Hj. unfold full_time in Hi, Hj.
    set (x := nth i xs 0%Q) in *. set (y := nth j xs 0%Q) in *. set (u := (256 / rvalue r)) in *.
    assert (U : 0 < u) by (unfold u; destruct r; cbn [rvalue]; reflexivity).
    rewrite inject_Z_plus in Hi, Hj. set (ti := fst (nth i evs (0, 0))) in *. set (tj := fst (nth j evs (0, 0))) in *.
    assert (D : (inject_Z ti + 33 <= inject_Z tj)%Q) by (change 33%Q with (inject_Z 33); rewrite <- inject_Z_plus, <- Zle_Qle; exact H).
    assert (M : (x * inject_Z u < y * inject_Z u)%Q) by lra.
    apply Qmult_lt_r in M; [exact M|]. change 0%Q with (inject_Z 0). rewrite <- Zlt_Qlt. exact U.
  - destruct (C32 e evs r O N L) as (E & _). eexists. split; [exact E|].
    assert (V : evalues ((match r with PS4 => EObj | _ => EU64 end) (map (fun ev => floor_units r (full_time e (fst ev))) evs)) = map inject_Z (map (fun ev => floor_units r (full_time e (fst ev))) evs)) by (destruct r; reflexivity).
    rewrite V. apply (ints_apart (fun t => floor_units r (full_time e t))). intros. now apply floor_apart.
  - destruct (C31 e evs r O N L) as (_ & _ & (T & E & S) & _). exists T. split; [exact E|]. intros i j I J H.
    rewrite (same_nth _ _ S i), (same_nth _ _ S j), !nth_map_ev by assumption. apply units_apart. unfold lsb_time. lia.
  - destruct (C31 e evs r O N L) as (_ & _ & _ & E). eexists. split; [exact E|]. cbn [evalues].
    apply (ints_apart (fun t => floor_units r (lsb_time e t))). intros. now apply floor_apart.
Qed.
(** 192 and 320 ps after the start of the last epoch *)
Definition close : list event := [(48, 1); (80, 1)].
Lemma close_ok : Forall (t1_ok (2 ^ 32 - 1)) close /\ Forall (fun ev => t1_word (2 ^ 32 - 1) ev <> 0) close /\ len close < 2 ^ 32.
Proof. split; [|split]; [repeat constructor; cbn [fst snd]; lia|repeat constructor; vm_compute; discriminate|reflexivity]. Qed.
Lemma c185_refuted : ~ C185_statement.
Proof.
  intros F. destruct close_ok as (O & N & L). destruct (F (2 ^ 32 - 1) close true PS4 true O N L) as (T & E & A).
  specialize (A 0%nat 1%nat ltac:(cbn; lia) ltac:(cbn; lia) ltac:(vm_compute; discriminate)).
  assert (C : match read_T1 (t1_file (2 ^ 32 - 1) close) true PS4 true with Ok (T, _) => Qle_bool (nth 1 (evalues T) 0%Q) (nth 0 (evalues T) 0%Q) | Err _ => false end = true) by (vm_compute; reflexivity).
  rewrite E in C. apply Qle_bool_iff in C. lra.
Qed.
