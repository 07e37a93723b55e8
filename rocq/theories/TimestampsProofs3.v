(** Pattern and time filters. *)
From Coq Require Import QArith Lqa ZifyBool Sorted.
From Verif Require Import Float Base TimestampsModel TimestampsSpec TimestampsProofs TimestampsProofs2.
Local Open Scope Z_scope.
Ltac Zify.zify_post_hook ::= Z.div_mod_to_equations.

(** ** Pattern filter *)
Lemma select_map {A} (f : A -> bool) l : select (map f l) l = filter f l.
Proof. induction l as [|x l IH]; [reflexivity|]. cbn. rewrite IH. reflexivity. Qed.
Lemma select_map2 {A B} (f : A -> bool) (g : A -> B) l : select (map f l) (map g l) = map g (filter f l).
Proof. induction l as [|x l IH]; [reflexivity|]. cbn. rewrite IH. destruct (f x); reflexivity. Qed.
Definition four : list Z := map Z.of_nat (seq 0 16).
Lemma in_four v : 0 <= v < 16 -> In v four.
Proof. intros H. unfold four. apply in_map_iff. exists (Z.to_nat v). split; [lia|]. apply in_seq. lia. Qed.
Definition land_check (a b : Z) : bool :=
  (Z.land a b =? bits_where (fun i => Z.testbit a i && Z.testbit b i)) && eqb (negb (Z.land a b =? 0)) (shares_bit a b).
Definition lxor_check (a b : Z) : bool :=
  let w := if a =? 0 then 16 else a in
  let q := Z.lxor w (Z.land w b) in
  eqb (negb (q =? 0)) (bit_outside a b || (a =? 0)) &&
  (negb (negb (q =? 0)) || ((if q =? 16 then 0 else q) =? bits_where (fun i => Z.testbit a i && negb (Z.testbit b i)))).
Lemma checks : forallb (fun a => forallb (fun b => land_check a b && lxor_check a b) four) four = true.
Proof. reflexivity. Qed.
Lemma check a b : 0 <= a < 16 -> 0 <= b < 16 -> land_check a b = true /\ lxor_check a b = true.
Proof.
  intros A B. pose proof checks as C. rewrite forallb_forall in C. specialize (C a (in_four a A)).
  rewrite forallb_forall in C. specialize (C b (in_four b B)). now apply andb_true_iff in C.
Qed.
Definition patterns_ok (mask : bool) (pt : Z) (pats : list Z) : Prop :=
  mask = true -> 0 <= pt < 16 /\ Forall (fun v => 0 <= v < 16) pats.
Lemma pattern_mask_spec pats pt mask invert : patterns_ok mask pt pats ->
  get_pattern_mask pats pt mask invert =
  (map (keeps pt mask invert) pats, map (becomes pt mask invert) (filter (keeps pt mask invert) pats)).
Proof.
  intros OK. unfold get_pattern_mask. destruct mask; cbn [negb].
  - destruct (OK eq_refl) as [R F]. clear OK. destruct invert; cbn [negb].
    + rewrite !map_map. rewrite select_map2, map_map.
      assert (M : forall v, In v pats ->
        negb (Z.lxor (if v =? 0 then 16 else v) (Z.land (if v =? 0 then 16 else v) pt) =? 0) = keeps pt true true v /\
        (keeps pt true true v = true ->
         (if Z.lxor (if v =? 0 then 16 else v) (Z.land (if v =? 0 then 16 else v) pt) =? 16 then 0
          else Z.lxor (if v =? 0 then 16 else v) (Z.land (if v =? 0 then 16 else v) pt)) = becomes pt true true v)).
      { intros v I. rewrite Forall_forall in F. destruct (check v pt (F v I) R) as [_ C]. unfold lxor_check in C.
        cbv zeta in C. apply andb_true_iff in C as [C1 C2]. apply eqb_prop in C1. cbn [keeps becomes]. rewrite <- C1. split; [reflexivity|].
        intros K. rewrite K in C2. cbn [negb orb] in C2. now apply Z.eqb_eq in C2. }
      f_equal.
      * apply map_ext_in. intros v I. now apply M.
      * rewrite (filter_ext_in _ (keeps pt true true)) by (intros v I; now apply M).
        apply map_ext_in. intros v I. apply filter_In in I as [I K]. now apply M.
    + rewrite !map_map, select_map2.
      assert (M : forall v, In v pats -> negb (Z.land v pt =? 0) = keeps pt true false v /\ Z.land v pt = becomes pt true false v).
      { intros v I. rewrite Forall_forall in F. destruct (check v pt (F v I) R) as [C _]. unfold land_check in C.
        apply andb_true_iff in C as [C1 C2]. apply eqb_prop in C2. apply Z.eqb_eq in C1. now split. }
      f_equal.
      * apply map_ext_in. intros v I. now apply M.
      * rewrite (filter_ext_in _ (keeps pt true false)) by (intros v I; now apply M).
        apply map_ext_in. intros v I. apply filter_In in I as [I K]. now apply M.
  - destruct invert; cbn [keeps becomes].
    + rewrite map_map, select_map. now rewrite map_id.
    + rewrite select_map. now rewrite map_id.
Qed.

(** ** Bisection *)
Lemma ss_nth l i j : StronglySorted Qle l -> (i <= j < length l)%nat -> (nth i l 0 <= nth j l 0)%Q.
Proof.
  intros S. revert i j. induction S as [|x l S IH F]; intros i j [A B]; [cbn in B; lia|].
  destruct i as [|i], j as [|j]; cbn [nth].
  - lra.
  - rewrite Forall_forall in F. apply F. apply nth_In. cbn in B. lia.
  - lia.
  - apply IH. cbn in B. lia.
Qed.
Lemma bisect_spec (gr : Q -> bool) l : StronglySorted Qle l ->
  (forall x y, (x <= y)%Q -> gr y = true -> gr x = true) ->
  forall fuel lo hi, 0 <= lo <= hi -> hi <= len l -> hi - lo < Z.of_nat fuel ->
  (forall i, 0 <= i < lo -> gr (nth (Z.to_nat i) l 0%Q) = true) ->
  (forall i, hi <= i < len l -> gr (nth (Z.to_nat i) l 0%Q) = false) ->
  exists k, bisect fuel gr l lo hi = Some k /\ 0 <= k <= len l /\
    forall i, 0 <= i < len l -> gr (nth (Z.to_nat i) l 0%Q) = (i <? k).
Proof.
  intros S M. induction fuel as [|fuel IH]; intros lo hi L H F A B; [lia|]. cbn [bisect].
  destruct (lo <? hi) eqn:E.
  - set (mid := (lo + hi) / 2). assert (MB : lo <= mid < hi) by (unfold mid; lia).
    destruct (gr (nth (Z.to_nat mid) l 0%Q)) eqn:G.
    + apply IH; try lia.
      * intros i I. apply (M _ (nth (Z.to_nat mid) l 0%Q)); [|exact G]. apply ss_nth; [assumption|]. unfold len in H. lia.
      * exact B.
    + apply IH; try lia.
      * exact A.
      * intros i I. destruct (gr (nth (Z.to_nat i) l 0%Q)) eqn:G2; [|reflexivity].
        rewrite (M (nth (Z.to_nat mid) l 0%Q) (nth (Z.to_nat i) l 0%Q)) in G; [discriminate| |exact G2].
        apply ss_nth; [assumption|]. unfold len in I. lia.
  - exists lo. split; [reflexivity|]. split; [lia|]. intros i I. destruct (i <? lo) eqn:C.
    + apply A. lia.
    + apply B. lia.
Qed.
Lemma Qltb_iff x y : Qltb x y = true <-> (x < y)%Q.
Proof. unfold Qltb. rewrite negb_true_iff. destruct (Qle_bool y x) eqn:E; [apply Qle_bool_iff in E|]; split; intros H; try congruence; try lra.
  apply Qnot_le_lt. intros C. apply Qle_bool_iff in C. congruence. Qed.
Lemma Qltb_false x y : Qltb x y = false <-> (y <= x)%Q.
Proof. unfold Qltb. rewrite negb_false_iff. apply Qle_bool_iff. Qed.
Lemma Qle_bool_neg x y : Qle_bool x y = negb (Qltb y x).
Proof. unfold Qltb. now rewrite negb_involutive. Qed.
Lemma bisect_left_spec l x : StronglySorted Qle l -> exists k, bisect_left l x = Ok k /\ 0 <= k <= len l /\
  forall i, 0 <= i < len l -> Qle_bool x (nth (Z.to_nat i) l 0%Q) = (k <=? i).
Proof.
  intros S. destruct (bisect_spec (fun v => Qltb v x) l S) with (fuel := Datatypes.S (length l)) (lo := 0) (hi := len l) as (k & E & R & H);
    try (unfold len; lia).
  - intros a b L G. apply Qltb_iff in G. apply Qltb_iff. lra.
  - exists k. unfold bisect_left. rewrite E. split; [reflexivity|]. split; [assumption|].
    intros i I. specialize (H i I). rewrite Qle_bool_neg, H. lia.
Qed.
Lemma bisect_right_spec l x : StronglySorted Qle l -> exists k, bisect_right l x = Ok k /\ 0 <= k <= len l /\
  forall i, 0 <= i < len l -> Qle_bool (nth (Z.to_nat i) l 0%Q) x = (i <? k).
Proof.
  intros S. destruct (bisect_spec (fun v => negb (Qltb x v)) l S) with (fuel := Datatypes.S (length l)) (lo := 0) (hi := len l) as (k & E & R & H);
    try (unfold len; lia).
  - intros a b L G. apply negb_true_iff, Qltb_false in G. apply negb_true_iff, Qltb_false. lra.
  - exists k. unfold bisect_right. rewrite E. split; [reflexivity|]. split; [assumption|].
    intros i I. specialize (H i I). now rewrite Qle_bool_neg, H.
Qed.

(** ** Time filter *)
Lemma map_nth_seq {A} (f : Q -> A) l : map f l = map (fun k => f (nth k l 0%Q)) (seq 0 (length l)).
Proof.
  induction l as [|x l IH]; [reflexivity|]. cbn [length seq map nth]. f_equal. rewrite <- seq_shift, map_map. exact IH.
Qed.
Lemma first_nth (l : list Q) x : first l = Some x -> l <> [] /\ x = nth 0 l 0%Q.
Proof. destruct l; cbn; [discriminate|]. intros E. inv E. split; [discriminate|reflexivity]. Qed.
Lemma final_nth (l : list Q) x : final l = Some x -> l <> [] /\ x = nth (length l - 1) l 0%Q.
Proof.
  unfold final. intros E. destruct l as [|y l]; [discriminate|]. split; [discriminate|].
  destruct (exists_last (l := y :: l)) as (m & z & EQ); [discriminate|]. rewrite EQ in *. rewrite rev_app_distr in E. cbn in E. inv E.
  rewrite app_length. cbn [length]. replace (length m + 1 - 1)%nat with (length m) by lia. now rewrite app_nth2, Nat.sub_diag by lia.
Qed.
Lemma first_none {A} (l : list A) : first l = None -> l = [].
Proof. destruct l; [reflexivity|discriminate]. Qed.
Lemma final_none {A} (l : list A) : final l = None -> l = [].
Proof. unfold final. intros E. apply first_none in E. rewrite <- (rev_involutive l), E. reflexivity. Qed.
Lemma map_const_false {A} (f : A -> bool) l : (forall x, In x l -> f x = false) -> map f l = repeat false (length l).
Proof. induction l as [|x l IH]; intros H; [reflexivity|]. cbn. rewrite (H x) by now left. f_equal. apply IH. intros y I. apply H. now right. Qed.
Lemma keys_sorted t : sortedQ (tvalues t) -> sortedQ (keys t).
Proof.
  unfold sortedQ. destruct t as [l|l|l]; cbn [tvalues keys]; auto.
  rewrite <- (map_map inject_Z (fl 53)). intros S. induction S as [|x m S IH F]; [constructor|].
  cbn [map]. constructor; [exact IH|]. apply Forall_map. eapply Forall_impl; [|exact F]. intros y L. apply fl_mono; [lia|exact L].
Qed.
Lemma keys_length t : length (keys t) = length (tvalues t).
Proof. destruct t; cbn [keys tvalues]; rewrite ?map_length; reflexivity. Qed.
Lemma timing_mask_spec t s e r : sortedQ (tvalues t) ->
  get_timing_mask t s e r = Ok (map (within (bounds r s) (bounds r e)) (keys t)).
Proof.
  intros ST. pose proof (keys_sorted t ST) as S. pose proof (keys_length t) as KL. unfold get_timing_mask, tlen.
  unfold len at 1. rewrite <- KL. set (l := keys t) in *. assert (LN : len (tvalues t) = len l) by (unfold len; now rewrite KL).
  rewrite LN. fold (len l).
  destruct (first l) as [a|] eqn:EA; [|apply first_none in EA; rewrite EA; reflexivity].
  destruct (final l) as [z|] eqn:EZ; [|apply final_none in EZ; rewrite EZ; reflexivity].
  destruct (first_nth _ _ EA) as [NE A]. destruct (final_nth _ _ EZ) as [_ Z]. clear EA EZ.
  assert (L0 : (0 < length l)%nat) by (destruct l; [congruence|cbn; lia]).
  assert (TM : (match first (tvalues t), final (tvalues t) with Some x, Some y => Qltb y x | _, _ => false end) = false).
  { destruct (first (tvalues t)) as [x|] eqn:E1; [|reflexivity]. destruct (final (tvalues t)) as [y|] eqn:E2; [|reflexivity].
    destruct (first_nth _ _ E1) as [_ ->]. destruct (final_nth _ _ E2) as [_ ->]. apply Qltb_false. apply ss_nth; [exact ST|]. rewrite <- KL. lia. }
  rewrite TM. unfold bounds. change (fun x => fl 53 (x * inject_Z (10 ^ 9 * rvalue r)))%Q with (bound r).
  assert (HI : forall x, In x l -> (a <= x <= z)%Q).
  { intros x I. destruct (In_nth _ _ 0%Q I) as (i & Hi & <-). subst a z. split; apply ss_nth; try assumption; lia. }
  assert (I1 : exists i b, (match s with
     | None => Ok (0, false)
     | Some x => let* i := bisect_left l (bound r x) in Ok (i, Qltb z (bound r x)) end) = Ok (E := exn) (i, b) /\
     (b = true -> forall x, In x l -> match option_map (bound r) s with None => true | Some y => Qle_bool y x end = false) /\
     forall k, (k < length l)%nat -> match option_map (bound r) s with None => true | Some y => Qle_bool y (nth k l 0%Q) end = (i <=? Z.of_nat k)).
  { destruct s as [x|]; cbn [option_map].
    - destruct (bisect_left_spec l (bound r x) S) as (k & -> & R & H). cbn [bind]. exists k, (Qltb z (bound r x)). split; [reflexivity|]. split.
      + intros B y I. apply Qltb_iff in B. specialize (HI y I). rewrite Qle_bool_neg. apply negb_false_iff, Qltb_iff. lra.
      + intros i Hi. specialize (H (Z.of_nat i)). rewrite Nat2Z.id in H. apply H. unfold len. lia.
    - exists 0, false. split; [reflexivity|]. split; [discriminate|]. intros k _. symmetry. apply Z.leb_le. lia. }
  destruct I1 as (i & b1 & E1 & B1 & M1).
  change (fun x : Q => fl 53 (x * inject_Z (1000000000 * rvalue r))) with (bound r) in *.
  rewrite E1. cbn [bind].
  assert (LL : Z.to_nat (len l) = length l) by (unfold len; lia).
  destruct b1.
  { f_equal. rewrite LL. symmetry. apply map_const_false. intros x I. unfold within. now rewrite (B1 eq_refl x I). }
  assert (I2 : exists j b, (match e with
     | None => Ok (len l, false)
     | Some x => let* j := bisect_right l (bound r x) in Ok (j, Qltb (bound r x) a) end) = Ok (E := exn) (j, b) /\
     (b = true -> forall x, In x l -> match option_map (bound r) e with None => true | Some y => Qle_bool x y end = false) /\
     forall k, (k < length l)%nat -> match option_map (bound r) e with None => true | Some y => Qle_bool (nth k l 0%Q) y end = (Z.of_nat k <? j)).
  { destruct e as [x|]; cbn [option_map].
    - destruct (bisect_right_spec l (bound r x) S) as (k & -> & R & H). cbn [bind]. exists k, (Qltb (bound r x) a). split; [reflexivity|]. split.
      + intros B y I. apply Qltb_iff in B. specialize (HI y I). rewrite Qle_bool_neg. apply negb_false_iff, Qltb_iff. lra.
      + intros n Hn. specialize (H (Z.of_nat n)). rewrite Nat2Z.id in H. apply H. unfold len. lia.
    - exists (len l), false. split; [reflexivity|]. split; [discriminate|]. intros k Hk. symmetry. apply Z.ltb_lt. unfold len. lia. }
  destruct I2 as (j & b2 & E2 & B2 & M2). rewrite E2. cbn [bind]. destruct b2.
  { f_equal. rewrite LL. symmetry. apply map_const_false. intros x I. unfold within. rewrite (B2 eq_refl x I). apply andb_false_r. }
  f_equal. unfold range_mask. rewrite LL, (map_nth_seq _ l). apply map_ext_in. intros k I. apply in_seq in I.
  unfold within. rewrite M1, M2 by lia. reflexivity.
Qed.
