(** Batches: filters, writers, statistics. *)
From Coq Require Import QArith Lqa ZifyBool Sorted.
From Verif Require Import Float Base TimestampsModel TimestampsSpec TimestampsProofs TimestampsProofs2 TimestampsProofs3.
Local Open Scope Z_scope.
Ltac Zify.zify_post_hook ::= Z.div_mod_to_equations.

(** ** Masks *)
Lemma select_select {A B} (g : B -> bool) m (l : list B) (x : list A) :
  length l = length x -> length m = length x ->
  select (map g (select m l)) (select m x) = select (map (fun '(b, y) => b && g y) (combine m l)) x.
Proof.
  revert l x. induction m as [|b m IH]; intros l x H H3; [reflexivity|].
  destruct x as [|a x]; [destruct l; [reflexivity|discriminate]|]. destruct l as [|y l]; [discriminate|].
  cbn [select combine map]. destruct b; cbn [andb].
  - cbn [map select]. destruct (g y); rewrite IH by (cbn in *; lia); reflexivity.
  - apply IH; cbn in *; lia.
Qed.
Lemma select_length {A B} m (l : list A) (x : list B) : length l = length x -> length (select m l) = length (select m x).
Proof.
  revert l x. induction m as [|b m IH]; intros l x H; [reflexivity|]. destruct l, x; try discriminate H; [reflexivity|].
  cbn [select]. cbn in H. destruct b; cbn [length]; rewrite (IH l x) by lia; reflexivity.
Qed.
Lemma select_map_r {A B} (g : A -> B) m l : select m (map g l) = map g (select m l).
Proof. revert l; induction m as [|b m IH]; intros [|x l]; try reflexivity. cbn. destruct b; cbn; now rewrite IH. Qed.
Lemma tselect_values m t : tvalues (tselect m t) = select m (tvalues t).
Proof. destruct t; cbn; try reflexivity. symmetry. apply select_map_r. Qed.
Lemma tselect_keys m t : keys (tselect m t) = select m (keys t).
Proof. destruct t; cbn; try reflexivity. symmetry. apply select_map_r. Qed.
Lemma Forall_select {A} (P : A -> Prop) m l : Forall P l -> Forall P (select m l).
Proof.
  intros F. revert m. induction F as [|x l H F IH]; intros [|b m]; cbn; try constructor. destruct b; [constructor|]; auto.
Qed.
Lemma select_sorted {A} (R : A -> A -> Prop) m l : StronglySorted R l -> StronglySorted R (select m l).
Proof.
  intros S. revert m. induction S as [|x l S IH F]; intros [|b m]; cbn; try constructor. destruct b; [constructor|]; auto using Forall_select.
Qed.
Lemma tselect_select (g : Q -> bool) m t : length m = length (tvalues t) ->
  tselect (map g (keys (tselect m t))) (tselect m t) = tselect (map (fun '(b, y) => b && g y) (combine m (keys t))) t.
Proof.
  intros H. rewrite tselect_keys. pose proof (keys_length t) as KL.
  destruct t as [l|l|l]; cbn [tselect]; f_equal; cbn [tvalues] in *; try rewrite map_length in *;
    apply select_select; auto.
Qed.
Lemma tselect_all t b : length b = length (tvalues t) -> (forall x, In x b -> x = true) -> tselect b t = t.
Proof.
  assert (G : forall {A} (l : list A) b, length b = length l -> (forall x, In x b -> x = true) -> select b l = l).
  { induction l as [|x l IH]; intros [|c b'] H T; try discriminate; [reflexivity|]. cbn. rewrite (T c) by now left.
    rewrite IH; [reflexivity|cbn in H; lia|intros y I; apply T; now right]. }
  intros H T. destruct t as [l|l|l]; cbn in *; try rewrite map_length in H; now rewrite G.
Qed.

(** ** Filters on one batch *)
(** the mask when patterns are kept by [K] *)
Definition chosen_by (K : Z -> bool) (f : filters) (r : TSRES) (t : tarr) (pats : list Z) : list bool :=
  map (fun '(x, v) => K v && within (bounds r (f_start f)) (bounds r (f_end f)) x) (combine (keys t) pats).
Definition chosen (f : filters) (r : TSRES) (t : tarr) (pats : list Z) : list bool :=
  map (fun '(x, v) => passes f r x v) (combine (keys t) pats).
Lemma combine_map_l {A B C} (g : A -> C) (l : list A) (m : list B) : combine (map g l) m = map (fun '(a, b) => (g a, b)) (combine l m).
Proof. revert m; induction l as [|x l IH]; intros [|y m]; try reflexivity. cbn. now rewrite IH. Qed.
Lemma combine_map_r {A B C} (g : B -> C) (l : list A) (m : list B) : combine l (map g m) = map (fun '(a, b) => (a, g b)) (combine l m).
Proof. revert m; induction l as [|x l IH]; intros [|y m]; try reflexivity. cbn. now rewrite IH. Qed.
Lemma map_combine_swap {A B C} (g : A -> B -> C) (l : list A) (m : list B) :
  map (fun '(x, y) => g x y) (combine l m) = map (fun '(y, x) => g x y) (combine m l).
Proof. revert m; induction l as [|x l IH]; intros [|y m]; try reflexivity. cbn. now rewrite IH. Qed.
Definition pattern_stage (f : filters) (t : tarr) (pats : list Z) : tarr * list Z :=
  match f_pattern f with
  | None => (t, pats)
  | Some v => let '(m, q) := get_pattern_mask pats v (f_mask f) (f_invert f) in (tselect m t, q)
  end.
Lemma event_filter_gen f r K N t pats : batch_ok (t, pats) -> (timed f = true -> sortedQ (tvalues t)) ->
  pattern_stage f t pats = (tselect (map K pats) t, map N (select (map K pats) pats)) ->
  event_filter f r (t, pats) = Ok (tselect (chosen_by K f r t pats) t, map N (select (chosen_by K f r t pats) pats)).
Proof.
  unfold batch_ok. cbn [fst snd]. intros B S P1.
  assert (LK : length (keys t) = length pats) by (rewrite keys_length; unfold tlen, len in B; lia).
  assert (LT : length (tvalues t) = length pats) by (unfold tlen, len in B; lia).
  unfold event_filter. fold (pattern_stage f t pats). rewrite P1. clear P1.
  set (win := within (bounds r (f_start f)) (bounds r (f_end f))).
  assert (CH : chosen_by K f r t pats = map (fun '(b, y) => b && win y) (combine (map K pats) (keys t))).
  { unfold chosen_by. fold win. rewrite combine_map_l, map_map. rewrite (map_combine_swap (fun x v => K v && win x)).
    apply map_ext. intros [v x]. reflexivity. }
  rewrite CH. unfold timed in S.
  assert (ST : timed f = true -> get_timing_mask (tselect (map K pats) t) (f_start f) (f_end f) r
      = Ok (map win (keys (tselect (map K pats) t)))).
  { intros T. apply timing_mask_spec. rewrite tselect_values. apply select_sorted. unfold timed in T. now apply S. }
  assert (T2 : timed f = false -> map (fun '(b, y) => b && win y) (combine (map K pats) (keys t)) = map K pats).
  { unfold timed. intros T. assert (W : forall y, win y = true).
    { subst win. unfold within. destruct (f_start f); [discriminate|]. destruct (f_end f); [discriminate|]. reflexivity. }
    clear -W LK. revert LK. generalize (keys t) as ks. induction pats as [|v l IH]; intros [|k ks] H; try discriminate; [reflexivity|].
    cbn. rewrite W, andb_true_r. f_equal. apply IH. cbn in H. lia. }
  assert (SP : map N (select (map (fun '(b, y) => b && win y) (combine (map K pats) (keys t))) pats)
     = select (map win (keys (tselect (map K pats) t))) (map N (select (map K pats) pats))).
  { rewrite select_map_r, tselect_keys. f_equal. symmetry. apply select_select; rewrite ?map_length; auto. }
  assert (TS := tselect_select win (map K pats) t). rewrite map_length in TS. specialize (TS (eq_sym LT)).
  unfold timed in *. destruct (f_start f), (f_end f);
    try (rewrite ST by reflexivity; cbn [bind]; rewrite SP, TS; reflexivity).
  rewrite T2 by reflexivity. reflexivity.
Qed.
Lemma stage_none t (pats : list Z) : length (tvalues t) = length pats ->
  (t, pats) = (tselect (map (fun _ => true) pats) t, map (fun v => v) (select (map (fun _ => true) pats) pats)).
Proof.
  intros LT. rewrite tselect_all; [|now rewrite map_length|].
  - rewrite map_id. f_equal. rewrite select_map. clear. induction pats as [|x l IH]; [reflexivity|]. cbn. now rewrite <- IH.
  - intros x I. apply in_map_iff in I. destruct I as (y & <- & _). reflexivity.
Qed.
Lemma event_filter_spec f r t pats : batch_ok (t, pats) -> filter_ok f -> Forall pattern_ok pats ->
  (timed f = true -> sortedQ (tvalues t)) ->
  event_filter f r (t, pats) = Ok (tselect (chosen f r t pats) t, map (new_pattern f) (select (chosen f r t pats) pats)).
Proof.
  intros B FO PO S.
  apply (event_filter_gen f r (fun v => match f_pattern f with None => true | Some pt => keeps pt (f_mask f) (f_invert f) v end) (new_pattern f) t pats B S).
  unfold pattern_stage, new_pattern. destruct (f_pattern f) as [pt|] eqn:EP.
  - rewrite pattern_mask_spec.
    + cbn beta. now rewrite select_map.
    + intros M. unfold filter_ok in FO. rewrite EP in FO. split; [now apply FO|exact PO].
  - apply stage_none. unfold batch_ok, tlen, len in B. cbn [fst snd] in B. lia.
Qed.
(** the pattern filter looks at each pattern by itself, whatever its argument *)
Lemma pattern_mask_elementwise pt mask invert : exists K N, forall pats,
  get_pattern_mask pats pt mask invert = (map K pats, map N (filter K pats)).
Proof.
  unfold get_pattern_mask. destruct mask, invert; cbn [negb].
  - set (q := fun v => Z.lxor (if v =? 0 then 16 else v) (Z.land (if v =? 0 then 16 else v) pt)).
    exists (fun v => negb (q v =? 0)), (fun v => if q v =? 16 then 0 else q v). intros pats. rewrite !map_map, select_map2, map_map. reflexivity.
  - exists (fun v => negb (Z.land v pt =? 0)), (fun v => Z.land v pt). intros pats. now rewrite !map_map, select_map2.
  - exists (fun v => negb (v =? pt)), (fun v => v). intros pats. now rewrite map_map, select_map, map_id.
  - exists (fun v => v =? pt), (fun v => v). intros pats. now rewrite select_map, map_id.
Qed.
Lemma stage_elementwise f : exists K N, forall t pats, length (tvalues t) = length pats ->
  pattern_stage f t pats = (tselect (map K pats) t, map N (select (map K pats) pats)).
Proof.
  unfold pattern_stage. destruct (f_pattern f) as [pt|].
  - destruct (pattern_mask_elementwise pt (f_mask f) (f_invert f)) as (K & N & H). exists K, N. intros t pats _. now rewrite H, select_map.
  - exists (fun _ => true), (fun v => v). intros t pats L. now apply stage_none.
Qed.

(** ** Filters on batches *)
Lemma joined_values ts t : joined ts t -> tvalues t = concat (map tvalues ts).
Proof. destruct 1; cbn [tvalues]; rewrite ?concat_map, !map_map; try rewrite map_id; reflexivity. Qed.
Lemma joined_keys ts t : joined ts t -> keys t = concat (map keys ts).
Proof. destruct 1; cbn [keys]; rewrite ?concat_map, !map_map; try rewrite map_id; reflexivity. Qed.
Lemma select_app {A} m m' (l l' : list A) : length m = length l -> select (m ++ m') (l ++ l') = select m l ++ select m' l'.
Proof.
  revert l; induction m as [|b m IH]; intros [|x l] H; try discriminate; [reflexivity|]. cbn in *. rewrite IH by lia. destruct b; reflexivity.
Qed.
Lemma combine_app {A B} (a a' : list A) (b b' : list B) : length a = length b -> combine (a ++ a') (b ++ b') = combine a b ++ combine a' b'.
Proof. revert b; induction a as [|x a IH]; intros [|y b] H; try discriminate; [reflexivity|]. cbn. now rewrite IH by (cbn in H; lia). Qed.
Lemma ss_concat {A} (R : A -> A -> Prop) ls : StronglySorted R (concat ls) -> Forall (StronglySorted R) ls.
Proof.
  induction ls as [|l ls IH]; intros S; [constructor|]. cbn in S.
  assert (H : StronglySorted R l /\ StronglySorted R (concat ls)).
  { clear IH. induction l as [|x l IH]; cbn in S; [split; [constructor|exact S]|]. inversion S as [|? ? S1 F]; subst.
    destruct (IH S1). apply Forall_app in F as [F _]. split; [now constructor|assumption]. }
  destruct H. constructor; auto.
Qed.
Lemma select_concat {A} (ms : list (list bool)) (ls : list (list A)) : Forall2 (fun m l => length m = length l) ms ls ->
  select (concat ms) (concat ls) = concat (map (fun '(m, l) => select m l) (combine ms ls)).
Proof. induction 1 as [|m l ms ls H F IH]; [reflexivity|]. cbn. now rewrite select_app, IH. Qed.
Lemma joined_select ms ts t : joined ts t -> Forall2 (fun m t => length m = length (tvalues t)) ms ts ->
  joined (map (fun '(m, t) => tselect m t) (combine ms ts)) (tselect (concat ms) t).
Proof.
  intros J F. destruct J as [ls|ls|ls]; cbn [tselect].
  - (assert (F' : Forall2 (fun m l => length m = length l) ms ls)
    by (revert ms F; induction ls as [|l ls IH]; intros ms F; inversion F as [|? ? ? ? F1 F2]; subst; constructor;
        [cbn [tvalues] in F1; rewrite ?map_length in F1; exact F1|now apply IH]);
   rewrite select_concat by assumption; rewrite combine_map_r, map_map;
   replace (map _ (combine ms ls)) with (map TU64 (map (fun '(m, l) => select m l) (combine ms ls))); [constructor|];
   rewrite map_map; apply map_ext; intros [m l]; reflexivity).
  - (assert (F' : Forall2 (fun m l => length m = length l) ms ls)
    by (revert ms F; induction ls as [|l ls IH]; intros ms F; inversion F as [|? ? ? ? F1 F2]; subst; constructor;
        [cbn [tvalues] in F1; rewrite ?map_length in F1; exact F1|now apply IH]);
   rewrite select_concat by assumption; rewrite combine_map_r, map_map;
   replace (map _ (combine ms ls)) with (map TF64 (map (fun '(m, l) => select m l) (combine ms ls))); [constructor|];
   rewrite map_map; apply map_ext; intros [m l]; reflexivity).
  - (assert (F' : Forall2 (fun m l => length m = length l) ms ls)
    by (revert ms F; induction ls as [|l ls IH]; intros ms F; inversion F as [|? ? ? ? F1 F2]; subst; constructor;
        [cbn [tvalues] in F1; rewrite ?map_length in F1; exact F1|now apply IH]);
   rewrite select_concat by assumption; rewrite combine_map_r, map_map;
   replace (map _ (combine ms ls)) with (map TLD (map (fun '(m, l) => select m l) (combine ms ls))); [constructor|];
   rewrite map_map; apply map_ext; intros [m l]; reflexivity).
Qed.
Lemma filter_batches_ok f r bs fin bs' : Forall2 (fun b b' => event_filter f r b = Ok b') bs bs' ->
  filter_batches f r bs fin = mkS bs' fin.
Proof. induction 1 as [|b b' bs bs' E _ IH]; [reflexivity|]. cbn [filter_batches]. now rewrite E, IH. Qed.
Lemma filter_stream f r bs t : joined (map fst bs) t -> Forall batch_ok bs -> (timed f = true -> sortedQ (tvalues t)) ->
  exists bs' t' p', inline_filter f r (mkS bs None) = mkS bs' None /\ length bs' = length bs /\
    event_filter f r (t, concat (map snd bs)) = Ok (t', p') /\ joined (map fst bs') t' /\ concat (map snd bs') = p' /\
    Forall batch_ok bs'.
Proof.
  intros J B S. destruct (stage_elementwise f) as (K & N & KN).
  set (res1 := fun b : tarr * list Z => (tselect (chosen_by K f r (fst b) (snd b)) (fst b), map N (select (chosen_by K f r (fst b) (snd b)) (snd b)))).
  assert (LE : forall b, batch_ok b -> length (keys (fst b)) = length (snd b)).
  { intros b Hb. unfold batch_ok, tlen, len in Hb. rewrite keys_length. lia. }
  assert (LC : forall b, batch_ok b -> length (chosen_by K f r (fst b) (snd b)) = length (snd b)).
  { intros b Hb. unfold chosen_by. rewrite map_length, combine_length, (LE b Hb). lia. }
  assert (CH : chosen_by K f r t (concat (map snd bs)) = concat (map (fun b => chosen_by K f r (fst b) (snd b)) bs)).
  { unfold chosen_by at 1. rewrite (joined_keys _ _ J), map_map. clear -B LE.
    induction B as [|b bs Hb B IH]; [reflexivity|]. cbn [map concat]. rewrite combine_app by (now apply LE). rewrite map_app, IH. reflexivity. }
  assert (SEL : forall {X} (g : tarr * list Z -> list X), (forall b, batch_ok b -> length (g b) = length (snd b)) ->
     select (concat (map (fun b => chosen_by K f r (fst b) (snd b)) bs)) (concat (map g bs)) =
     concat (map (fun b => select (chosen_by K f r (fst b) (snd b)) (g b)) bs)).
  { intros X g G. clear -B LC G. induction B as [|b bs Hb B IH]; [reflexivity|]. cbn [map concat].
    rewrite select_app by (rewrite LC, G; auto). now rewrite IH. }
  exists (map res1 bs), (tselect (chosen_by K f r t (concat (map snd bs))) t), (map N (select (chosen_by K f r t (concat (map snd bs))) (concat (map snd bs)))).
  split; [|split; [now rewrite map_length|split; [|split; [|split]]]].
  - unfold inline_filter. cbn [batches fails]. apply filter_batches_ok.
    assert (SB : timed f = true -> Forall sortedQ (map (fun b => tvalues (fst b)) bs)).
    { intros T. specialize (S T). unfold sortedQ in S. rewrite (joined_values _ _ J), map_map in S. now apply ss_concat in S. }
    clear -B KN SB. induction B as [|[t p] bs Hb B IH]; [constructor|].
    cbn [map] in *. constructor.
    + unfold res1. cbn [fst snd] in *. apply event_filter_gen; auto.
      * intros T. specialize (SB T). now inversion SB.
      * apply KN. unfold batch_ok, tlen, len in Hb. cbn [fst snd] in Hb. lia.
    + apply IH. intros T. specialize (SB T). now inversion SB.
  - assert (BT : batch_ok (t, concat (map snd bs))).
    { unfold batch_ok. cbn [fst snd]. unfold tlen. rewrite (joined_values _ _ J), map_map.
      clear -B. induction B as [|b bs Hb B IH]; [reflexivity|]. cbn [map concat]. rewrite !len_app, IH. unfold batch_ok, tlen in Hb. lia. }
    apply event_filter_gen; auto. apply KN. unfold batch_ok, tlen, len in BT. cbn [fst snd] in BT. lia.
  - rewrite CH. pose proof (joined_select (map (fun b => chosen_by K f r (fst b) (snd b)) bs) (map fst bs) t J) as JS.
    rewrite map_map. replace (map (fun x => fst (res1 x)) bs) with
      (map (fun '(m, t) => tselect m t) (combine (map (fun b => chosen_by K f r (fst b) (snd b)) bs) (map fst bs))).
    + apply JS. clear -B LC. induction B as [|b bs Hb B IH]; [constructor|]. cbn [map]. constructor; [|exact IH].
      rewrite LC by assumption. unfold batch_ok, tlen, len in Hb. lia.
    + clear. induction bs as [|b bs IH]; [reflexivity|]. cbn [map combine]. now rewrite IH.
  - rewrite CH. rewrite (SEL _ snd) by auto. rewrite concat_map, !map_map. reflexivity.
  - clear -B LE. induction B as [|[t p] bs Hb B IH]; [constructor|]. cbn [map]. constructor; [|exact IH].
    unfold batch_ok, res1. cbn [fst snd]. unfold tlen. rewrite tselect_values. unfold len. rewrite map_length. f_equal.
    apply select_length. unfold batch_ok, tlen, len in Hb. cbn [fst snd] in Hb. lia.
Qed.
