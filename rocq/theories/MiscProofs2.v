(** Pair counting, docstrings, detuning. *)
From Coq Require Import QArith Qabs Qround Lqa Sorted.
From Verif Require Import Float Base TimestampsModel TimestampsSpec EpochsModel EpochsProofs UtilsModel UtilsSpec UtilsProofs MiscModel MiscSpec MiscProofs.
Local Open Scope Z_scope.

(** ** Pairs *)
Lemma interval_window start T l :
  filter (fun t => Qltb start t && Qle_bool t (start + T)) l = interval start T l.
Proof. reflexivity. Qed.
Lemma sorted_filter (f : Q -> bool) l : sortedQ l -> sortedQ (filter f l).
Proof.
  unfold sortedQ. induction 1 as [|x l S IH F]; [constructor|]. cbn [filter]. destruct (f x); [|exact IH].
  constructor; [exact IH|]. rewrite Forall_forall in *. intros y H. apply filter_In in H. now apply F.
Qed.
(** what is left of [A ++ [z]] at an event: the stamps of [A] closer than [m], and [z] *)
Lemma drop_old_filter m e A z : sortedQ (A ++ [z]) ->
  drop_old m e (A ++ [z]) = filter (fun s => negb (Qle_bool m (e - s))) A ++ [z].
Proof.
  unfold sortedQ. induction A as [|s A IH]; intros H; [reflexivity|].
  inv H. specialize (IH H2). cbn [app drop_old filter].
  destruct (A ++ [z]) as [|y r] eqn:E; [destruct A; discriminate|]. rewrite <- E in *.
  destruct (Qle_bool m (e - s)) eqn:B; cbn [negb].
  - exact IH.
  - cbn [app]. f_equal.
    assert (G : forall x, In x A -> Qle_bool m (e - x) = false).
    { intros x I. rewrite Forall_forall in H3. specialize (H3 x (in_or_app _ _ _ (or_introl I))).
      destruct (Qle_bool m (e - x)) eqn:C; [|reflexivity]. apply Qle_bool_iff in C.
      assert (Qle_bool m (e - s) = true); [apply Qle_bool_iff; lra|congruence]. }
    clear -G. f_equal. symmetry. induction A as [|a A IH]; [reflexivity|]. cbn [filter]. rewrite (G a (or_introl eq_refl)). cbn [negb].
    f_equal. apply IH. intros x I. apply G. now right.
Qed.
Lemma filter_filter_le m e e' A : (e <= e')%Q ->
  filter (fun s => negb (Qle_bool m (e' - s))) (filter (fun s => negb (Qle_bool m (e - s))) A) = filter (fun s => negb (Qle_bool m (e' - s))) A.
Proof.
  intros L. induction A as [|a A IH]; [reflexivity|]. cbn [filter]. destruct (Qle_bool m (e - a)) eqn:B; cbn [negb].
  - assert (Qle_bool m (e' - a) = true) as ->; [|exact IH]. apply Qle_bool_iff in B. apply Qle_bool_iff. lra.
  - cbn [filter]. rewrite IH. reflexivity.
Qed.
(** hits of all events with the stamps they see *)
Fixpoint pair_hits (N : Z) (delta m : Q) (A : list Q) (z : Q) (B : list Q) (k : Z) : Z :=
  match B with
  | [] => 0
  | e :: r => hits N delta k (map (fun s => (e - s)%Q) (filter (fun s => negb (Qle_bool m (e - s))) A ++ [z])) + pair_hits N delta m A z r k
  end.
Lemma pair_hits_filter N delta m e A z B k : Forall (fun x => e <= x)%Q B ->
  pair_hits N delta m (filter (fun s => negb (Qle_bool m (e - s))) A) z B k = pair_hits N delta m A z B k.
Proof.
  induction 1 as [|x B L F IH]; [reflexivity|]. cbn [pair_hits]. rewrite IH, filter_filter_le by assumption. reflexivity.
Qed.
Lemma fold_left_map_incr N delta e l : forall h,
  fold_left (fun h s => incr (Z.to_nat (bin_index N delta (e - s)%Q)) h) l h =
  fold_left (fun h t => incr (Z.to_nat (bin_index N delta t)) h) (map (fun s => e - s)%Q l) h.
Proof. induction l as [|s l IH]; intros h; [reflexivity|]. cbn [fold_left map]. apply IH. Qed.
Lemma g2_loop_hits N delta m z : 0 < N -> forall B A h, length h = Z.to_nat N -> sortedQ (A ++ [z]) -> sortedQ B ->
  length (g2_loop N delta m (A ++ [z]) B h) = Z.to_nat N /\
  forall k, 0 <= k < N -> nth (Z.to_nat k) (g2_loop N delta m (A ++ [z]) B h) 0 = nth (Z.to_nat k) h 0 + pair_hits N delta m A z B k.
Proof.
  intros NP. induction B as [|e B IH]; intros A h L SA SB; cbn [g2_loop pair_hits]; [split; [assumption|intros; lia]|].
  rewrite drop_old_filter by assumption. rewrite fold_left_map_incr.
  destruct (fold_incr N delta (map (fun s => e - s)%Q (filter (fun s => negb (Qle_bool m (e - s))) A ++ [z])) NP h L) as [L1 H1].
  inv SB. 
  assert (SF : sortedQ (filter (fun s => negb (Qle_bool m (e - s))) A ++ [z])).
  { clear -SA. unfold sortedQ in *. induction A as [|a A IH]; [constructor; [constructor|constructor]|]. inv SA. specialize (IH H1).
    cbn [filter]. destruct (negb _); [|exact IH]. cbn [app]. constructor; [exact IH|].
    rewrite Forall_forall in *. intros x I. apply H2. apply in_app_or in I. apply in_or_app. destruct I as [I|I]; [left|now right].
    now apply filter_In in I. }
  destruct (IH _ _ L1 SF H2) as [L2 H4]. split; [exact L2|]. intros k K. rewrite H4, H1 by assumption.
  rewrite pair_hits_filter by assumption. lia.
Qed.
(** counting *)
Lemma counts_fun {A} (P : A -> Prop) l c c' : counts P l c -> counts P l c' -> c = c'.
Proof.
  intros H. revert c'. induction H as [|x l c Px H IH|x l c Nx H IH]; intros c' H'; inv H'; try congruence; try contradiction.
  - f_equal. auto.
  - auto.
Qed.
Lemma counts_app {A} (P : A -> Prop) l m c d : counts P l c -> counts P m d -> counts P (l ++ m) (c + d).
Proof.
  intros H K. induction H as [|x l c Px H IH|x l c Nx H IH]; cbn [app]; [exact K| |].
  - replace (c + 1 + d) with (c + d + 1) by lia. now constructor.
  - now constructor.
Qed.
Lemma counts_map {A B} (g : A -> B) (P : B -> Prop) l c : counts P (map g l) c <-> counts (fun x => P (g x)) l c.
Proof.
  revert c. induction l as [|x l IH]; intros c; cbn [map]; split; intros H; inv H; try constructor; try assumption; now apply IH.
Qed.
Lemma counts_iff {A} (P R : A -> Prop) l c : (forall x, In x l -> (P x <-> R x)) -> counts P l c -> counts R l c.
Proof.
  intros E H. induction H as [|x l c Px H IH|x l c Nx H IH]; constructor.
  - apply E; [now left|assumption].
  - apply IH. intros y I. apply E. now right.
  - intros H1. apply Nx. apply E; [now left|assumption].
  - apply IH. intros y I. apply E. now right.
Qed.
Lemma counts_filter {A} (f : A -> bool) (P : A -> Prop) l c : counts P (filter f l) c -> counts (fun x => P x /\ f x = true) l c.
Proof.
  revert c. induction l as [|x l IH]; intros c H; cbn [filter] in H; [inv H; constructor|].
  destruct (f x) eqn:E.
  - inv H; constructor; try (now apply IH); try tauto.
  - constructor; [intros [_ K]; congruence|]. now apply IH.
Qed.
(** the pairs of the stamps and the event [e], for every event *)
Lemma pair_hits_counts N delta m A z B k : 0 < N -> (0 < delta)%Q -> 0 <= k < N ->
  exists c1 c2, pair_hits N delta m A z B k = c1 + c2 /\
    counts (fun p => in_bin N delta k (fst p - snd p)%Q /\ (fst p - snd p < m)%Q) (list_prod B A) c1 /\
    counts (fun e => in_bin N delta k (e - z)%Q) B c2.
Proof.
  intros NP DP K. induction B as [|e B (c1 & c2 & E & H1 & H2)]; [exists 0, 0; repeat constructor|].
  cbn [pair_hits list_prod].
  set (F := filter (fun s => negb (Qle_bool m (e - s))) A).
  pose proof (hits_counts N delta k (map (fun s => (e - s)%Q) F) NP DP K) as HF.
  apply (proj1 (counts_map (fun s => (e - s)%Q) _ F _)) in HF. apply counts_filter in HF.
  assert (HA : forall l1 l2, hits N delta k (l1 ++ l2) = hits N delta k l1 + hits N delta k l2).
  { intros l1 l2. induction l1 as [|x l1 IH]; cbn [app hits]; lia. }
  rewrite map_app, HA.
  exists (hits N delta k (map (fun s => (e - s)%Q) F) + c1), (hits N delta k (map (fun s => (e - s)%Q) [z]) + c2).
  split; [lia|]. split.
  - apply counts_app; [|exact H1]. apply (proj2 (counts_map (fun y => (e, y)) _ A _)). cbn [fst snd].
    eapply counts_iff; [|exact HF]. intros s _. cbv beta. rewrite negb_true_iff. split; intros [X Y]; split; try assumption.
    + apply Qnot_le_lt. intros Z0. apply Qle_bool_iff in Z0. congruence.
    + destruct (Qle_bool m (e - s)) eqn:Z0; [|reflexivity]. apply Qle_bool_iff in Z0. lra.
  - pose proof (hits_counts N delta k (map (fun s => (e - s)%Q) [z]) NP DP K) as HZ. apply (proj1 (counts_map (fun s => (e - s)%Q) _ [z] _)) in HZ.
    assert (HZ' : counts (fun e => in_bin N delta k (e - z)%Q) [e] (hits N delta k (map (fun s => (e - s)%Q) [z]))).
    { revert HZ. generalize (hits N delta k (map (fun s => (e - s)%Q) [z])) as n. intros n HZ.
      inversion HZ as [|? ? ? PX PL|? ? ? PX PL]; inversion PL; subst; [apply (counts_yes _ e [] 0)|apply (counts_no _ e [] 0)]; try assumption; constructor. }
    change (e :: B) with ([e] ++ B). now apply counts_app.
Qed.
Lemma split_last {A} (l : list A) : l <> [] -> exists r z, l = r ++ [z].
Proof. intros H. destruct (exists_last H) as (r & z & E). eauto. Qed.
Lemma c75 N Ta m arr1 arr2 start delta A z B c1 c2 k : 0 < N -> (0 < delta)%Q -> 0 <= k < N ->
  sortedQ arr1 -> sortedQ arr2 -> interval start Ta arr1 = A ++ [z] -> interval start Ta arr2 = B ->
  counts (fun p => in_bin N delta k (fst p - snd p)%Q /\ (fst p - snd p < m)%Q) (list_prod B A) c1 ->
  counts (fun e => in_bin N delta k (e - z)%Q) B c2 ->
  len (g2 N Ta m arr1 arr2 start delta) = N /\ nth (Z.to_nat k) (g2 N Ta m arr1 arr2 start delta) 0 = c1 + c2.
Proof.
  intros NP DP K S1 S2 EA EB C1 C2.
  assert (SA : sortedQ (A ++ [z])) by (rewrite <- EA; now apply sorted_filter).
  assert (SB : sortedQ B) by (rewrite <- EB; now apply sorted_filter).
  unfold g2. rewrite !interval_window, EA, EB.
  destruct (g2_loop_hits N delta m z NP B A (repeat 0 (Z.to_nat N)) (repeat_length _ _) SA SB) as [L H].
  split; [unfold len; rewrite L; lia|]. rewrite H by assumption. rewrite nth_repeat.
  destruct (pair_hits_counts N delta m A z B k NP DP K) as (d1 & d2 & E & D1 & D2). rewrite E.
  rewrite (counts_fun _ _ _ _ C1 D1), (counts_fun _ _ _ _ C2 D2). lia.
Qed.
Lemma c75_none N Ta m arr1 arr2 start delta : interval start Ta arr1 = [] ->
  g2 N Ta m arr1 arr2 start delta = repeat 0 (Z.to_nat N).
Proof.
  intros E. unfold g2. rewrite !interval_window, E. generalize (interval start Ta arr2) as B. induction B as [|e B IH]; [reflexivity|]. exact IH.
Qed.
(** when the last stamp is near enough for every event, every close pair is counted *)
Lemma list_prod_snoc {A B} (l : list A) (r : list B) z (P : A * B -> Prop) c c' :
  counts P (list_prod l r) c -> counts P (map (fun x => (x, z)) l) c' -> counts P (list_prod l (r ++ [z])) (c + c').
Proof.
  revert c c'. induction l as [|x l IH]; intros c c' H H'; cbn [list_prod map] in *.
  - inv H. inv H'. constructor.
  - assert (SP : forall (u v : list (A * B)) n, counts P (u ++ v) n -> exists a b, counts P u a /\ counts P v b /\ n = a + b).
    { clear. induction u as [|y u IH]; intros v n K; cbn [app] in K; [exists 0, n; repeat constructor; assumption|].
      inversion K as [|? ? ? PX PL|? ? ? PX PL]; subst; destruct (IH _ _ PL) as (a & b & U & V & ->).
      - exists (a + 1), b. repeat split; [now constructor|assumption|lia].
      - exists a, b. repeat split; [now constructor|assumption]. }
    destruct (SP _ _ _ H) as (a & b & U & V & ->). change ((x, z) :: map (fun x => (x, z)) l) with ([(x, z)] ++ map (fun x => (x, z)) l) in H'.
    destruct (SP _ _ _ H') as (a' & b' & U' & V' & ->).
    rewrite map_app. replace (a + b + (a' + b')) with ((a + a') + (b + b')) by lia.
    apply counts_app; [|now apply IH]. now apply counts_app.
Qed.
Lemma c75_near N Ta m arr1 arr2 start delta c k : 0 < N -> (0 < delta)%Q -> 0 <= k < N -> sortedQ arr1 -> sortedQ arr2 ->
  (forall e s, In e (interval start Ta arr2) -> In s (interval start Ta arr1) ->
     (forall s', In s' (interval start Ta arr1) -> (s' <= s)%Q) -> (e - s < m)%Q) ->
  counts (fun p => in_bin N delta k (fst p - snd p)%Q /\ (fst p - snd p < m)%Q) (list_prod (interval start Ta arr2) (interval start Ta arr1)) c ->
  nth (Z.to_nat k) (g2 N Ta m arr1 arr2 start delta) 0 = c.
Proof.
  intros NP DP K S1 S2 NEAR C.
  destruct (interval start Ta arr1) as [|a0 A0] eqn:EA.
  - rewrite c75_none by assumption. rewrite nth_repeat.
    assert (Z0 : forall l : list Q, list_prod l (@nil Q) = []) by (induction l; [reflexivity|assumption]).
    rewrite Z0 in C. inv C. reflexivity.
  - destruct (split_last (a0 :: A0)) as (A & z & E); [discriminate|]. rewrite E in *.
    set (B := interval start Ta arr2) in *.
    destruct (pair_hits_counts N delta m A z B k NP DP K) as (d1 & d2 & _ & D1 & D2).
    destruct (c75 N Ta m arr1 arr2 start delta A z B d1 d2 k NP DP K S1 S2 EA eq_refl D1 D2) as [_ ->].
    refine (counts_fun _ _ _ _ _ C). apply list_prod_snoc; [exact D1|].
    apply (proj2 (counts_map (fun x => (x, z)) _ B _)). cbn [fst snd]. eapply counts_iff; [|exact D2].
    intros e I. cbv beta. split; [|tauto]. intros X. split; [exact X|]. apply NEAR; [exact I|apply in_or_app; right; now left|].
    intros s' I'. assert (SA : sortedQ (A ++ [z])) by (rewrite <- EA; now apply sorted_filter).
    clear -SA I'. unfold sortedQ in SA. induction A as [|a A IH]; cbn [app] in *.
    + destruct I' as [<-|[]]. apply Qle_refl.
    + inv SA. destruct I' as [<-|I']; [|now apply IH]. rewrite Forall_forall in H2. apply H2. apply in_or_app. right. now left.
Qed.

(** ** Detuning *)
Lemma c77 e0 evs channel ratio offset : ~ (1 + ratio == 0)%Q -> exists out, detune (e0 :: evs) channel ratio offset = Ok out /\
  map snd out = map (fun _ => channel) out /\
  same_values (plotted (ratio * 1000000) (offset - fst e0 * ratio) (map fst out)) (map fst (filter (fun e => snd e =? channel) (e0 :: evs))).
Proof.
  intros R. eexists. split; [reflexivity|]. set (L := filter _ (e0 :: evs)). split.
  - rewrite !map_map. cbn [snd]. apply map_ext_in. intros e I. apply filter_In in I. lia.
  - unfold plotted. rewrite !map_map. cbn [fst]. apply same_map. intros e _.
    assert (E : (1 + ratio * 1000000 * (1 # 1000000) == 1 + ratio)%Q) by field. rewrite E. field. exact R.
Qed.

(** ** Docstrings *)
Lemma prefix_none mark s : prefix_of mark s = None <-> forall y, s <> mark ++ y.
Proof.
  split.
  - intros H y ->. assert (prefix_of mark (mark ++ y) = Some y) by now apply prefix_of_spec. congruence.
  - intros H. destruct (prefix_of mark s) as [r|] eqn:E; [|reflexivity]. apply prefix_of_spec in E. destruct (H r E).
Qed.
Lemma partition_before mark s a : before mark s a -> fst (partition mark s) = a.
Proof.
  intros [(b & H)|[-> H]]; [now rewrite (partition_parts _ _ _ _ H)|].
  induction s as [|c s IH].
  - cbn [partition]. destruct (prefix_of mark []) as [r|]; reflexivity.
  - cbn [partition]. assert (E : prefix_of mark (c :: s) = None).
    { apply prefix_none. intros y. apply (H [] y). }
    rewrite E. destruct (partition mark s) as [u v] eqn:F. cbn [fst] in *. f_equal. apply IH.
    intros x y G. apply (H (c :: x) y). cbn [app]. now f_equal.
Qed.
Lemma skip_run r d : newline_run r -> hd 0 d <> 10 -> skip_newlines (r ++ d) = d.
Proof.
  intros R D. induction R as [|r R IH]; cbn [app skip_newlines Z.eqb Pos.eqb]; [|exact IH].
  destruct d as [|c d]; [reflexivity|]. cbn [skip_newlines hd] in *. replace (c =? 10) with false by lia. reflexivity.
Qed.
Lemma sub_first_plain new l s : ~ In 10 l -> sub_first new (l ++ s) = l ++ sub_first new s.
Proof.
  induction l as [|c l IH]; intros N; [reflexivity|]. cbn [app sub_first].
  destruct (c =? 10) eqn:E; [exfalso; apply N; left; lia|]. rewrite IH; [reflexivity|]. intros I. apply N. now right.
Qed.
Lemma run_cons r : newline_run r -> exists r', r = 10 :: r' /\ (r' = [] \/ newline_run r').
Proof. intros H. inv H; eauto. Qed.
Lemma sub_first_run new r d : newline_run r -> hd 0 d <> 10 -> sub_first new (r ++ d) = new ++ d.
Proof.
  intros R D. destruct (run_cons r R) as (r' & -> & [->|R']); cbn [app sub_first Z.eqb Pos.eqb]; f_equal.
  - destruct d as [|c d]; [reflexivity|]. cbn [skip_newlines hd] in *. replace (c =? 10) with false by lia. reflexivity.
  - now apply skip_run.
Qed.
Lemma sub_newlines_plain l s nl : ~ In 10 l -> l <> [] -> sub_newlines nl (l ++ s) = l ++ sub_newlines false s.
Proof.
  revert nl. induction l as [|c l IH]; intros nl N E; [congruence|]. cbn [app sub_newlines].
  destruct (c =? 10) eqn:F; [exfalso; apply N; left; lia|]. f_equal.
  destruct l as [|c' l]; [reflexivity|]. apply IH; [|discriminate]. intros I. apply N. now right.
Qed.
Lemma sub_newlines_true d : hd 0 d <> 10 -> sub_newlines true d = sub_newlines false d.
Proof. destruct d as [|c d]; [reflexivity|]. cbn [hd sub_newlines]. intros H. replace (c =? 10) with false by lia. reflexivity. Qed.
Lemma sub_newlines_run r d : newline_run r -> hd 0 d <> 10 -> sub_newlines false (r ++ d) = 32 :: sub_newlines false d.
Proof.
  intros R D. destruct (run_cons r R) as (r' & -> & R'). cbn [app sub_newlines Z.eqb Pos.eqb]. f_equal.
  destruct R' as [->|R']; [cbn [app]; now apply sub_newlines_true|].
  induction R' as [|r R' IH]; cbn [app sub_newlines Z.eqb Pos.eqb]; [now apply sub_newlines_true|]. apply IH. constructor. assumption.
Qed.
Lemma sub_newlines_split d ls : split_runs d ls -> exists x r, ls = x :: r /\ sub_newlines false d = x ++ concat (map (cons 32) r).
Proof.
  induction 1 as [l N|l r d ls N R D S (x & q & -> & IH)].
  - exists l, []. split; [reflexivity|]. cbn [map concat]. destruct l as [|c l]; [reflexivity|].
    rewrite <- (app_nil_r (c :: l)) at 1. rewrite sub_newlines_plain by (try assumption; discriminate). reflexivity.
  - exists l, (x :: q). split; [reflexivity|]. cbn [map concat app]. rewrite <- IH. rewrite <- sub_newlines_run with (r := r) by assumption.
    destruct l as [|c l]; [reflexivity|]. apply sub_newlines_plain; [assumption|discriminate].
Qed.
Lemma sub_placeholder_none fuel s : ~ In 126 s -> (length s < fuel)%nat -> sub_placeholder fuel s = s.
Proof.
  revert s. induction fuel as [|k IH]; intros s N L; [lia|]. cbn [sub_placeholder].
  assert (E : prefix_of PLACEHOLDER s = None).
  { apply prefix_none. intros y ->. apply N. now left. }
  rewrite E. destruct s as [|c s]; [reflexivity|]. f_equal. apply IH; [|cbn [length] in L; lia]. intros I. apply N. now right.
Qed.
Lemma sub_placeholder_one l s : ~ In 126 l -> ~ In 126 s -> forall fuel, (length (l ++ PLACEHOLDER ++ s) < fuel)%nat ->
  sub_placeholder fuel (l ++ PLACEHOLDER ++ s) = l ++ [10; 10] ++ s.
Proof.
  intros N M. induction l as [|c l IH]; intros [|k] L; try lia.
  - cbn [sub_placeholder app]. assert (E : prefix_of PLACEHOLDER (PLACEHOLDER ++ s) = Some s) by now apply prefix_of_spec.
    change ([] ++ PLACEHOLDER ++ s) with (PLACEHOLDER ++ s). rewrite E. f_equal. f_equal. apply sub_placeholder_none; [assumption|].
    rewrite !app_length in L. change (length PLACEHOLDER) with 17%nat in L. lia.
  - cbn [sub_placeholder app]. assert (E : prefix_of PLACEHOLDER (c :: l ++ PLACEHOLDER ++ s) = None).
    { apply prefix_none. intros y G. unfold PLACEHOLDER at 2 in G. cbn [app] in G. injection G as G _. apply N. left. exact G. }
    rewrite E. f_equal. apply IH; [intros I; apply N; now right|]. cbn [app length] in L. lia.
Qed.
Lemma In_split_runs d ls c : split_runs d ls -> In c (concat ls) -> In c d.
Proof.
  induction 1 as [l N|l r d ls N R D S IH]; cbn [concat]; intros I; [now rewrite app_nil_r in I|].
  apply in_app_or in I. apply in_or_app. destruct I as [I|I]; [now left|right]. apply in_or_app. right. now apply IH.
Qed.
Lemma concat_spaces c r : In c (concat (map (cons 32) r)) -> c = 32 \/ In c (concat r).
Proof.
  induction r as [|x r IH]; cbn [map concat]; intros I; [destruct I|]. cbn [app] in I. destruct I as [<-|I]; [now left|].
  apply in_app_or in I. destruct I as [I|I]; [right; apply in_or_app; now left|]. destruct (IH I) as [H|H]; [now left|right; apply in_or_app; now right].
Qed.
Lemma c78 doc d ls : before CHANGELOG doc d -> split_runs d ls -> ~ In 126 d -> parse_docstring_description doc = headline ls.
Proof.
  intros B S N. unfold parse_docstring_description. rewrite (partition_before _ _ _ B). cbv zeta.
  destruct S as [l L|l r d ls L R D S].
  - cbn [headline]. assert (E0 : sub_first PLACEHOLDER l = l).
    { rewrite <- (app_nil_r l) at 1. rewrite sub_first_plain by assumption. apply app_nil_r. }
    rewrite E0. assert (E : sub_newlines false l = l).
    { rewrite <- (app_nil_r l) at 1. destruct l as [|c l]; [reflexivity|]. rewrite sub_newlines_plain by (try assumption; discriminate). cbn [sub_newlines]. apply app_nil_r. }
    rewrite E. apply sub_placeholder_none; [assumption|lia].
  - rewrite sub_first_plain, sub_first_run by assumption.
    destruct (sub_newlines_split d ls S) as (y & q & -> & E).
    assert (F : sub_newlines false (l ++ PLACEHOLDER ++ d) = l ++ PLACEHOLDER ++ y ++ concat (map (cons 32) q)).
    { rewrite <- E. rewrite !app_assoc. rewrite sub_newlines_plain; [reflexivity| |intros G; apply app_eq_nil in G; destruct G as [_ G]; discriminate].
      intros I. apply in_app_or in I. destruct I as [I|I]; [contradiction|]. cbn in I. repeat (destruct I as [I|I]; [discriminate I|]). destruct I. }
    rewrite F. cbn [headline].
    apply sub_placeholder_one; [intros I; apply N; apply in_or_app; now left| |lia].
    intros I. apply N. apply in_or_app. right. apply in_or_app. right. apply in_app_or in I.
    destruct I as [I|I]; [eapply In_split_runs; [exact S|]; cbn [concat]; apply in_or_app; now left|].
    apply concat_spaces in I. destruct I as [I|I]; [discriminate I|]. eapply In_split_runs; [exact S|]. cbn [concat]. apply in_or_app. now right.
Qed.
(** every string has such pieces *)
Lemma split_runs_exists d : exists ls, split_runs d ls.
Proof.
  induction d as [|c d (ls & S)]; [exists [[]]; constructor; intros []|].
  destruct (Z.eq_dec c 10) as [->|N].
  - inv S.
    + exists [[]; d]. change (10 :: d) with ([] ++ [10] ++ d). apply split_more; [intros []|constructor| |now constructor].
      destruct d as [|x d]; cbn; [lia|]. intros ->. apply H. now left.
    + destruct l as [|x l].
      * exists ([] :: ls0). change (10 :: [] ++ r ++ d0) with ([] ++ (10 :: r) ++ d0). apply split_more; try assumption. now constructor.
      * exists ([] :: (x :: l) :: ls0). change (10 :: (x :: l) ++ r ++ d0) with ([] ++ [10] ++ (x :: l) ++ r ++ d0).
        apply split_more; [intros []|constructor| |now apply split_more]. cbn. intros ->. apply H. now left.
  - inv S.
    + exists [c :: d]. constructor. intros [I|I]; [congruence|contradiction].
    + exists ((c :: l) :: ls0). change (c :: l ++ r ++ d0) with ((c :: l) ++ r ++ d0). apply split_more; try assumption. intros [I|I]; [congruence|contradiction].
Qed.
