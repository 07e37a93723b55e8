(** Writers, statistics, conversion, incomplete files. *)
From Coq Require Import QArith Lqa ZifyBool Sorted.
From Verif Require Import Float Base TimestampsModel TimestampsSpec TimestampsProofs TimestampsProofs2 TimestampsProofs3 TimestampsProofs4.
Local Open Scope Z_scope.
Ltac Zify.zify_post_hook ::= Z.div_mod_to_equations.

(** ** Writers *)
Lemma render_encode f vs : Forall word_ok vs -> render f vs = encode f vs.
Proof.
  intros F. destruct f as [|lg|]; cbn [render].
  - unfold lines_a0, encode. f_equal. apply map_ext_Forall. eapply Forall_impl; [|exact F]. intros v H. cbn [encode1].
    rewrite low_land, high_shiftr, !hexn_hex by (unfold word_ok in H; lia). reflexivity.
  - now apply lines_a1_encode.
  - unfold lines_a2, encode. f_equal. apply map_ext. intros v. cbn [encode1]. now rewrite hexn_hex.
Qed.
Lemma word_of_ok e : event_ok e -> word_ok (word_of e).
Proof. destruct e as [t q]. unfold event_ok, word_ok, word_of. cbn [fst snd]. lia. Qed.
Lemma words_of_ok evs : Forall event_ok evs -> Forall word_ok (map word_of evs).
Proof. intros F. apply Forall_map. eapply Forall_impl; [|exact F]. apply word_of_ok. Qed.
Lemma write_events p f r T evs : 54 <= p -> Forall event_ok evs -> same_values (tvalues T) (times_in r evs) ->
  write p f T (map snd evs) r = Ok (encode f (map word_of evs)).
Proof.
  intros P O S. unfold write. rewrite (consolidate_events p r T evs) by assumption. cbn [bind].
  now rewrite render_encode by now apply words_of_ok.
Qed.
Lemma time_word e : event_ok e -> time_of (word_of e) = fst e /\ pattern_of (word_of e) = snd e.
Proof. destruct e as [t q]. unfold event_ok, time_of, pattern_of, word_of. cbn [fst snd]. change (2 ^ 4) with 16. lia. Qed.
Lemma times_words evs : Forall event_ok evs -> map time_of (map word_of evs) = map fst evs /\ map pattern_of (map word_of evs) = map snd evs.
Proof.
  induction 1 as [|e evs H F [I1 I2]]; [split; reflexivity|]. destruct (time_word e H) as [E1 E2]. cbn [map]. now rewrite E1, E2, I1, I2.
Qed.
(** streaming *)
Definition pack (p : Z) (r : TSRES) (x : Q) : pyres Z := to_uint64 (fl p (fl p x * inject_Z (256 / rvalue r)))%Q.
Definition join2 (v q : Z) : Z := u64 (u64 (Z.shiftl v 10) + u64 q).
Lemma mapM_length {E A B} (f : A -> res E B) l m : mapM f l = Ok m -> length m = length l.
Proof.
  revert m; induction l as [|x l IH]; intros m; cbn [mapM]; [intros H; now inv H|].
  destruct (f x); [|discriminate]. cbn [bind]. destruct (mapM f l) as [ys|] eqn:Q; [|discriminate]. cbn [bind].
  intros H. inv H. cbn. now rewrite (IH ys).
Qed.
Lemma consolidate_eq p t ps r : tlen t = len ps ->
  consolidate p t ps r = let* ts := mapM (pack p r) (tvalues t) in Ok (map (fun '(v, q) => join2 v q) (combine ts ps)).
Proof.
  intros L. unfold consolidate. change (mapM (pack p r)) with (mapM (fun x => to_uint64 (fl p (fl p x * inject_Z (256 / rvalue r)))%Q)).
  destruct (mapM _ (tvalues t)) as [ts|e] eqn:M; [|reflexivity]. cbn [bind]. apply mapM_length in M.
  unfold broadcast. replace (len ps =? len ts) with true; [reflexivity|]. unfold tlen, len in *. lia.
Qed.
Lemma render_app f a b : render f (a ++ b) = render f a ++ render f b.
Proof. destruct f; cbn [render]; unfold lines_a0, lines_a1, lines_a2; now rewrite map_app, concat_app. Qed.
Lemma swrite_write p f r bs T P : Forall batch_ok bs ->
  tvalues T = concat (map (fun b => tvalues (fst b)) bs) -> P = concat (map snd bs) ->
  match write p f T P r with
  | Ok out => swrite p f (mkS bs None) r = (out, None)
  | Err e => exists out, swrite p f (mkS bs None) r = (out, Some e)
  end.
Proof.
  intros B ET EP. unfold write, swrite. cbn [batches fails].
  assert (L : tlen T = len P).
  { unfold tlen. rewrite ET, EP. clear -B. induction B as [|b bs Hb B IH]; [reflexivity|]. cbn [map concat]. rewrite !len_app, IH.
    unfold batch_ok, tlen in Hb. lia. }
  rewrite consolidate_eq by assumption. rewrite ET, EP. clear ET EP L T P.
  induction B as [|[t ps] bs Hb B IH].
  - cbn. destruct f; reflexivity.
  - cbn [map concat fst snd swrite_batches]. rewrite mapM_app. unfold batch_ok in Hb. cbn [fst snd] in Hb.
    rewrite consolidate_eq by assumption. destruct (mapM (pack p r) (tvalues t)) as [ts|e] eqn:M; [|cbn [bind]; eauto].
    cbn [bind]. destruct (mapM (pack p r) (concat (map (fun b => tvalues (fst b)) bs))) as [tss|e]; cbn [bind] in *.
    + rewrite combine_app by (apply mapM_length in M; unfold tlen, len in Hb; lia). rewrite map_app, render_app, IH. reflexivity.
    + destruct IH as [out ->]. eauto.
Qed.

(** ** Formatting *)
Lemma in_units_div r t : (inject_Z t / (inject_Z 256 / inject_Z (rvalue r)) == in_units r t)%Q.
Proof.
  unfold in_units. rewrite inject_Z_mult. destruct r; cbn [rvalue];
  change (inject_Z 256) with (256 # 1); change (inject_Z 1) with 1%Q; change (inject_Z 8) with (8 # 1); field.
Qed.
Lemma time_range v : word_ok v -> 0 <= time_of v < 2 ^ 54.
Proof. unfold word_ok, time_of. lia. Qed.
Lemma format_frac p r x t : 54 <= p -> 0 <= t < 2 ^ 54 -> (x == inject_Z t)%Q ->
  (fl p (fl p x / (inject_Z 256 / inject_Z (rvalue r))) == in_units r t)%Q.
Proof.
  intros P T E. rewrite (fl_eq p x _ E). 
  rewrite (fl_eq p _ (in_units r t)); [now apply fl_units|]. rewrite fl_time by assumption. apply in_units_div.
Qed.
(** raw times are held exactly *)
Definition exact_for (f : fmt) (vs : list Z) : Prop := match f with A0 => Forall exact53 vs | _ => True end.
Lemma raw_exact f vs : exact_for f vs -> same_values (tvalues (raw_t f vs)) (map (fun v => inject_Z (time_of v)) vs).
Proof.
  unfold same_values, exact_for, raw_t. destruct f; cbn [tvalues]; intros H.
  - induction H as [|v vs E H IH]; [constructor|]. cbn [map]. constructor; [exact E|exact IH].
  - rewrite map_map. clear. induction vs; cbn; constructor; auto. reflexivity.
  - rewrite map_map. clear. induction vs; cbn; constructor; auto. reflexivity.
Qed.
Lemma format_exact p f r vs : 54 <= p -> Forall word_ok vs -> exact_for f vs ->
  same_values (tvalues (format_timestamps p (raw_t f vs) r true)) (map (fun v => in_units r (time_of v)) vs).
Proof.
  intros P F E. pose proof (raw_exact f vs E) as R. unfold format_timestamps. cbn [tvalues].
  revert R. generalize (tvalues (raw_t f vs)) as l. clear E. unfold same_values. induction F as [|v vs H F IH]; intros l R; inversion R as [|x ? l0 ? EX ER]; subst; [constructor|].
  cbn [map]. constructor; [|now apply IH]. apply format_frac; [assumption|now apply time_range|assumption].
Qed.
Lemma format_floor p f r vs : Forall word_ok vs -> exact_for f vs ->
  same_values (tvalues (format_timestamps p (raw_t f vs) r false)) (map (fun v => inject_Z (time_of v * rvalue r / 256)) vs).
Proof.
  intros F E. pose proof (raw_exact f vs E) as R. 
  assert (PS : r <> PS4 -> tvalues (format_timestamps p (raw_t f vs) r false) = map inject_Z (map (fun v => time_of v / (256 / rvalue r)) vs)).
  { intros NP. assert (G : match raw_t f vs with TU64 l => l | TF64 l | TLD l => map (fun x => Z.quot (Qnum x) (Zpos (Qden x))) l end = map time_of vs).
    { unfold exact_for in E. destruct f; cbn [raw_t]; try reflexivity. rewrite map_map. apply map_ext_Forall. eapply Forall_impl; [|exact E].
      intros v X. change (qtrunc (fl 53 (inject_Z (time_of v))) = time_of v). now apply qtrunc_int. }
    unfold format_timestamps. rewrite G. destruct r; try congruence; cbn [tvalues]; rewrite !map_map; reflexivity. }
  unfold same_values. destruct r.
  - rewrite PS by discriminate. rewrite map_map. cbn [rvalue]. clear. induction vs; cbn [map]; constructor; auto.
    apply inject_Z_injective. now rewrite Z.mul_1_r.
  - rewrite PS by discriminate. rewrite map_map. cbn [rvalue]. clear. induction vs as [|v vs IH]; cbn [map]; constructor; auto.
    apply inject_Z_injective. change (256 / 8) with 32. rewrite <- (Z.div_mul_cancel_r (time_of v) 32 8) by lia. reflexivity.
  - cbn [format_timestamps rvalue]. replace (map (fun v => inject_Z (time_of v * 256 / 256)) vs) with (map (fun v => inject_Z (time_of v)) vs); [exact R|].
    apply map_ext. intros v. now rewrite Z.div_mul by lia.
Qed.

(** ** Statistics *)
Lemma insert_in v x l : In x (insert v l) <-> x = v \/ In x l.
Proof.
  induction l as [|y l IH]; cbn [insert In]; [intuition|]. destruct (v <? y) eqn:A; [cbn; intuition|].
  destruct (v =? y) eqn:B; [apply Z.eqb_eq in B; cbn; intuition; subst; auto|]. cbn [In]. rewrite IH. intuition.
Qed.
Lemma insert_sorted v l : StronglySorted Z.lt l -> StronglySorted Z.lt (insert v l).
Proof.
  induction 1 as [|y l S IH F]; cbn [insert]; [repeat constructor|]. destruct (v <? y) eqn:A.
  - constructor; [now constructor|]. constructor; [lia|]. eapply Forall_impl; [|exact F]. cbn. lia.
  - destruct (v =? y) eqn:B; [now constructor|]. constructor; [exact IH|]. apply Forall_forall. intros x I. apply insert_in in I.
    rewrite Forall_forall in F. destruct I as [->|I]; [lia|now apply F].
Qed.
Lemma inserts_in l a x : In x (fold_right insert a l) <-> In x l \/ In x a.
Proof. induction l as [|y l IH]; cbn [fold_right In]; [intuition|]. rewrite insert_in, IH. intuition. Qed.
Lemma inserts_sorted l a : StronglySorted Z.lt a -> StronglySorted Z.lt (fold_right insert a l).
Proof. intros S. induction l as [|y l IH]; cbn [fold_right]; [exact S|]. now apply insert_sorted. Qed.
Lemma unique_spec l : lists_patterns (unique l) l.
Proof. split; [apply inserts_sorted; constructor|]. intros v. unfold unique. rewrite inserts_in. cbn. intuition. Qed.
Definition scaled (p : Z) (r : TSRES) (b : tarr * list Z) : list Q := map (fun x => scalar_div p (fst b) x r) (tvalues (fst b)).
Lemma count_app f a b : count f (a ++ b) = count f a + count f b.
Proof. unfold count. now rewrite filter_app, len_app. Qed.
Lemma first_app {A} (a b : list A) : first (a ++ b) = match first a with None => first b | x => x end.
Proof. destruct a; reflexivity. Qed.
Lemma final_app {A} (a b : list A) : final (a ++ b) = match final b with None => final a | x => x end.
Proof. unfold final. rewrite rev_app_distr. apply first_app. Qed.
Lemma first_map {A B} (f : A -> B) l : first (map f l) = option_map f (first l).
Proof. destruct l; reflexivity. Qed.
Lemma final_map {A B} (f : A -> B) l : final (map f l) = option_map f (final l).
Proof. unfold final. rewrite <- map_rev. apply first_map. Qed.
Lemma add_batches p r bs : forall s, 
  let s' := fold_left (add_batch p r) bs s in let P := concat (map snd bs) in
  num_events s' = num_events s + len P /\ ch1 s' = ch1 s + count (has_bit 1) P /\ ch2 s' = ch2 s + count (has_bit 2) P /\
  ch3 s' = ch3 s + count (has_bit 4) P /\ ch4 s' = ch4 s + count (has_bit 8) P /\ multi s' = multi s + count is_multi P /\
  none s' = none s + count (Z.eqb 0) P /\
  start_t s' = match start_t s with Some x => Some x | None => first (concat (map (scaled p r) bs)) end /\
  end_t s' = match final (concat (map (scaled p r) bs)) with Some x => Some x | None => end_t s end /\
  (StronglySorted Z.lt (patterns s) -> StronglySorted Z.lt (patterns s')) /\
  (forall v, In v (patterns s') <-> In v (patterns s) \/ In v P).
Proof.
  induction bs as [|[t ps] bs IH]; intros s; cbn [fold_left map concat snd].
  - unfold count. cbn. rewrite len_nil. repeat split; try lia; auto; try tauto.
    destruct (start_t s); reflexivity.
  - specialize (IH (add_batch p r s (t, ps))). cbv zeta in IH.
    destruct IH as (I1 & I2 & I3 & I4 & I5 & I6 & I7 & I8 & I9 & I10 & I11).
    rewrite !count_app, len_app, first_app, final_app. change (scaled p r (t, ps)) with (map (fun x => scalar_div p t x r) (tvalues t)). rewrite first_map, final_map.
    cbn [add_batch num_events ch1 ch2 ch3 ch4 multi none start_t end_t patterns] in *.
    repeat split; try lia.
    + rewrite I8. destruct (first (tvalues t)), (start_t s); reflexivity.
    + rewrite I9. destruct (final (concat (map (scaled p r) bs))); [reflexivity|]. destruct (final (tvalues t)); reflexivity.
    + intros S. apply I10. now apply inserts_sorted.
    + intros I. apply I11 in I. rewrite inserts_in in I. rewrite in_app_iff. destruct I as [[I|I]|I]; auto.
      right; left. now apply (proj2 (unique_spec ps)).
    + intros I. apply I11. rewrite inserts_in. rewrite in_app_iff in I. destruct I as [I|[I|I]]; auto.
      left; left. now apply (proj2 (unique_spec ps)).
Qed.
Definition stat_check (v : Z) : bool :=
  eqb (has_bit 1 v) (Z.testbit v 0) && eqb (has_bit 2 v) (Z.testbit v 1) && eqb (has_bit 4 v) (Z.testbit v 2) &&
  eqb (has_bit 8 v) (Z.testbit v 3) && eqb (is_multi v) (2 <=? popcount v) && eqb (Z.eqb 0 v) (popcount v =? 0).
Lemma stat_checks v : pattern_ok v -> stat_check v = true.
Proof.
  intros H. assert (C : forallb stat_check four = true) by reflexivity. rewrite forallb_forall in C. apply C. now apply in_four.
Qed.
Lemma counts_ok P : Forall pattern_ok P ->
  count (has_bit 1) P = how_many (fun v => Z.testbit v 0) P /\ count (has_bit 2) P = how_many (fun v => Z.testbit v 1) P /\
  count (has_bit 4) P = how_many (fun v => Z.testbit v 2) P /\ count (has_bit 8) P = how_many (fun v => Z.testbit v 3) P /\
  count is_multi P = how_many (fun v => 2 <=? popcount v) P /\ count (Z.eqb 0) P = how_many (fun v => popcount v =? 0) P.
Proof.
  intros F. unfold count, how_many. rewrite Forall_forall in F.
  assert (C : forall v, In v P -> stat_check v = true) by (intros v I; apply stat_checks; auto).
  assert (G : forall f g : Z -> bool, (forall v, stat_check v = true -> f v = g v) -> len (filter f P) = len (filter g P)).
  { intros f g H. f_equal. apply filter_ext_in. intros v I. apply H. auto. }
  assert (D : forall v, stat_check v = true -> has_bit 1 v = Z.testbit v 0 /\ has_bit 2 v = Z.testbit v 1 /\ has_bit 4 v = Z.testbit v 2 /\
     has_bit 8 v = Z.testbit v 3 /\ is_multi v = (2 <=? popcount v) /\ Z.eqb 0 v = (popcount v =? 0)).
  { intros v H. unfold stat_check in H. rewrite !andb_true_iff in H. destruct H as [[[[[H1 H2] H3] H4] H5] H6].
    repeat split; now apply eqb_prop. }
  repeat split; apply G; intros v H; now apply D.
Qed.
Lemma stream_stats p r bs : Forall pattern_ok (concat (map snd bs)) ->
  exists s, print_statistics_stream p (mkS bs None) r = Ok s /\ counts_right s (concat (map snd bs)) /\
    start_t s = first (concat (map (scaled p r) bs)) /\ end_t s = final (concat (map (scaled p r) bs)).
Proof.
  intros F. eexists. split; [reflexivity|]. pose proof (add_batches p r bs stats0) as H. cbv zeta in H.
  cbn [batches]. set (s := fold_left (add_batch p r) bs stats0) in *.
  destruct H as (I1 & I2 & I3 & I4 & I5 & I6 & I7 & I8 & I9 & I10 & I11).
  destruct (counts_ok _ F) as (C1 & C2 & C3 & C4 & C5 & C6).
  cbn [stats0 num_events ch1 ch2 ch3 ch4 multi none start_t end_t patterns] in *.
  split; [|split].
  - unfold counts_right. rewrite <- C1, <- C2, <- C3, <- C4, <- C5, <- C6. repeat split; try lia.
    + apply I10. constructor.
    + intros I. apply I11 in I. destruct I as [[]|I]; exact I.
    + intros I. apply I11. now right.
  - exact I8.
  - rewrite I9. destruct (final _); reflexivity.
Qed.
Lemma memory_stats t P : tlen t = len P -> P <> [] -> Forall pattern_ok P ->
  exists s, print_statistics t P = Ok s /\ counts_right s P /\ start_t s = first (tvalues t) /\ end_t s = final (tvalues t).
Proof.
  intros L N F. unfold print_statistics. unfold tlen in *.
  assert (NE : tvalues t <> []). { intros E. rewrite E in L. destruct P; [congruence|]. unfold len in L. cbn [length] in L. lia. }
  destruct (first (tvalues t)) as [a|] eqn:E1; [|now apply first_none in E1]. destruct (final (tvalues t)) as [b|] eqn:E2; [|now apply final_none in E2].
  eexists. split; [reflexivity|]. destruct (counts_ok _ F) as (C1 & C2 & C3 & C4 & C5 & C6).
  split; [|split; reflexivity]. unfold counts_right. cbn [num_events ch1 ch2 ch3 ch4 multi none start_t end_t patterns].
  rewrite <- C1, <- C2, <- C3, <- C4, <- C5, <- C6. repeat split; auto; apply (unique_spec P).
Qed.
