(** Conversion between formats, incomplete a1 files. *)
From Coq Require Import QArith Lqa ZifyBool Sorted.
From Verif Require Import Float Base TimestampsModel TimestampsSpec TimestampsProofs TimestampsProofs2 TimestampsProofs3 TimestampsProofs4 TimestampsProofs5.
Local Open Scope Z_scope.
Ltac Zify.zify_post_hook ::= Z.div_mod_to_equations.

Lemma Forall2_length {A B} (R : A -> B -> Prop) l m : Forall2 R l m -> length l = length m.
Proof. induction 1; cbn; congruence. Qed.

(** ** Filters on words *)
Lemma Qle_bool_eq a b x y : (a == b)%Q -> (x == y)%Q -> Qle_bool a x = Qle_bool b y.
Proof. intros E F. apply eq_true_iff_eq. rewrite !Qle_bool_iff, E, F. reflexivity. Qed.
Lemma within_eq lo hi lo' hi' x y :
  (forall a b, lo = Some a -> lo' = Some b -> (Qle_bool a x = Qle_bool b y)) -> (lo = None <-> lo' = None) ->
  (forall a b, hi = Some a -> hi' = Some b -> (Qle_bool x a = Qle_bool y b)) -> (hi = None <-> hi' = None) ->
  within lo hi x = within lo' hi' y.
Proof.
  intros A A' B B'. unfold within. f_equal.
  - destruct lo, lo'; auto; exfalso; destruct A' as [P Q]; try (specialize (P eq_refl)); try (specialize (Q eq_refl)); discriminate.
  - destruct hi, hi'; auto; exfalso; destruct B' as [P Q]; try (specialize (P eq_refl)); try (specialize (Q eq_refl)); discriminate.
Qed.
Lemma passes_eq f r x y v : (x == y)%Q -> passes f r x v = passes f r y v.
Proof.
  intros E. unfold passes. f_equal. apply within_eq; try tauto; intros a b H1 H2; rewrite H1 in H2; inv H2; apply Qle_bool_eq; auto; reflexivity.
Qed.
Lemma bound_scale x : (bound PS4 x == bound NS1 x * pow2 8)%Q.
Proof.
  unfold bound. rewrite <- fl_scale. rewrite (fl_eq 53 _ (x * inject_Z (1000000000 * rvalue NS1) * pow2 8)%Q); [reflexivity|].
  cbn [rvalue]. change (pow2 8) with (256 # 1). change (inject_Z (1000000000 * 256)) with (256000000000 # 1).
  change (inject_Z (1000000000 * 1)) with (1000000000 # 1). lra.
Qed.
Lemma passes_ns f t v : passes f NS1 (in_units NS1 t) v = passes f PS4 (inject_Z t) v.
Proof.
  unfold passes. f_equal. unfold bounds.
  assert (U : (inject_Z t == in_units NS1 t * pow2 8)%Q).
  { rewrite in_units_pow. cbn [rexp]. change (pow2 (-8)) with (1 # 256). change (pow2 8) with (256 # 1). lra. }
  assert (P8 : (0 < pow2 8)%Q) by reflexivity.
  apply within_eq.
  - intros a b H1 H2. destruct (f_start f) as [s|]; [|discriminate]. injection H1 as <-. injection H2 as <-.
    pose proof (bound_scale s) as BS. unfold bound in BS. apply eq_true_iff_eq. rewrite !Qle_bool_iff.
    change (10 ^ 9) with 1000000000. rewrite BS, U. split; [now apply Qmul_le|now apply Qmul_le_inv].
  - destruct (f_start f); cbn; split; congruence.
  - intros a b H1 H2. destruct (f_end f) as [s|]; [|discriminate]. injection H1 as <-. injection H2 as <-.
    pose proof (bound_scale s) as BS. unfold bound in BS. apply eq_true_iff_eq. rewrite !Qle_bool_iff.
    change (10 ^ 9) with 1000000000. rewrite BS, U. split; [now apply Qmul_le|now apply Qmul_le_inv].
  - destruct (f_end f); cbn; split; congruence.
Qed.
(** [timed f = false]: the time plays no role *)
Lemma passes_untimed f r x r' y v : timed f = false -> passes f r x v = passes f r' y v.
Proof. unfold timed, passes. destruct (f_start f); [discriminate|]. destruct (f_end f); [discriminate|]. reflexivity. Qed.

Definition fkey (f : fmt) (v : Z) : Q := fl 53 (inject_Z (time_of v)).
Lemma raw_keys f vs : keys (raw_t f vs) = map (fkey f) vs.
Proof. destruct f; cbn [raw_t keys]; unfold fkey; rewrite ?map_map; reflexivity. Qed.
Lemma raw_values_sorted f vs : in_order vs -> sortedQ (tvalues (raw_t f vs)).
Proof.
  unfold in_order, sortedQ. induction 1 as [|v vs S IH F]; [destruct f; constructor|].
  assert (G : exists h, (forall a b, time_of a <= time_of b -> (h a <= h b)%Q) /\ forall ws, tvalues (raw_t f ws) = map h ws).
  { destruct f.
    - exists (fun v => fl 53 (inject_Z (time_of v))). split; [|reflexivity]. intros a b L. apply fl_mono; [lia|]. now rewrite <- Zle_Qle.
    - exists (fun v => inject_Z (time_of v)). split; [intros a b L; now rewrite <- Zle_Qle|]. intros ws. cbn. now rewrite map_map.
    - exists (fun v => inject_Z (time_of v)). split; [intros a b L; now rewrite <- Zle_Qle|]. intros ws. cbn. now rewrite map_map. }
  destruct G as (h & G & E). rewrite E in *. cbn [map]. constructor; [exact IH|]. apply Forall_map. eapply Forall_impl; [|exact F]. cbn. intros a. apply G.
Qed.
Lemma patterns_ok_words vs : Forall pattern_ok (map pattern_of vs).
Proof. apply Forall_map. apply Forall_forall. intros v _. unfold pattern_ok, pattern_of. change (2 ^ 4) with 16. lia. Qed.
Lemma raw_len f vs : tlen (raw_t f vs) = len vs.
Proof. unfold tlen. destruct f; cbn [raw_t tvalues]; unfold len; now rewrite ?map_length. Qed.
Lemma becomes_ok pt m i v : pattern_ok v -> pattern_ok (becomes pt m i v).
Proof.
  intros H. unfold becomes. destruct m; [|exact H].
  assert (G : forall P, pattern_ok (bits_where P)).
  { intros P. unfold bits_where, bits4, pattern_ok. cbn [fold_right]. destruct (P 0), (P 1), (P 2), (P 3); lia. }
  destruct i; apply G.
Qed.
Lemma new_pattern_ok f v : pattern_ok v -> pattern_ok (new_pattern f v).
Proof. intros H. unfold new_pattern. destruct (f_pattern f); [now apply becomes_ok|exact H]. Qed.
(** the events chosen by [sel] *)
Definition evs_of (f : filters) (vs : list Z) : list event := map (fun v => (time_of v, new_pattern f (pattern_of v))) vs.
Lemma evs_ok f vs : Forall word_ok vs -> Forall event_ok (evs_of f vs).
Proof.
  intros F. unfold evs_of. apply Forall_map. eapply Forall_impl; [|exact F]. intros v H. split; cbn [fst snd]; [now apply time_range|].
  apply new_pattern_ok. unfold pattern_ok, pattern_of. change (2 ^ 4) with 16. lia.
Qed.
Lemma Forall_filter {A} (P : A -> Prop) f l : Forall P l -> Forall P (filter f l).
Proof. induction 1 as [|x l H F IH]; cbn; [constructor|]. destruct (f x); auto. Qed.
Lemma same_select a b m : same_values a b -> same_values (select m a) (select m b).
Proof. unfold same_values. intros H. revert m. induction H as [|x y a b E H IH]; intros [|c m]; cbn; try constructor. destruct c; auto. Qed.
Lemma same_map (g h : Z -> Q) l : (forall v, In v l -> (g v == h v)%Q) -> same_values (map g l) (map h l).
Proof. unfold same_values. induction l as [|v l IH]; intros H; cbn; constructor; [apply H; now left|apply IH; intros w I; apply H; now right]. Qed.
(** a batch of raw words, filtered and packed *)
Lemma filter_pack p fin f vs : 54 <= p -> Forall word_ok vs -> filter_ok f -> (timed f = true -> in_order vs) ->
  (fin = A0 \/ timed f = true -> Forall exact53 vs) ->
  exists t q, event_filter f PS4 (raw_t fin vs, map pattern_of vs) = Ok (t, q) /\
    consolidate p t q PS4 = Ok (map (converted f) (filter (kept f) vs)).
Proof.
  intros P W FO S EX. eexists. eexists. split.
  - apply event_filter_spec; [unfold batch_ok; cbn [fst snd]; now rewrite raw_len, len_map|assumption|apply patterns_ok_words|].
    intros T. now apply raw_values_sorted, S.
  - assert (CH : chosen f PS4 (raw_t fin vs) (map pattern_of vs) = map (kept f) vs).
    { unfold chosen. rewrite raw_keys, combine_map_l, combine_map_r, !map_map.
      assert (D : combine vs vs = map (fun v => (v, v)) vs) by (clear; induction vs as [|v l IH]; [reflexivity|]; cbn; now rewrite IH).
      rewrite D, map_map. apply map_ext_Forall. apply Forall_forall. intros v I. unfold kept.
      destruct (timed f) eqn:T; [|now apply passes_untimed].
      specialize (EX (or_intror eq_refl)). rewrite Forall_forall in EX. apply passes_eq. now apply EX. }
    rewrite CH, select_map2, map_map.
    replace (map (fun v => new_pattern f (pattern_of v)) (filter (kept f) vs)) with (map snd (evs_of f (filter (kept f) vs)))
      by (unfold evs_of; rewrite map_map; reflexivity).
    rewrite (consolidate_events p PS4 _ (evs_of f (filter (kept f) vs)) P).
    + unfold evs_of. rewrite map_map. reflexivity.
    + apply evs_ok. now apply Forall_filter.
    + rewrite tselect_values. unfold times_in, evs_of. rewrite map_map. cbn [fst].
      rewrite <- (select_map2 (kept f) (fun v => in_units PS4 (time_of v))). apply same_select.
      assert (R : same_values (tvalues (raw_t fin vs)) (map (fun v => inject_Z (time_of v)) vs)).
      { apply raw_exact. unfold exact_for. destruct fin; auto. }
      revert R. unfold same_values. generalize (tvalues (raw_t fin vs)) as l. clear. induction vs as [|v vs IH]; intros l R; inversion R; subst; cbn [map]; constructor; auto.
      rewrite in_units_pow. cbn [rexp]. change (pow2 0) with 1%Q. lra.
Qed.
Lemma format_raw p f vs : out p f PS4 false vs = (raw_t f vs, map pattern_of vs).
Proof. reflexivity. Qed.
Lemma converted_ok f v : word_ok v -> word_ok (converted f v).
Proof.
  intros H. unfold converted. apply word_of_ok. pose proof (evs_ok f [v]) as E. unfold evs_of in E. cbn [map] in E.
  assert (F : Forall word_ok [v]) by (constructor; [exact H|constructor]). specialize (E F). now inv E.
Qed.
Lemma encode_app f a b : encode f (a ++ b) = encode f a ++ encode f b.
Proof. unfold encode. now rewrite map_app, concat_app. Qed.
Lemma swrite_pieces p fin fout f cs : 54 <= p -> Forall word_ok (concat cs) -> filter_ok f -> (timed f = true -> in_order (concat cs)) ->
  (fin = A0 \/ timed f = true -> Forall exact53 (concat cs)) ->
  swrite p fout (inline_filter f PS4 (mkS (map (out p fin PS4 false) cs) None)) PS4
  = (encode fout (map (converted f) (filter (kept f) (concat cs))), None).
Proof.
  intros P W FO S EX. unfold swrite, inline_filter. cbn [batches fails].
  assert (E1 : Forall (fun c => exists t q, event_filter f PS4 (out p fin PS4 false c) = Ok (t, q) /\
     consolidate p t q PS4 = Ok (map (converted f) (filter (kept f) c)) /\ Forall word_ok c) cs).
  { assert (SC : timed f = true -> Forall in_order cs) by (intros T; apply ss_concat; now apply S).
    assert (EC : fin = A0 \/ timed f = true -> Forall (Forall exact53) cs) by (intros T; apply Forall_concat_inv; now apply EX).
    apply Forall_concat_inv in W. rewrite Forall_forall in *. intros c I. rewrite format_raw.
    destruct (filter_pack p fin f c P (W c I) FO) as (t & q & A & B).
    - intros T. specialize (SC T). rewrite ?Forall_forall in SC. auto.
    - intros T. specialize (EC T). rewrite ?Forall_forall in EC. auto.
    - exists t, q. auto. }
  clear S EX W. induction E1 as [|c cs (t & q & A & B & W) E1 IH]; [reflexivity|].
  cbn [map filter_batches concat]. rewrite A. cbn [batches fails].
  destruct (filter_batches f PS4 (map (out p fin PS4 false) cs) None) as [bb ff]. cbn [batches fails] in *. cbn [swrite_batches].
  rewrite B, IH. rewrite filter_app, map_app, encode_app, render_encode; [reflexivity|].
  apply Forall_map. apply Forall_filter. eapply Forall_impl; [|exact W]. apply converted_ok.
Qed.
Lemma convert_stream p fin fout f vs : 54 <= p -> Forall word_ok vs -> filter_ok f -> (timed f = true -> in_order vs) ->
  (fin = A0 \/ timed f = true -> Forall exact53 vs) -> bufferable fin vs ->
  convert p false fin fout f (encode fin vs) = (encode fout (map (converted f) (filter (kept f) vs)), None).
Proof.
  intros P W FO S EX B. unfold convert. destruct (sread_good p fin PS4 false DEFAULT_BUFFER vs W) as (cs & E & C & _); [reflexivity|assumption|].
  rewrite E. subst vs. now apply swrite_pieces.
Qed.
Lemma convert_memory p fin fout f vs : 54 <= p -> Forall word_ok vs -> filter_ok f -> (timed f = true -> in_order vs) ->
  (fin = A0 -> Forall exact53 vs) -> readable fin vs ->
  convert p true fin fout f (encode fin vs) = (encode fout (map (converted f) (filter (kept f) vs)), None).
Proof.
  intros P W FO S EX R. unfold convert. destruct (read_encode p fin NS1 true vs W) as [RE _]. rewrite (RE R). cbn [bind]. unfold out.
  set (T := format_timestamps p (raw_t fin vs) NS1 true).
  assert (V : same_values (tvalues T) (map (fun v => in_units NS1 (time_of v)) vs)).
  { apply format_exact; auto. unfold exact_for. destruct fin; auto. }
  assert (LT : length (tvalues T) = length vs) by (apply Forall2_length in V; now rewrite map_length in V).
  assert (KT : keys T = tvalues T) by reflexivity.
  assert (ST : timed f = true -> sortedQ (tvalues T)).
  { intros TT. specialize (S TT). clear -V S. unfold in_order in S. unfold sortedQ, same_values in *. revert V. generalize (tvalues T) as l.
    induction S as [|v vs S IH F]; intros l V; inversion V as [|x ? l0 ? EX EV]; subst; constructor; [now apply IH|].
    clear -F EX EV. revert l0 EV. induction F as [|w vs L F IH]; intros l0 EV; inversion EV as [|y ? l1 ? EY EV']; subst; constructor; [|now apply IH].
    rewrite EX, EY, !in_units_pow. apply Qmul_le; [apply pow2_pos|]. now rewrite <- Zle_Qle. }
  rewrite event_filter_spec; [|unfold batch_ok, tlen, len; cbn [fst snd]; now rewrite map_length, LT|assumption|apply patterns_ok_words|assumption].
  cbn [bind].
  assert (CH : chosen f NS1 T (map pattern_of vs) = map (kept f) vs).
  { unfold chosen. rewrite KT, combine_map_r, map_map. clear -V. revert V. unfold same_values. generalize (tvalues T) as l.
    induction vs as [|v vs IH]; intros l V; inversion V as [|x ? l0 ? EX EV]; subst; [reflexivity|]. cbn [combine map]. f_equal; [|now apply IH].
    unfold kept. rewrite (passes_eq _ _ _ _ _ EX). apply passes_ns. }
  rewrite CH, select_map2, map_map.
  replace (map (fun v => new_pattern f (pattern_of v)) (filter (kept f) vs)) with (map snd (evs_of f (filter (kept f) vs)))
    by (unfold evs_of; rewrite map_map; reflexivity).
  rewrite (write_events p fout NS1 _ (evs_of f (filter (kept f) vs)) P).
  - unfold evs_of. rewrite map_map. reflexivity.
  - apply evs_ok. now apply Forall_filter.
  - rewrite tselect_values. unfold times_in, evs_of. rewrite map_map. cbn [fst].
    rewrite <- (select_map2 (kept f) (fun v => in_units NS1 (time_of v))). now apply same_select.
Qed.

(** ** Sizes of a1 files *)
Lemma words_len l : len (words l) = len l / 4.
Proof.
  assert (G : forall n l, (length l < n)%nat -> len (words l) = len l / 4); [|apply (G (S (length l))); lia].
  induction n as [|n IH]; intros m H; [lia|]. destruct m as [|a [|b [|c [|d m]]]]; try reflexivity.
  cbn [words]. rewrite !len_cons, IH by (cbn in H; lia). pose proof (len_nonneg m). lia.
Qed.
Lemma reshape2_parity l : (len l mod 2 = 0 -> exists d, reshape2 l = Ok d) /\ (len l mod 2 <> 0 -> reshape2 l = Err ValueError).
Proof.
  assert (G : forall n l, (length l < n)%nat -> (len l mod 2 = 0 -> exists d, reshape2 l = Ok d) /\ (len l mod 2 <> 0 -> reshape2 l = Err ValueError));
    [|apply (G (S (length l))); lia].
  induction n as [|n IH]; intros m H; [lia|]. destruct m as [|a [|b m]].
  - split; [intros _; eexists; reflexivity|]. intros E. exfalso. apply E. reflexivity.
  - split; [|reflexivity]. intros E. discriminate E.
  - cbn [reshape2]. rewrite !len_cons. destruct (IH m) as [A B]; [cbn in H; lia|]. pose proof (len_nonneg m). split; intros E.
    + destruct A as [d ->]; [lia|]. eexists; reflexivity.
    + rewrite B by lia. reflexivity.
Qed.
Lemma decode_a1_size p lg r fr l : (len l / 4 mod 2 = 0 -> is_ok (decode_a1 p lg r fr (words l))) /\
  (len l / 4 mod 2 <> 0 -> decode_a1 p lg r fr (words l) = Err ValueError).
Proof.
  unfold decode_a1, is_ok. destruct (reshape2_parity (words l)) as [A B]. rewrite words_len in A, B. split; intros E.
  - destruct (A E) as [d ->]. cbn [bind]. eexists; reflexivity.
  - now rewrite B.
Qed.
Lemma a1_buffer p lg r fr l : (len l mod 8 = 0 -> is_ok (let* ws := frombuffer l in decode_a1 p lg r fr ws)) /\
  (len l mod 8 <> 0 -> (let* ws := frombuffer l in decode_a1 p lg r fr ws) = Err ValueError).
Proof.
  unfold frombuffer. destruct (decode_a1_size p lg r fr l) as [A B]. pose proof (len_nonneg l). split; intros E.
  - replace (len l mod 4 =? 0) with true by lia. cbn [bind]. apply A. lia.
  - destruct (len l mod 4 =? 0) eqn:M; [|reflexivity]. cbn [bind]. apply B. lia.
Qed.
Lemma reads_a1 p lg r fr b : 0 < b -> forall fuel l, (length l < fuel)%nat ->
  fails (run_stream (fun x => let* ws := frombuffer x in decode_a1 p lg r fr ws) (reads fuel (b * 8) l))
  = if len l mod 8 =? 0 then None else Some ValueError.
Proof.
  intros B. induction fuel as [|fuel IH]; intros l L; [lia|]. cbn [reads].
  destruct (Z.eq_dec (len l) 0) as [Z0|NZ].
  { apply len_0_nil in Z0. subst l. unfold take. rewrite firstn_nil. reflexivity. }
  pose proof (len_nonneg l) as LN. assert (LT : len (take (b * 8) l) = Z.min (b * 8) (len l)) by (apply len_take; lia).
  assert (LD : len (drop (b * 8) l) = Z.max 0 (len l - b * 8)) by (apply len_drop; lia).
  destruct (take (b * 8) l) as [|x y] eqn:T; [rewrite len_nil in LT; lia|]. rewrite <- T in *. cbn [run_stream]. clear T x y.
  destruct (a1_buffer p lg r fr (take (b * 8) l)) as [A1 A2].
  destruct (Z.le_gt_cases (len l) (b * 8)) as [C|C].
  - rewrite (take_all _ l C) in *. destruct (len l mod 8 =? 0) eqn:M.
    + destruct A1 as [d E]; [lia|]. rewrite E. cbn [fails]. rewrite IH.
      * rewrite LD. replace (Z.max 0 (len l - b * 8)) with 0 by lia. reflexivity.
      * unfold len in *. lia.
    + rewrite A2 by lia. reflexivity.
  - destruct A1 as [d E]; [rewrite LT, Z.min_l by lia; apply Z.mod_mul; lia|]. rewrite E. cbn [fails]. rewrite IH by (unfold len in *; lia).
    rewrite LD, Z.max_r by lia. replace ((len l - b * 8) mod 8) with (len l mod 8); [reflexivity|].
    symmetry. replace (len l - b * 8) with (len l + (- b) * 8) by lia. now apply Z.mod_add.
Qed.
Lemma sread_a1_size p file lg r fr b : 0 < b -> exists s n, sread_a1 p file lg r fr b = Ok (s, n) /\
  fails s = if len file mod 8 =? 0 then None else Some ValueError.
Proof.
  intros B. unfold sread_a1, num_batches. replace (b =? 0) with false by lia. cbn [bind]. eexists. eexists. split; [reflexivity|].
  unfold file_reads. replace (b * 8 <? 0) with false by lia. apply reads_a1; [assumption|lia].
Qed.
(** dropped bytes *)
Lemma words_take l : words l = words (take (len l / 4 * 4) l).
Proof.
  assert (G : forall n l, (length l < n)%nat -> words l = words (take (len l / 4 * 4) l)); [|apply (G (S (length l))); lia].
  induction n as [|n IH]; intros m H; [lia|]. destruct m as [|a [|b [|c [|d m]]]]; try reflexivity.
  pose proof (len_nonneg m). rewrite !len_cons. replace ((1 + (1 + (1 + (1 + len m)))) / 4 * 4) with (len m / 4 * 4 + 4) by lia.
  rewrite !take_cons by lia. replace (len m / 4 * 4 + 4 - 1 - 1 - 1 - 1) with (len m / 4 * 4) by lia.
  cbn [words]. f_equal. apply IH. cbn in H. lia.
Qed.
Lemma read_a1_size p file lg r fr :
  (4 <= len file mod 8 -> read_a1 p file lg r fr = Err ValueError) /\
  (len file mod 8 < 4 -> is_ok (read_a1 p file lg r fr) /\ read_a1 p file lg r fr = read_a1 p (take (len file / 8 * 8) file) lg r fr).
Proof.
  unfold read_a1. pose proof (len_nonneg file). destruct (decode_a1_size p lg r fr file) as [A B]. split; intros H1.
  - apply B. lia.
  - split; [apply A; lia|]. rewrite (words_take file). do 3 f_equal. lia.
Qed.
