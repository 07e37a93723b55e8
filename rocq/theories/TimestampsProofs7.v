(** The timestamp properties, assembled. *)
From Coq Require Import QArith Lqa ZifyBool Sorted.
From Verif Require Import Float Base TimestampsModel TimestampsSpec TimestampsStatements TimestampsProofs TimestampsProofs2 TimestampsProofs3 TimestampsProofs4 TimestampsProofs5 TimestampsProofs6.
Local Open Scope Z_scope.
Ltac Zify.zify_post_hook ::= Z.div_mod_to_equations.

Lemma units_words r evs : Forall event_ok evs -> map (fun v => in_units r (time_of v)) (map word_of evs) = times_in r evs.
Proof.
  intros O. unfold times_in. rewrite map_map. apply map_ext_Forall. eapply Forall_impl; [|exact O]. intros e H. now rewrite (proj1 (time_word e H)).
Qed.
Lemma round_trip p f r T evs : 54 <= p -> Forall event_ok evs -> same_values (tvalues T) (times_in r evs) ->
  readable f (map word_of evs) -> exact_for f (map word_of evs) -> round_trips p f r T evs.
Proof.
  intros P O S R X. exists (encode f (map word_of evs)). split; [now apply write_events|].
  pose proof (words_of_ok evs O) as W. destruct (times_words evs O) as [_ EP].
  split.
  - destruct (read_encode p f r true (map word_of evs) W) as [RE _]. rewrite (RE R). eexists. split; [unfold out; rewrite EP; reflexivity|].
    rewrite <- units_words by assumption. now apply format_exact.
  - destruct (read_encode p f PS4 false (map word_of evs) W) as [RE _]. rewrite (RE R). eexists. split; [unfold out; rewrite EP; reflexivity|].
    cbn [format_timestamps]. rewrite <- units_words by assumption.
    pose proof (raw_exact f (map word_of evs) X) as E. unfold same_values in *. revert E. generalize (tvalues (raw_t f (map word_of evs))) as l.
    generalize (map word_of evs) as vs. clear. induction vs as [|v vs IH]; intros l E; inversion E; subst; cbn [map]; constructor; auto.
    rewrite in_units_pow. cbn [rexp]. change (pow2 0) with 1%Q. lra.
Qed.
Lemma c19 p lg r T evs : 54 <= p -> Forall event_ok evs -> same_values (tvalues T) (times_in r evs) ->
  round_trips p (A1 lg) r T evs /\
  exists file, write p (A1 lg) T (map snd evs) r = Ok file /\ read_a1 p file lg PS4 false = Ok (TU64 (map fst evs), map snd evs).
Proof.
  intros P O S. split; [apply round_trip; cbn; auto|]. exists (encode (A1 lg) (map word_of evs)). split; [now apply write_events|].
  rewrite read_a1_encode by now apply words_of_ok. unfold out. cbn [raw_t format_timestamps]. destruct (times_words evs O) as [-> ->]. reflexivity.
Qed.
Definition same_half (evs : list event) : Prop :=
  Forall (fun e => fst e < 2 ^ 53) evs \/ Forall (fun e => 2 ^ 53 <= fst e) evs.
Lemma half_side evs : Forall event_ok evs -> (same_half evs <-> one_side (map word_of evs)).
Proof.
  intros O. unfold same_half, one_side. rewrite !Forall_map.
  assert (G : forall P Q : event -> Prop, (forall e, event_ok e -> (P e <-> Q e)) -> (Forall P evs <-> Forall Q evs)).
  { intros P Q H. rewrite !Forall_forall in *. split; intros F e I; apply (H e (O e I)); auto. }
  assert (G1 := G (fun e => fst e < 2 ^ 53) (fun e => word_of e < 2 ^ 63)). assert (G2 := G (fun e => 2 ^ 53 <= fst e) (fun e => 2 ^ 63 <= word_of e)).
  rewrite G1, G2; [reflexivity| |]; intros [t q]; unfold event_ok, word_of; cbn [fst snd]; lia.
Qed.
Lemma c20 p r T evs : 54 <= p -> Forall event_ok evs -> same_values (tvalues T) (times_in r evs) ->
  ((2 <= length evs)%nat /\ same_half evs -> round_trips p A2 r T evs) /\
  (~ ((2 <= length evs)%nat /\ same_half evs) -> exists file, write p A2 T (map snd evs) r = Ok file /\
     forall r' fr, read_a2 p file r' fr = Err TypeError).
Proof.
  intros P O S. rewrite half_side by assumption. split; intros H.
  - apply round_trip; auto; [cbn [readable]; now rewrite map_length|exact I].
  - exists (encode A2 (map word_of evs)). split; [now apply write_events|]. intros r' fr. apply read_a2_bad; [now apply words_of_ok|now rewrite map_length].
Qed.
Lemma exact_event evs : Forall event_ok evs -> Forall (fun e => fst e <= 2 ^ 53 \/ Z.even (fst e) = true) evs -> Forall exact53 (map word_of evs).
Proof.
  intros O E. apply Forall_map. rewrite Forall_forall in *. intros e I. specialize (O e I). specialize (E e I). unfold exact53.
  rewrite (proj1 (time_word e O)). destruct O as [O _]. destruct E as [E|E].
  - apply fl_int; lia.
  - apply Z.even_spec in E. destruct E as [k Hk]. rewrite Hk in *. rewrite Z.mul_comm, inject_Z_mult. change (inject_Z 2) with (pow2 1). apply fl_exact; lia.
Qed.
Lemma c21 p r T evs : 54 <= p -> Forall event_ok evs -> same_values (tvalues T) (times_in r evs) ->
  (evs <> [] -> Forall (fun e => fst e <= 2 ^ 53 \/ Z.even (fst e) = true) evs -> round_trips p A0 r T evs) /\
  (evs <> [] -> exists file, write p A0 T (map snd evs) r = Ok file /\
     read_a0 p file PS4 false = Ok (TF64 (map (fun e => fl 53 (inject_Z (fst e))) evs), map snd evs)) /\
  (evs = [] -> exists file, write p A0 T (map snd evs) r = Ok file /\ forall r' fr, read_a0 p file r' fr = Err TypeError).
Proof.
  intros P O S. split; [|split].
  - intros N E. apply round_trip; auto.
    + cbn [readable]. destruct evs; [congruence|discriminate].
    + cbn [exact_for]. now apply exact_event.
  - intros N. exists (encode A0 (map word_of evs)). split; [now apply write_events|].
    rewrite read_a0_encode by now apply words_of_ok. destruct evs as [|e evs]; [congruence|]. cbn [map]. 
    change (word_of e :: map word_of evs) with (map word_of (e :: evs)). unfold out. cbn [raw_t format_timestamps].
    destruct (times_words (e :: evs) O) as [E1 ->]. do 3 f_equal. rewrite <- (map_map time_of (fun t => fl 53 (inject_Z t))), E1, map_map. reflexivity.
  - intros ->. exists (encode A0 (map word_of [])). split; [now apply write_events|]. intros r' fr. apply read_a0_encode. constructor.
Qed.
Lemma c22 p r ts : 54 <= p -> Forall (fun t => 0 <= t < 2 ^ 54) ts ->
  (exists l, format_timestamps p (TU64 ts) r true = TLD l /\ same_values l (map (in_units r) ts)) /\
  format_timestamps p (TU64 ts) r false = TU64 (map (fun t => t * rvalue r / 256) ts).
Proof.
  intros P F. split.
  - eexists. split; [reflexivity|]. cbn [tvalues]. rewrite map_map. unfold same_values. induction F as [|t ts H F IH]; [constructor|].
    cbn [map]. constructor; [|exact IH]. apply format_frac; [assumption|assumption|reflexivity].
  - cbn [format_timestamps]. destruct r; cbn [rvalue]; f_equal.
    + apply map_ext. intros t. now rewrite Z.mul_1_r.
    + apply map_ext. intros t. change (256 / 8) with 32. rewrite <- (Z.div_mul_cancel_r t 32 8) by lia. reflexivity.
    + rewrite <- (map_id ts) at 1. apply map_ext. intros t. now rewrite Z.div_mul by lia.
Qed.
Lemma c22_read p f r vs : 54 <= p -> Forall word_ok vs -> readable f vs -> (f = A0 -> Forall exact53 vs) ->
  exists T T', read p f (encode f vs) r true = Ok (T, map pattern_of vs) /\ read p f (encode f vs) r false = Ok (T', map pattern_of vs) /\
    same_values (tvalues T) (map (fun v => in_units r (time_of v)) vs) /\
    same_values (tvalues T') (map (fun v => inject_Z (time_of v * rvalue r / 256)) vs).
Proof.
  intros P W R X. assert (E : exact_for f vs) by (unfold exact_for; destruct f; auto).
  destruct (read_encode p f r true vs W) as [R1 _]. destruct (read_encode p f r false vs W) as [R2 _]. rewrite (R1 R), (R2 R).
  eexists. eexists. split; [reflexivity|]. split; [reflexivity|]. split; [now apply format_exact|now apply format_floor].
Qed.
Lemma out_joined p f r fr cs : joined (map fst (map (out p f r fr) cs)) (fst (out p f r fr (concat cs))).
Proof.
  rewrite map_map. unfold out. cbn [fst].
  assert (MC : forall {X} (h : Z -> X) l, map h (concat l) = concat (map (map h) l)) by (intros X h l; apply concat_map).
  destruct fr.
  - cbn [format_timestamps]. 
    assert (E : exists h, forall c, TLD (map (fun x => fl p (fl p x / (inject_Z 256 / inject_Z (rvalue r)))%Q) (tvalues (raw_t f c))) = TLD (map h c)).
    { destruct f; cbn [raw_t tvalues]; eexists; intros c; rewrite !map_map; reflexivity. }
    destruct E as [h E]. rewrite E, (map_ext _ _ E), MC. rewrite <- (map_map (map h) TLD). constructor.
  - assert (E : (exists h, forall c, format_timestamps p (raw_t f c) r false = TU64 (map h c)) \/
                (exists h, forall c, format_timestamps p (raw_t f c) r false = TF64 (map h c))).
    { destruct r, f; cbn [raw_t format_timestamps]; try (left; eexists; intros c; rewrite ?map_map; reflexivity);
        right; eexists; intros c; reflexivity. }
    destruct E as [[h E]|[h E]]; rewrite E, (map_ext _ _ E), MC.
    + rewrite <- (map_map (map h) TU64). constructor.
    + rewrite <- (map_map (map h) TF64). constructor.
Qed.
Lemma out_batch p f r fr c : batch_ok (out p f r fr c).
Proof.
  unfold batch_ok, out. cbn [fst snd]. unfold tlen. unfold len. rewrite map_length. f_equal.
  destruct fr, r, f; cbn [format_timestamps raw_t tvalues]; now rewrite ?map_length.
Qed.
Lemma c23 p f r fr b vs : Forall word_ok vs -> 0 < b ->
  (readable f vs -> streams_like (read p f (encode f vs) r fr) (sread p f (encode f vs) r fr b) b) /\
  (~ readable f vs -> read p f (encode f vs) r fr = Err TypeError).
Proof.
  intros W B. split; [|apply read_encode; assumption]. intros R. destruct (read_encode p f r fr vs W) as [RE _]. specialize (RE R).
  destruct (sread_good p f r fr b vs W B) as (cs & E & C & L & Q).
  { unfold bufferable. destruct f; auto. apply R. }
  exists (mkS (map (out p f r fr) cs) None), (fst (out p f r fr vs)), (snd (out p f r fr vs)).
  split; [exact RE|]. split; [rewrite E; cbn [batches]; now rewrite len_map|]. split; [reflexivity|]. cbn [batches]. subst vs.
  split; [apply out_joined|]. split; [unfold out; rewrite map_map; cbn [snd]; symmetry; apply concat_map|].
  split; [apply Forall_map, Forall_forall; intros c _; apply out_batch|].
  intros bs x EQ. apply map_eq_app in EQ. destruct EQ as (c1 & c2 & E1 & E2 & E3). subst bs. destruct c2 as [|c c2]; [discriminate|].
  destruct c2; [|discriminate]. injection E3 as <-. subst cs. split.
  - apply Forall_map. eapply Forall_impl; [|exact (Q c1 c eq_refl)]. intros y Hy. unfold out. cbn [snd]. now rewrite len_map.
  - unfold out. cbn [snd]. rewrite len_map. apply Forall_app in L as [_ L]. now inv L.
Qed.
Lemma c24 p f r bs T P : Forall batch_ok bs -> tvalues T = concat (map (fun b => tvalues (fst b)) bs) -> P = concat (map snd bs) ->
  forall file, write p f T P r = Ok file <-> swrite p f (mkS bs None) r = (file, None).
Proof.
  intros B ET EP file. pose proof (swrite_write p f r bs T P B ET EP) as H. destruct (write p f T P r) as [o|e].
  - rewrite H. split; intros E; inv E; reflexivity.
  - destruct H as [o H]. rewrite H. split; intros E; discriminate E.
Qed.
(** the time reported, in ns *)
Lemma scalar_div_ld p x t : 54 <= p -> (x == fl p x)%Q -> (scalar_div p (TLD t) x NS1 == x)%Q.
Proof.
  intros P E. cbn [scalar_div rvalue]. rewrite (fl_eq p _ x); [now symmetry|]. change (inject_Z 1) with 1%Q. field.
Qed.
Lemma scalar_div_raw p t x : (scalar_div p (TU64 t) (inject_Z x) PS4 == fl 53 (inject_Z x) / inject_Z 256)%Q.
Proof.
  cbn [scalar_div rvalue]. rewrite (fl_eq 53 _ (fl 53 (inject_Z x) * pow2 (-8))%Q).
  - rewrite fl_scale, fl_idem by lia. change (pow2 (-8)) with (1 # 256). change (inject_Z 256) with (256 # 1). field.
  - change (pow2 (-8)) with (1 # 256). change (inject_Z 256) with (256 # 1). field.
Qed.
Definition oeq (a b : option Q) : Prop := match a, b with Some x, Some y => (x == y)%Q | None, None => True | _, _ => False end.
Lemma first_same a b : same_values a b -> oeq (first a) (first b).
Proof. intros H. inversion H; subst; cbn; auto. Qed.
Lemma same_rev a b : same_values a b -> same_values (rev a) (rev b).
Proof.
  unfold same_values. induction 1 as [|x y a b E H IH]; [constructor|]. cbn. apply Forall2_app; [exact IH|]. now repeat constructor.
Qed.
Lemma final_same a b : same_values a b -> oeq (final a) (final b).
Proof. intros H. unfold final. now apply first_same, same_rev. Qed.
Lemma c25_same p bs T : 54 <= p -> joined (map fst bs) (TLD T) -> Forall batch_ok bs -> Forall pattern_ok (concat (map snd bs)) ->
  concat (map snd bs) <> [] -> Forall (fun x => x == fl p x)%Q T ->
  exists s s', print_statistics_stream p (mkS bs None) NS1 = Ok s /\ print_statistics (TLD T) (concat (map snd bs)) = Ok s' /\
    counts_right s (concat (map snd bs)) /\ counts_right s' (concat (map snd bs)) /\
    oeq (start_t s) (start_t s') /\ oeq (end_t s) (end_t s').
Proof.
  intros P J B F N X. destruct (stream_stats p NS1 bs F) as (s & E & C & A & Z).
  destruct (memory_stats (TLD T) (concat (map snd bs))) as (s' & E' & C' & A' & Z'); auto.
  { unfold tlen. rewrite (joined_values _ _ J), map_map. clear -B. induction B as [|b bs Hb B IH]; [reflexivity|]. cbn [map concat].
    rewrite !len_app, IH. unfold batch_ok, tlen in Hb. lia. }
  assert (SV : same_values (concat (map (scaled p NS1) bs)) T).
  { pose proof (joined_values _ _ J) as JV. cbn [tvalues] in JV. rewrite map_map in JV.
    assert (LD : Forall (fun b => exists l, fst b = TLD l) bs).
    { inversion J as [|ls E1 E2|ls E1 E2]. clear -E1. revert bs E1. induction ls as [|l ls IH]; intros [|b bs] E; try discriminate; constructor; injection E as E2 E3; eauto. }
    subst T. clear -P X LD. unfold same_values. induction LD as [|[t q] bs [l Hl] LD IH]; [constructor|]. cbn [map concat fst] in *. subst t.
    apply Forall_app in X as [X1 X2]. apply Forall2_app; [|now apply IH]. unfold scaled. cbn [fst tvalues] in *. clear -P X1.
    generalize l at 1. intros l0. induction X1 as [|x l E X IH]; cbn [map]; constructor; auto. now apply (scalar_div_ld p x l0). }
  exists s, s'. rewrite A, A', Z, Z'. cbn [tvalues]. split; [exact E|]. split; [exact E'|]. split; [exact C|]. split; [exact C'|].
  split; [now apply first_same|now apply final_same].
Qed.
Lemma c27 t s e r : sortedQ (tvalues t) -> match t with TU64 l => Forall (fun v => (fl 53 (inject_Z v) == inject_Z v)%Q) l | _ => True end ->
  get_timing_mask t s e r = Ok (map (within (bounds r s) (bounds r e)) (tvalues t)).
Proof.
  intros S X. rewrite timing_mask_spec by assumption. f_equal. destruct t as [l|l|l]; cbn [keys tvalues]; try reflexivity.
  rewrite !map_map. apply map_ext_Forall. eapply Forall_impl; [|exact X]. cbn. intros v E.
  apply within_eq; try tauto; intros a b H1 H2; rewrite H1 in H2; inv H2; apply Qle_bool_eq; auto; reflexivity.
Qed.
