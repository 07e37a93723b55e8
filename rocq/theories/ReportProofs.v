From Coq Require Import QArith Qabs Qround String Lia Lqa.
From Verif Require Import Float Base TimestampsModel TimestampsSpec TimestampsProofs TimestampsProofs2 TimestampsProofs3 TimestampsProofs4 TimestampsProofs5 TimestampsProofs7
  FpfindModel FpfindSpec FpfindProofs3 ReportModel ReportSpec.
Local Open Scope Z_scope.

(** ** Every batch has as many times as patterns, and patterns of four bits *)
Definition good (b : tarr * list Z) : Prop := batch_ok b /\ Forall pattern_ok (snd b).
Lemma land15_ok v : pattern_ok (Z.land v 15).
Proof. change 15 with (Z.ones 4). rewrite Z.land_ones by lia. unfold pattern_ok. change 16 with (2 ^ 4). apply Z.mod_pos_bound. lia. Qed.
Lemma format_len p t r fr : tlen (format_timestamps p t r fr) = tlen t.
Proof. unfold tlen, len. destruct fr, r, t; cbn [format_timestamps tvalues]; now rewrite ?map_length. Qed.
Lemma lands_ok {A} (g : A -> Z) l : Forall pattern_ok (map (fun d => Z.land (g d) 15) l).
Proof. rewrite Forall_map. apply Forall_forall. intros x _. apply land15_ok. Qed.
Lemma decode_a1_good p lg r fr ws b : decode_a1 p lg r fr ws = Ok b -> good b.
Proof.
  unfold decode_a1. destruct (reshape2 ws); cbn [bind]; [|discriminate]. intros H. inv H. split; [|apply lands_ok].
  unfold batch_ok. cbn [fst snd]. rewrite format_len. unfold tlen, len. cbn [tvalues]. now rewrite !map_length.
Qed.
Lemma decode_a0_good p r fr vs b : decode_a0 p r fr vs = Ok b -> good b.
Proof.
  unfold decode_a0. destruct (reshape2 vs); cbn [bind]; [|discriminate]. destruct (np_array vs); intros H; inv H;
  (split; [|apply lands_ok]); unfold batch_ok; cbn [fst snd]; rewrite format_len; unfold tlen, len; cbn [tvalues]; now rewrite !map_length.
Qed.
Lemma decode_a2_good p r fr vs b : decode_a2 p r fr vs = Ok b -> good b.
Proof.
  unfold decode_a2. destruct (np_array vs); intros H; inv H;
  (split; [|apply lands_ok]); unfold batch_ok; cbn [fst snd]; rewrite format_len; unfold tlen, len; cbn [tvalues]; now rewrite !map_length.
Qed.
Lemma read_good p f file r fr b : read p f file r fr = Ok b -> good b.
Proof.
  destruct f; cbn [read].
  - unfold read_a0. destruct (genfromtxt 8 file); cbn [bind]; [|discriminate]. destruct (mapM int16 a); cbn [bind]; [|discriminate]. apply decode_a0_good.
  - apply decode_a1_good.
  - unfold read_a2. destruct (genfromtxt 16 file); cbn [bind]; [|discriminate]. destruct (mapM int16 a); cbn [bind]; [|discriminate]. apply decode_a2_good.
Qed.
Lemma run_stream_good g bufs : (forall x b, g x = Ok b -> good b) -> Forall good (batches (run_stream g bufs)).
Proof.
  intros G. induction bufs as [|x l IH]; [constructor|]. cbn [run_stream]. destruct (g x) eqn:E; cbn [batches]; [|constructor]. constructor; [eapply G; eassumption|exact IH].
Qed.
Lemma sread_goods p f file r fr b s n : sread p f file r fr b = Ok (s, n) -> Forall good (batches s).
Proof.
  rewrite sread_eq. destruct (num_batches _ _ _); cbn [bind]; [|discriminate]. intros H. inv H. apply run_stream_good. intros x y.
  destruct f.
  - destruct (parse_lines x); cbn [bind]; [|discriminate]. apply decode_a0_good.
  - destruct (frombuffer x); cbn [bind]; [|discriminate]. apply decode_a1_good.
  - destruct (parse_lines x); cbn [bind]; [|discriminate]. apply decode_a2_good.
Qed.
(** ** The filters keep it so *)
Lemma land_sub_ok v w : pattern_ok v -> pattern_ok (Z.land v w).
Proof.
  intros V. replace v with (Z.land v 15).
  - rewrite <- Z.land_assoc, (Z.land_comm 15), Z.land_assoc. apply land15_ok.
  - unfold pattern_ok in V. change 15 with (Z.ones 4). rewrite Z.land_ones by lia. apply Z.mod_small. change (2 ^ 4) with 16. lia.
Qed.
Lemma lxor_sub v w : Z.lxor v (Z.land v w) = Z.land v (Z.lnot w).
Proof. apply Z.bits_inj'. intros n N. rewrite Z.lxor_spec, !Z.land_spec, Z.lnot_spec by lia. destruct (Z.testbit v n), (Z.testbit w n); reflexivity. Qed.
Lemma land16 w : Z.land 16 w = 0 \/ Z.land 16 w = 16.
Proof.
  destruct (Z.testbit w 4) eqn:B; [right|left]; apply Z.bits_inj'; intros n N; rewrite Z.land_spec, ?Z.bits_0; change 16 with (2 ^ 4);
  rewrite (Z.pow2_bits_eqb 4 n) by lia; destruct (4 =? n) eqn:E; try reflexivity; apply Z.eqb_eq in E; subst n; rewrite B; reflexivity.
Qed.
Lemma pattern_mask_good pats v m i : Forall pattern_ok pats ->
  length (fst (get_pattern_mask pats v m i)) = length pats /\
  length (snd (get_pattern_mask pats v m i)) = length (select (fst (get_pattern_mask pats v m i)) pats) /\
  Forall pattern_ok (snd (get_pattern_mask pats v m i)).
Proof.
  intros F. unfold get_pattern_mask. destruct m; cbn [negb]; [destruct i; cbn [negb]|]; cbn [fst snd].
  - rewrite !map_length. split; [reflexivity|]. split; [apply select_length; now rewrite !map_length|].
    rewrite Forall_map. apply Forall_select. rewrite !Forall_map. eapply Forall_impl; [|exact F]. intros x X.
    rewrite lxor_sub. destruct (x =? 0).
    + destruct (land16 (Z.lnot v)) as [-> | ->]; unfold pattern_ok; cbn; lia.
    + pose proof (land_sub_ok x (Z.lnot v) X) as L. unfold pattern_ok in *. destruct (_ =? 16) eqn:E; lia.
  - rewrite !map_length. split; [reflexivity|]. split; [apply select_length; now rewrite !map_length|].
    apply Forall_select. rewrite Forall_map. eapply Forall_impl; [|exact F]. intros x X. now apply land_sub_ok.
  - split; [destruct i; now rewrite ?map_length|]. split; [reflexivity|]. now apply Forall_select.
Qed.
Lemma event_filter_good f r b b' : good b -> event_filter f r b = Ok b' -> good b'.
Proof.
  destruct b as [t pats]. intros [B F]. unfold batch_ok in B. cbn [fst snd] in *. unfold event_filter.
  set (p1 := match f_pattern f with None => (t, pats) | Some v => let '(m, q) := get_pattern_mask pats v (f_mask f) (f_invert f) in (tselect m t, q) end).
  assert (G : tlen (fst p1) = len (snd p1) /\ Forall pattern_ok (snd p1)).
  { unfold p1. destruct (f_pattern f) as [v|]; [|now split]. destruct (pattern_mask_good pats v (f_mask f) (f_invert f) F) as (L & L2 & G).
    destruct (get_pattern_mask pats v (f_mask f) (f_invert f)) as [m q]. cbn [fst snd] in *. split; [|exact G].
    unfold tlen, len in *. rewrite tselect_values, L2. f_equal. apply select_length. lia. }
  destruct p1 as [t1 q1]. cbn [fst snd] in G. destruct G as [G1 G2].
  assert (H : forall m, good (tselect m t1, select m q1)).
  { intros m. split; [|cbn [snd]; now apply Forall_select]. unfold batch_ok. cbn [fst snd]. unfold tlen, len in *. rewrite tselect_values.
    f_equal. apply select_length. lia. }
  destruct (f_start f) eqn:S, (f_end f) eqn:E; try (intros X; inv X; split; [exact G1|exact G2]);
  (destruct (get_timing_mask _ _ _ _); cbn [bind]; [|discriminate]; intros X; inv X; apply H).
Qed.
Lemma filter_batches_good f r bs fin : Forall good bs -> Forall good (batches (filter_batches f r bs fin)).
Proof.
  induction 1 as [|b bs B F IH]; [constructor|]. cbn [filter_batches]. destruct (event_filter f r b) eqn:E; cbn [batches]; [|constructor].
  constructor; [eapply event_filter_good; eassumption|exact IH].
Qed.
(** ** The statistics of a report *)
Lemma goods_len p r bs : Forall good bs -> len (concat (map (scaled p r) bs)) = len (concat (map snd bs)).
Proof.
  induction 1 as [|b bs [B _] F IH]; [reflexivity|]. cbn [map concat]. rewrite !len_app, IH. f_equal. unfold scaled. unfold batch_ok, tlen in B.
  unfold len in *. rewrite map_length. exact B.
Qed.
Lemma goods_patterns bs : Forall good bs -> Forall pattern_ok (concat (map snd bs)).
Proof. induction 1 as [|b bs [_ B] F IH]; [constructor|]. cbn [map concat]. apply Forall_app. now split. Qed.
Lemma report_spec p inm f flt file s : report p inm f flt file = Ok s ->
  exists T pats, len T = len pats /\ Forall pattern_ok pats /\ counts_right s pats /\ start_t s = first T /\ end_t s = final T.
Proof.
  assert (ST : forall str r, Forall good (batches str) -> print_statistics_stream p str r = Ok s ->
    exists T pats, len T = len pats /\ Forall pattern_ok pats /\ counts_right s pats /\ start_t s = first T /\ end_t s = final T).
  { intros [bs e] r G P. unfold print_statistics_stream in P. cbn [fails batches] in *. destruct e; [discriminate|].
    pose proof (goods_patterns bs G) as GP. destruct (stream_stats p r bs GP) as (s' & P' & C & A & B). unfold print_statistics_stream in P'. cbn [fails batches] in P'.
    rewrite P in P'. inv P'. exists (concat (map (scaled p r) bs)), (concat (map snd bs)). split; [now apply goods_len|]. auto. }
  unfold report. destruct inm.
  - destruct (read p f file NS1 true) as [b|] eqn:R; cbn [bind]; [|discriminate]. apply read_good in R.
    destruct (event_filter flt NS1 b) as [[t pats]|] eqn:E; cbn [bind]; [|discriminate]. pose proof (event_filter_good _ _ _ _ R E) as [G1 G2].
    unfold batch_ok in G1. cbn [fst snd] in G1, G2. intros P. exists (tvalues t), pats. split; [exact G1|]. split; [exact G2|].
    destruct pats as [|v pats].
    + unfold tlen, len in G1. destruct (tvalues t) eqn:TV; [|cbn in G1; lia]. unfold print_statistics in P. rewrite TV in P. discriminate.
    + destruct (memory_stats t (v :: pats) G1) as (s' & P' & C & A & B); [discriminate|exact G2|]. rewrite P in P'. inv P'. auto.
  - destruct (has_filtering flt).
    + destruct (sread p f file NS1 true DEFAULT_BUFFER) as [[str n]|] eqn:R; cbn [bind]; [|discriminate]. apply sread_goods in R.
      apply ST. unfold inline_filter. now apply filter_batches_good.
    + destruct (sread p f file PS4 false DEFAULT_BUFFER) as [[str n]|] eqn:R; cbn [bind]; [|discriminate]. apply sread_goods in R. now apply ST.
Qed.
