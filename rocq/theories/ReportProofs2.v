From Coq Require Import QArith Qabs Qround String Lia Lqa.
From Verif Require Import Float Base TimestampsModel TimestampsSpec TimestampsProofs TimestampsProofs2 TimestampsProofs4 TimestampsProofs5 TimestampsProofs7
  FpfindModel FpfindSpec FpfindProofs3 ReportModel ReportSpec ReportProofs.
Local Open Scope Z_scope.

(** ** Rounding keeps nonzero values nonzero *)
Lemma fl_zero q x : 1 <= q -> (fl q x == 0)%Q -> (x == 0)%Q.
Proof.
  intros Q1 E. destruct (Qeq_dec x 0) as [|NZ]; [assumption|exfalso]. pose proof (fl_err q x) as H. rewrite E in H.
  assert (A : (Qabs (0 - x) == Qabs x)%Q) by (rewrite <- (Qabs_opp x); apply Qabs_wd; ring). rewrite A in H. clear A.
  assert (P : (pow2 (- q) <= 1 # 2)%Q) by (change (1 # 2)%Q with (pow2 (-1)); apply pow2_le; lia).
  assert (X : (0 < Qabs x)%Q). { pose proof (Qabs_nonneg x) as N. destruct (Qlt_le_dec 0 (Qabs x)) as [|L]; [assumption|]. exfalso. apply NZ.
    assert (Z0 : (Qabs x == 0)%Q) by lra. pose proof (Qle_Qabs x). pose proof (Qle_Qabs (- x)) as N2. rewrite Qabs_opp in N2. lra. }
  assert (M : (pow2 (- q) * Qabs x <= (1 # 2) * Qabs x)%Q) by (apply Qmult_le_compat_r; lra). lra.
Qed.
Lemma nano_pos : (0 < NANO)%Q.
Proof. vm_compute. reflexivity. Qed.
Lemma duration_zero q a b : 1 <= q -> (fl q (fl q (b - a) * NANO) == 0 <-> a == b)%Q.
Proof.
  intros Q1. split; intros E.
  - apply fl_zero in E; [|assumption]. assert (N : (fl q (b - a) == 0)%Q).
    { apply Qmult_integral in E as [E|E]; [assumption|]. exfalso. pose proof nano_pos. lra. }
    apply fl_zero in N; [|assumption]. lra.
  - rewrite (fl_0 q (_ * _)); [reflexivity|]. rewrite (fl_0 q (b - a)); [ring|]. lra.
Qed.

(** ** When printing ends with an exception *)
Lemma first_some {A} (l : list A) : 0 < len l -> exists x, first l = Some x.
Proof. destruct l; [unfold len; cbn [length]; lia|]. intros _. eexists. reflexivity. Qed.
Lemma final_some {A} (l : list A) : 0 < len l -> exists x, final l = Some x.
Proof. intros L. apply first_some. unfold len in *. now rewrite rev_length. Qed.
Lemma report_times p inm f flt file s : report p inm f flt file = Ok s -> num_events s <> 0 ->
  0 < num_events s /\ exists a b, start_t s = Some a /\ end_t s = Some b.
Proof.
  intros R N. destruct (report_spec _ _ _ _ _ _ R) as (T & pats & L & _ & C & A & B). destruct C as (C & _).
  assert (P : 0 < len T) by (rewrite L, <- C; pose proof (len_nonneg pats); lia). split; [lia|].
  destruct (first_some T P) as [a EA], (final_some T P) as [b EB]. exists a, b. split; congruence.
Qed.
Lemma print_outcome lg p inm fin flt name file s : 1 <= p -> report p inm fin flt file = Ok s ->
  (num_events s = 0 \/ ~ same_time (start_t s) (end_t s) -> snd (print_main lg p inm fin flt name file) = None) /\
  (num_events s <> 0 -> same_time (start_t s) (end_t s) -> snd (print_main lg p inm fin flt name file) = Some OverflowError).
Proof.
  intros P R. unfold print_main. rewrite R. set (q := if inm || has_filtering flt then p else 53).
  assert (Q1 : 1 <= q) by (unfold q; destruct (_ || _); lia). clearbody q. unfold print_report.
  destruct (num_events s =? 0) eqn:N; [split; [reflexivity|lia]|]. destruct (report_times _ _ _ _ _ _ R ltac:(lia)) as (PN & a & b & EA & EB).
  rewrite EA, EB. cbn [same_time]. destruct (Qeq_bool (fl q (fl q (b - a) * NANO)) 0) eqn:Z0; cbn [snd].
  - apply Qeq_bool_iff in Z0. apply duration_zero in Z0; [|assumption]. split; [|reflexivity]. intros [X|X]; [lia|contradiction].
  - split; [reflexivity|]. intros _ E. exfalso. apply (duration_zero q) in E; [|assumption]. apply Qeq_bool_iff in E. congruence.
Qed.

(** ** The statistics of a file *)
Definition reported (v : Z) : Q := (fl 53 (inject_Z (time_of v)) / inject_Z 256)%Q.
Lemma scaled_raw p f vs : same_values (scaled p PS4 (out p f PS4 false vs)) (map reported vs).
Proof.
  unfold scaled, out. cbn [fst format_timestamps]. unfold same_values, reported. destruct f; cbn [raw_t tvalues].
  - generalize (map (fun v => fl 53 (inject_Z (time_of v))) vs) at 1. intros l0. induction vs as [|v vs IH]; cbn [map]; constructor; auto.
    transitivity (scalar_div p (TU64 []) (inject_Z (time_of v)) PS4); [|apply scalar_div_raw]. cbn [scalar_div]. reflexivity.
  - rewrite map_map. generalize (map time_of vs) at 1. intros l0. induction vs as [|v vs IH]; cbn [map]; constructor; auto. apply scalar_div_raw.
  - rewrite map_map. generalize (map time_of vs) at 1. intros l0. induction vs as [|v vs IH]; cbn [map]; constructor; auto. apply scalar_div_raw.
Qed.
Lemma file_stats p f vs : Forall word_ok vs -> (f = A2 -> one_side vs) ->
  exists s, report p false f any (encode f vs) = Ok s /\ counts_right s (map pattern_of vs) /\
    oeq (start_t s) (option_map reported (first vs)) /\ oeq (end_t s) (option_map reported (final vs)).
Proof.
  intros W S. destruct (sread_good p f PS4 false DEFAULT_BUFFER vs W) as (cs & E & C & L & _).
  { reflexivity. } { destruct f; cbn; auto. }
  unfold report. cbn [has_filtering any f_pattern f_start f_end]. rewrite E. cbn [bind].
  assert (PT : concat (map snd (map (out p f PS4 false) cs)) = map pattern_of vs).
  { rewrite map_map. unfold out. cbn [snd]. subst vs. symmetry. apply concat_map. }
  destruct (stream_stats p PS4 (map (out p f PS4 false) cs)) as (s & P & CR & A & B).
  { rewrite PT, Forall_map. apply Forall_forall. intros v _. unfold pattern_of. unfold pattern_ok. change 16 with (2 ^ 4). apply Z.mod_pos_bound. lia. }
  exists s. split; [exact P|]. rewrite PT in CR. split; [exact CR|].
  assert (SV : same_values (concat (map (scaled p PS4) (map (out p f PS4 false) cs))) (map reported vs)).
  { subst vs. rewrite concat_map, map_map. clear. induction cs as [|c cs IH]; [constructor|]. cbn [map concat]. apply Forall2_app; [apply scaled_raw|exact IH]. }
  rewrite A, B, <- first_map, <- final_map. split; [now apply first_same|now apply final_same].
Qed.
Lemma c82_file lg p fin name vs v0 v1 : 1 <= p -> Forall word_ok vs -> (fin = A2 -> one_side vs) -> first vs = Some v0 -> final vs = Some v1 ->
  snd (print_main lg p false fin any name (encode fin vs)) =
  if Qeq_bool (fl 53 (inject_Z (time_of v0))) (fl 53 (inject_Z (time_of v1))) then Some OverflowError else None.
Proof.
  intros P W S F0 F1. destruct (file_stats p fin vs W S) as (s & R & C & A & B). rewrite F0 in A. rewrite F1 in B. cbn [option_map] in A, B.
  destruct (print_outcome lg p false fin any name _ s P R) as [O1 O2]. destruct (start_t s) as [a|]; [|contradiction]. destruct (end_t s) as [b|]; [|contradiction].
  cbn [oeq same_time] in *. unfold reported in A, B.
  assert (N : num_events s <> 0). { destruct C as (C & _). rewrite C, len_map. destruct vs; [discriminate|]. unfold len. cbn [length]. lia. }
  change (inject_Z 256) with (256 # 1) in *.
  destruct (Qeq_bool _ _) eqn:E.
  - apply Qeq_bool_iff in E. apply O2; [assumption|]. rewrite A, B, E. reflexivity.
  - apply Qeq_bool_neq in E. apply O1. right. intros X. apply E. rewrite A, B in X. unfold Qdiv in X. rewrite !(Qmult_comm _ (/ (256 # 1))) in X.
    apply Qmult_inj_l in X; [assumption|]. discriminate.
Qed.

(** ** Widths *)
Lemma value_snoc a c : value (a ++ [c]) = 10 * value a + (c - 48).
Proof. rewrite value_app. reflexivity. Qed.
Lemma len_snoc {A} (a : list A) c : len (a ++ [c]) = len a + 1.
Proof. rewrite len_app. reflexivity. Qed.
Lemma pow10_snoc n : 0 <= n -> 10 ^ (n + 1) = 10 * 10 ^ n.
Proof. intros N. rewrite Z.pow_add_r by lia. change (10 ^ 1) with 10. lia. Qed.
Lemma value_upper ds : Forall digit ds -> 0 <= value ds < 10 ^ len ds.
Proof.
  induction ds as [|c ds IH] using rev_ind; [intros _; unfold value, len; cbn [fold_left length]; change (10 ^ Z.of_nat 0) with 1; lia|]. intros F. apply Forall_app in F as [F1 F2]. inv F2. specialize (IH F1).
  rewrite value_snoc, len_snoc, pow10_snoc by apply len_nonneg. unfold digit in *. lia.
Qed.
Lemma value_lower ds : Forall digit ds -> ds <> [] -> hd 0 ds <> 48 -> 10 ^ (len ds - 1) <= value ds.
Proof.
  induction ds as [|c ds IH] using rev_ind; [congruence|]. intros F _ H. apply Forall_app in F as [F1 F2]. inv F2.
  rewrite value_snoc, len_snoc. destruct ds as [|d ds].
  - cbn [app hd] in H. unfold digit in *. change (10 ^ (len (@nil Z) + 1 - 1)) with 1. change (value []) with 0. lia.
  - specialize (IH F1 ltac:(discriminate) H). set (l := d :: ds) in *. assert (L : 1 <= len l) by (unfold l, len; cbn [length]; lia).
    replace (len l + 1 - 1) with (len l - 1 + 1) by lia. rewrite pow10_snoc by lia. unfold digit in *. lia.
Qed.
Lemma decimal_len s n w : decimal s n -> 0 <= n < 10 ^ w -> 1 <= w -> len s <= w.
Proof.
  intros (ds & -> & NE & F & V & HD & HZ) N W. replace (n <? 0) with false by lia. cbn [app]. destruct (Z.eq_dec n 0) as [E|E].
  - rewrite (HZ E). change (len [48]) with 1. lia.
  - pose proof (value_lower ds F NE (HD E)) as L. rewrite V, Z.abs_eq in L by lia. destruct (Z_lt_le_dec w (len ds)) as [B|B]; [exfalso|exact B].
    assert (10 ^ w <= 10 ^ (len ds - 1)) by (apply Z.pow_le_mono_r; lia). lia.
Qed.
Lemma log10_exists : log10_ok (fun n => len (dec n) - 1).
Proof.
  intros n N. destruct (dec_spec n) as (ds & E & NE & F & V & HD & _). rewrite E. replace (n <? 0) with false by lia. cbn [app].
  specialize (HD ltac:(lia)). pose proof (value_lower ds F NE HD) as L. pose proof (value_upper ds F) as U. rewrite V, Z.abs_eq in L, U by lia.
  split; [destruct ds; [congruence|unfold len; cbn [length]; lia]|]. replace (len ds - 1 + 1) with (len ds) by lia. lia.
Qed.
Lemma c82_refuted : ~ C82_statement.
Proof.
  intros H. specialize (H _ 64 (A1 false) [] [word_of (5, 1)] log10_exists ltac:(lia)).
  assert (W : Forall word_ok [word_of (5, 1)]) by (repeat constructor; vm_compute; congruence).
  specialize (H W ltac:(discriminate) ltac:(discriminate)).
  pose proof (c82_file (fun n => len (dec n) - 1) 64 (A1 false) [] _ (word_of (5, 1)) (word_of (5, 1)) ltac:(lia) W ltac:(discriminate) eq_refl eq_refl) as E.
  pose proof (eq_trans (eq_sym H) E) as X. clear H E. vm_compute in X. discriminate.
Qed.
Lemma pad_column w label n : 0 <= n < 10 ^ w -> 1 <= w -> column w label n (count_line label w n).
Proof.
  intros N W. pose proof (decimal_len _ n w (dec_spec n) N W) as L. unfold count_line, pad. exists (Z.to_nat (w - len (dec n))), (dec n).
  split; [reflexivity|]. split; [apply dec_spec|]. rewrite !len_app. unfold len at 2. rewrite repeat_length. lia.
Qed.
Lemma how_many_le {A} (g : A -> bool) l : 0 <= how_many g l <= len l.
Proof.
  unfold how_many. split; [apply len_nonneg|]. unfold len. apply inj_le. induction l as [|x l IH]; cbn; [lia|]. destruct (g x); cbn; lia.
Qed.
Lemma report_columns lg q name z s pats : log10_ok lg -> counts_right s pats -> pats <> [] -> start_t s <> None -> end_t s <> None ->
  exists n m cs rest e, print_report lg q name (Some z) s = (n :: m :: cs ++ rest, e) /\ length cs = 7%nat /\ length rest = (if e then 3 else 5)%nat /\
    Forall2 (fun '(label, k) line => column (lg (len pats) + 1) label k line) (tally pats) cs.
Proof.
  intros LG (C0 & C1 & C2 & C3 & C4 & C5 & C6 & C7) NE SA SB. assert (P : 0 < len pats) by (destruct pats; [congruence|unfold len; cbn [length]; lia]).
  destruct (LG _ P) as (L0 & L1 & L2). unfold print_report. rewrite C0. replace (len pats =? 0) with false by lia.
  destruct (start_t s) as [a|]; [|congruence]. destruct (end_t s) as [b|]; [|congruence]. cbn [app].
  set (w := lg (len pats) + 1) in *. set (sz := (text "Filesize (MB): " ++ _)%list).
  set (d := fl q (fl q (b - a) * NANO)).
  assert (COL : Forall2 (fun '(label, k) line => column w label k line) (tally pats)
    [count_line "Total events    : " w (len pats); count_line "  Channel 1     : " w (ch1 s); count_line "  Channel 2     : " w (ch2 s);
     count_line "  Channel 3     : " w (ch3 s); count_line "  Channel 4     : " w (ch4 s); count_line "  Multi-channel : " w (multi s);
     count_line "  No channel    : " w (none s)]).
  { rewrite C1, C2, C3, C4, C5, C6. unfold tally. repeat apply Forall2_cons; try apply Forall2_nil; apply pad_column; try lia;
    match goal with |- context [how_many ?g pats] => pose proof (how_many_le g pats); lia end. }
  destruct (Qeq_bool d 0); (eexists; eexists; eexists; eexists; eexists; split; [|split; [|split; [|exact COL]]]); try reflexivity.
Qed.
