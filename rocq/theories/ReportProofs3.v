From Coq Require Import QArith Qabs Qround String Lia Lqa.
From Verif Require Import Float Base TimestampsModel TimestampsSpec TimestampsProofs TimestampsProofs2 TimestampsProofs4 TimestampsProofs5 TimestampsProofs7
  FpfindModel FpfindSpec FpfindProofs3 ReportModel ReportSpec ReportProofs ReportProofs2.
Local Open Scope Z_scope.

(** ** Fixed-point numbers *)
Lemma value_cat a b : value (a ++ b) = value a * 10 ^ len b + value b.
Proof.
  induction b as [|c b IH] using rev_ind.
  - rewrite app_nil_r. change (10 ^ len []) with 1. change (value []) with 0. lia.
  - rewrite app_assoc, !value_snoc, IH, len_snoc, pow10_snoc by apply len_nonneg. lia.
Qed.
Lemma decn_spec d : forall n, 0 <= n -> length (decn d n) = d /\ Forall digit (decn d n) /\ value (decn d n) = n mod 10 ^ Z.of_nat d.
Proof.
  induction d as [|d IH]; intros n N.
  - cbn [decn]. change (10 ^ Z.of_nat 0) with 1. rewrite Z.mod_1_r. repeat split. constructor.
  - cbn [decn]. destruct (IH (n / 10) ltac:(apply Z.div_pos; lia)) as (L & F & V). rewrite app_length, L, value_snoc, V.
    pose proof (Z.mod_pos_bound n 10 ltac:(lia)). split; [cbn; lia|]. split; [apply Forall_app; split; [exact F|]; repeat constructor; lia|].
    replace (10 ^ Z.of_nat (S d)) with (10 * 10 ^ Z.of_nat d) by (rewrite Nat2Z.inj_succ, Z.pow_succ_r; lia).
    rewrite Z.rem_mul_r by (try apply Z.pow_pos_nonneg; lia). lia.
Qed.
Definition units (d : nat) (v : Q) : Z :=
  let n := rneQ (Qabs v * inject_Z (10 ^ Z.of_nat d))%Q in if Qltb v 0 then - n else n.
Lemma rneQ_nonneg x : (0 <= x)%Q -> 0 <= rneQ x.
Proof. intros H. change 0%Q with (inject_Z 0) in H. apply rneQ_mono in H. now rewrite rneQ_inject in H. Qed.
Lemma Qltb_spec x y : Qltb x y = true <-> (x < y)%Q.
Proof.
  unfold Qltb. rewrite negb_true_iff. split; intros H.
  - destruct (Qlt_le_dec x y) as [|L]; [assumption|]. apply Qle_bool_iff in L. congruence.
  - destruct (Qle_bool y x) eqn:E; [|reflexivity]. apply Qle_bool_iff in E. lra.
Qed.
Lemma fixed_shows d v : shows d (units d v) (fixed d v).
Proof.
  unfold fixed, units. set (m := 10 ^ Z.of_nat d). set (n := rneQ (Qabs v * inject_Z m)).
  assert (M : 0 < m) by (apply Z.pow_pos_nonneg; lia).
  assert (N : 0 <= n). { apply rneQ_nonneg. apply Qmult_le_0_compat; [apply Qabs_nonneg|]. change 0%Q with (inject_Z 0). rewrite <- Zle_Qle. lia. }
  destruct (dec_spec (n / m)) as (ds & E & NE & F & V & _). pose proof (Z.div_pos n m N M) as D. replace (n / m <? 0) with false in E by lia. cbn [app] in E.
  destruct (decn_spec d n N) as (L & F2 & V2). exists (if Qltb v 0 then [45] else []), ds, (decn d n). rewrite E.
  split; [reflexivity|]. split; [destruct (Qltb v 0); [right|left]; split; (reflexivity || lia)|]. split; [exact NE|]. split; [apply Forall_app; now split|].
  split; [exact L|]. rewrite value_cat, V, V2. replace (len (decn d n)) with (Z.of_nat d) by (unfold len; lia). fold m.
  rewrite (Z.abs_eq (n / m)) by lia. pose proof (Z.div_mod n m ltac:(lia)). destruct (Qltb v 0); lia.
Qed.
Lemma units_nearest d v : nearest (v * inject_Z (10 ^ Z.of_nat d)) (units d v).
Proof.
  unfold nearest, units. set (m := inject_Z (10 ^ Z.of_nat d)). pose proof (rneQ_err (Qabs v * m)) as H. set (n := rneQ (Qabs v * m)) in *.
  destruct (Qltb v 0) eqn:B.
  - apply Qltb_spec in B. rewrite inject_Z_opp. rewrite <- Qabs_opp. eapply Qle_trans; [|exact H]. apply Qle_lteq. right. apply Qabs_wd.
    rewrite (Qabs_neg v) by lra. ring.
  - assert (V : (0 <= v)%Q). { destruct (Qlt_le_dec v 0) as [L|L]; [|assumption]. apply Qltb_spec in L. congruence. }
    eapply Qle_trans; [|exact H]. apply Qle_lteq. right. apply Qabs_wd. rewrite (Qabs_pos v) by lra. reflexivity.
Qed.

(** ** Times *)
Lemma fl_near q x b : 53 <= q -> (Qabs x <= b)%Q -> (Qabs (fl q x - x) <= (1 # 9007199254740992) * b)%Q.
Proof.
  intros Q1 H. pose proof (fl_err q x) as E. pose proof (Qabs_nonneg x) as N.
  assert (P : (pow2 (- q) <= 1 # 9007199254740992)%Q) by (change (1 # 9007199254740992)%Q with (pow2 (-53)); apply pow2_le; lia).
  assert (A : (pow2 (- q) * Qabs x <= (1 # 9007199254740992) * Qabs x)%Q) by (apply Qmult_le_compat_r; assumption).
  assert (B : ((1 # 9007199254740992) * Qabs x <= (1 # 9007199254740992) * b)%Q) by (rewrite !(Qmult_comm (1 # 9007199254740992)); apply Qmult_le_compat_r; [assumption|discriminate]).
  lra.
Qed.
Lemma qabs_le x b : (Qabs x <= b <-> - b <= x /\ x <= b)%Q.
Proof. apply Qabs_Qle_condition. Qed.
Lemma nano_value : (NANO * (1000000000 # 1) <= 1 + (1 # 9007199254740992) /\ 1 - (1 # 9007199254740992) <= NANO * (1000000000 # 1))%Q.
Proof. split; vm_compute; discriminate. Qed.
Lemma shown_time q x a : 53 <= q -> (Qabs x <= 70368744177664 # 1)%Q -> (Qabs (a - x) <= 1 # 32)%Q ->
  (Qabs (inject_Z (units 9 (fl 53 (fl q (a * NANO)))) - x) <= 9 # 16)%Q.
Proof.
  intros Q1 X A. apply qabs_le in X, A. set (w := (a * NANO)%Q).
  assert (NV : (NANO == 4835703278458517 # 4835703278458516698824704)%Q) by (vm_compute; reflexivity).
  assert (W : (w == a * (4835703278458517 # 4835703278458516698824704))%Q) by (unfold w; now rewrite NV).
  assert (BW : (Qabs w <= 70369 # 1)%Q) by (apply qabs_le; rewrite W; lra).
  pose proof (fl_near q w _ Q1 BW) as U. apply qabs_le in U. set (u := fl q w) in *. apply qabs_le in BW.
  assert (BU : (Qabs u <= 70370 # 1)%Q) by (apply qabs_le; lra).
  pose proof (fl_near 53 u _ ltac:(lia) BU) as V. apply qabs_le in V. set (v := fl 53 u) in *.
  pose proof (units_nearest 9 v) as N. unfold nearest in N. apply qabs_le in N. change (inject_Z (10 ^ Z.of_nat 9)) with (1000000000 # 1)%Q in N.
  apply qabs_le. lra.
Qed.
Lemma shown_duration q x y a b : 53 <= q -> (0 <= x <= 70368744177664 # 1)%Q -> (0 <= y <= 70368744177664 # 1)%Q -> (Qabs (a - x) <= 1 # 128)%Q -> (Qabs (b - y) <= 1 # 128)%Q ->
  (Qabs (inject_Z (units 9 (fl 53 (fl q (fl q (b - a) * NANO)))) - (y - x)) <= 9 # 16)%Q.
Proof.
  intros Q1 X Y A B. apply qabs_le in A, B. apply shown_time; [assumption|apply qabs_le; lra|].
  assert (D : (Qabs (b - a) <= 70368744177665 # 1)%Q) by (apply qabs_le; lra). pose proof (fl_near q _ _ Q1 D) as E. apply qabs_le in E. apply qabs_le. lra.
Qed.
Lemma time_line_shows label v : seconds_line label (units 9 (fl 53 v)) (time_line label v).
Proof. unfold time_line, pad. eexists. eexists. split; [reflexivity|]. apply fixed_shows. Qed.
Lemma reported_near v : word_ok v -> (0 <= inject_Z (time_of v) / (256 # 1) <= 70368744177664 # 1)%Q /\ (Qabs (reported v - inject_Z (time_of v) / (256 # 1)) <= 1 # 128)%Q.
Proof.
  intros W. pose proof (time_range v W) as T. assert (TQ : (0 <= inject_Z (time_of v) <= 18014398509481984 # 1)%Q).
  { change 0%Q with (inject_Z 0). change (18014398509481984 # 1)%Q with (inject_Z (2 ^ 54)). rewrite <- !Zle_Qle. lia. }
  unfold reported. change (inject_Z 256) with (256 # 1). set (t := inject_Z (time_of v)) in *.
  assert (E : forall z, (z / (256 # 1) == z * (1 # 256))%Q) by (intros; field). rewrite !E.
  assert (BT : (Qabs t <= 18014398509481984 # 1)%Q) by (apply qabs_le; lra).
  pose proof (fl_near 53 t _ ltac:(lia) BT) as F. apply qabs_le in F. split; [lra|]. apply qabs_le. lra.
Qed.
(** the last lines of the report *)
Lemma report_tail lg q name z s a b : num_events s <> 0 -> start_t s = Some a -> end_t s = Some b ->
  let lines := fst (print_report lg q name (Some z) s) in let d := fl q (fl q (b - a) * NANO) in
  nth 9 lines [] = time_line "Duration (s) : " d /\ nth 10 lines [] = time_line "  ~ start    : " (fl q (a * NANO)) /\
  nth 11 lines [] = time_line "  ~ end      : " (fl q (b * NANO)) /\
  (~ (a == b)%Q -> 1 <= q -> length lines = 14%nat /\ nth 12 lines [] = text "Event rate (/s) : " ++ dec (Qfloor (inject_Z (num_events s) / d)) /\
    nth 13 lines [] = text "Detection patterns: " ++ show_list (patterns s)).
Proof.
  intros N A B. cbv zeta. unfold print_report. replace (num_events s =? 0) with false by lia. rewrite A, B. set (d := fl q (fl q (b - a) * NANO)).
  destruct (Qeq_bool d 0) eqn:E; cbn [fst app nth length]; (split; [reflexivity|]; split; [reflexivity|]; split; [reflexivity|]); intros NE Q1.
  - exfalso. apply Qeq_bool_iff in E. apply duration_zero in E; auto.
  - repeat split; reflexivity.
Qed.
(** ** In memory: exact times *)
Lemma memory_file p f vs : 54 <= p -> Forall word_ok vs -> readable f vs -> vs <> [] -> (f = A0 -> Forall exact53 vs) ->
  exists s, report p true f any (encode f vs) = Ok s /\ counts_right s (map pattern_of vs) /\
    oeq (start_t s) (option_map (fun v => inject_Z (time_of v) / (256 # 1))%Q (first vs)) /\
    oeq (end_t s) (option_map (fun v => inject_Z (time_of v) / (256 # 1))%Q (final vs)).
Proof.
  intros P W R NE X. unfold report. destruct (read_encode p f NS1 true vs W) as [RE _]. rewrite (RE R). cbn [bind]. unfold event_filter, out. cbn [any f_pattern f_start f_end bind].
  destruct (memory_stats (format_timestamps p (raw_t f vs) NS1 true) (map pattern_of vs)) as (s & PS & C & A & B).
  { exact (out_batch p f NS1 true vs). } { destruct vs; [congruence|discriminate]. }
  { rewrite Forall_map. apply Forall_forall. intros v _. unfold pattern_of, pattern_ok. change 16 with (2 ^ 4). apply Z.mod_pos_bound. lia. }
  exists s. split; [exact PS|]. split; [exact C|]. rewrite A, B, <- first_map, <- final_map.
  assert (SV : same_values (tvalues (format_timestamps p (raw_t f vs) NS1 true)) (map (fun v => inject_Z (time_of v) / (256 # 1))%Q vs)).
  { pose proof (format_exact p f NS1 vs P W) as FE. assert (EX : exact_for f vs) by (destruct f; cbn; auto). specialize (FE EX).
    unfold same_values in *. revert FE. generalize (tvalues (format_timestamps p (raw_t f vs) NS1 true)). clear. induction vs as [|v vs IH]; intros l FE; inversion FE as [|x y l1 l2 HX HR]; subst; constructor; [|now apply IH].
    rewrite HX. unfold in_units. rewrite inject_Z_mult. change (inject_Z (rvalue NS1)) with (1 # 1). change (inject_Z 256) with (256 # 1). field. }
  split; [now apply first_same|now apply final_same].
Qed.

(** ** Files *)
Lemma shown_file p inm f vs v0 v1 : 54 <= p -> Forall word_ok vs -> printable inm f vs -> first vs = Some v0 -> final vs = Some v1 ->
  exists s a b, report p inm f any (encode f vs) = Ok s /\ counts_right s (map pattern_of vs) /\ start_t s = Some a /\ end_t s = Some b /\
    (Qabs (a - inject_Z (time_of v0) / (256 # 1)) <= 1 # 128)%Q /\ (Qabs (b - inject_Z (time_of v1) / (256 # 1)) <= 1 # 128)%Q.
Proof.
  intros P W (NE & OS & MEM) F0 F1.
  assert (W0 : word_ok v0). { destruct vs; [congruence|]. inv F0. now inv W. }
  assert (W1 : word_ok v1). { unfold final in F1. apply Forall_rev in W. destruct (rev vs); [discriminate|]. inv F1. now inv W. }
  destruct inm.
  - destruct (MEM eq_refl) as [R X]. destruct (memory_file p f vs P W R NE X) as (s & E & C & A & B). rewrite F0 in A. rewrite F1 in B. cbn [option_map] in A, B.
    destruct (start_t s) as [a|] eqn:SA; [|contradiction]. destruct (end_t s) as [b|] eqn:SB; [|contradiction]. cbn [oeq] in A, B.
    exists s, a, b. repeat (split; [assumption|]). split; apply qabs_le; lra.
  - destruct (file_stats p f vs W OS) as (s & E & C & A & B). rewrite F0 in A. rewrite F1 in B. cbn [option_map] in A, B.
    destruct (start_t s) as [a|] eqn:SA; [|contradiction]. destruct (end_t s) as [b|] eqn:SB; [|contradiction]. cbn [oeq] in A, B.
    exists s, a, b. repeat (split; [assumption|]). split; [rewrite A; now apply reported_near|rewrite B; now apply reported_near].
Qed.
Lemma len_pos {A} (l : list A) : l <> [] -> 0 < len l.
Proof. destruct l; [congruence|]. intros _. unfold len. cbn [length]. lia. Qed.
Lemma first_final {A} (l : list A) : l <> [] -> exists a b, first l = Some a /\ final l = Some b.
Proof. intros N. apply len_pos in N. destruct (first_some l N) as [a ?], (final_some l N) as [b ?]. eauto. Qed.
Lemma c83_all lg p inm fin flt name file s pats : log10_ok lg -> report p inm fin flt file = Ok s -> counts_right s pats -> pats <> [] ->
  exists n m cs rest, fst (print_main lg p inm fin flt name file) = n :: m :: cs ++ rest /\
    Forall2 (fun '(label, k) line => column (lg (len pats) + 1) label k line) (tally pats) cs.
Proof.
  intros LG R C NE. pose proof (len_pos pats NE) as PP. assert (N : num_events s <> 0) by (destruct C as (C & _); lia).
  destruct (report_times _ _ _ _ _ _ R N) as (_ & a & b & A & B). unfold print_main. rewrite R.
  destruct (report_columns lg (if inm || has_filtering flt then p else 53) name (len file) s pats LG C NE) as (n & m & cs & rest & e & E & _ & _ & F); try congruence.
  rewrite E. cbn [fst]. eauto 8.
Qed.
Lemma c83 lg p inm fin name vs : log10_ok lg -> 54 <= p -> Forall word_ok vs -> printable inm fin vs ->
  exists n m cs rest, fst (print_main lg p inm fin any name (encode fin vs)) = n :: m :: cs ++ rest /\
    Forall2 (fun '(label, k) line => column (lg (len vs) + 1) label k line) (tally (map pattern_of vs)) cs.
Proof.
  intros LG P W PR. pose proof PR as (NE & _). destruct (first_final vs NE) as (v0 & v1 & F0 & F1).
  destruct (shown_file p inm fin vs v0 v1 P W PR F0 F1) as (s & _ & _ & R & C & _).
  rewrite <- (len_map pattern_of vs). apply (c83_all lg p inm fin any name _ s); auto. destruct vs; [congruence|discriminate].
Qed.
Lemma c84 lg p inm fin name vs v0 v1 : 54 <= p -> Forall word_ok vs -> printable inm fin vs -> first vs = Some v0 -> final vs = Some v1 ->
  exists d t0 t1, let lines := fst (print_main lg p inm fin any name (encode fin vs)) in
    seconds_line "Duration (s) : " d (nth 9 lines []) /\ seconds_line "  ~ start    : " t0 (nth 10 lines []) /\ seconds_line "  ~ end      : " t1 (nth 11 lines []) /\
    (Qabs (inject_Z d - inject_Z (time_of v1 - time_of v0) / (256 # 1)) <= 9 # 16)%Q /\
    (Qabs (inject_Z t0 - inject_Z (time_of v0) / (256 # 1)) <= 9 # 16)%Q /\ (Qabs (inject_Z t1 - inject_Z (time_of v1) / (256 # 1)) <= 9 # 16)%Q.
Proof.
  intros P W PR F0 F1. destruct (shown_file p inm fin vs v0 v1 P W PR F0 F1) as (s & a & b & R & C & A & B & NA & NB).
  assert (W0 : word_ok v0). { destruct vs; [discriminate|]. inv F0. now inv W. }
  assert (W1 : word_ok v1). { unfold final in F1. apply Forall_rev in W. destruct (rev vs); [discriminate|]. inv F1. now inv W. }
  destruct (reported_near v0 W0) as [R0 _], (reported_near v1 W1) as [R1 _].
  assert (N : num_events s <> 0). { destruct C as (C & _). rewrite C, len_map. destruct PR as (NE & _). apply len_pos in NE. lia. }
  unfold print_main. rewrite R. set (q := if inm || has_filtering any then p else 53). assert (Q1 : 53 <= q) by (unfold q; destruct (_ || _); lia). clearbody q.
  destruct (report_tail lg q name (len (encode fin vs)) s a b N A B) as (E1 & E2 & E3 & _). cbv zeta.
  exists (units 9 (fl 53 (fl q (fl q (b - a) * NANO)))), (units 9 (fl 53 (fl q (a * NANO)))), (units 9 (fl 53 (fl q (b * NANO)))).
  rewrite E1, E2, E3. split; [apply time_line_shows|]. split; [apply time_line_shows|]. split; [apply time_line_shows|].
  pose proof (proj1 (qabs_le _ _) NA) as NA'. pose proof (proj1 (qabs_le _ _) NB) as NB'.
  split; [|split; (apply shown_time; [assumption|apply qabs_le; lra|apply qabs_le; lra])].
  pose proof (shown_duration q _ _ a b Q1 R0 R1 NA NB) as D. eapply Qle_trans; [|exact D]. apply Qle_lteq. right. apply Qabs_wd.
  unfold Z.sub. rewrite inject_Z_plus, inject_Z_opp. field.
Qed.
(** ** The rate and the patterns *)
Lemma show_items l : l <> [] -> items l (joined_by (text ", ") (map dec l)).
Proof.
  induction l as [|n l IH]; [congruence|]. intros _. destruct l as [|m l]; [cbn [map joined_by]; constructor; apply dec_spec|].
  change (joined_by (text ", ") (map dec (n :: m :: l))) with (dec n ++ text ", " ++ joined_by (text ", ") (map dec (m :: l))).
  apply items_more; [apply dec_spec|]. apply IH. discriminate.
Qed.
Lemma duration_near q x y a b : 53 <= q -> (0 <= x <= 70368744177664 # 1)%Q -> (0 <= y <= 70368744177664 # 1)%Q -> (Qabs (a - x) <= 1 # 128)%Q -> (Qabs (b - y) <= 1 # 128)%Q ->
  (Qabs (fl q (fl q (b - a) * NANO) * (1000000000 # 1) - (y - x)) <= 1 # 16)%Q.
Proof.
  intros Q1 X Y A B. apply qabs_le in A, B. assert (D : (Qabs (b - a) <= 70368744177665 # 1)%Q) by (apply qabs_le; lra).
  pose proof (fl_near q _ _ Q1 D) as E. apply qabs_le in E. set (g := fl q (b - a)) in *. set (w := (g * NANO)%Q).
  assert (NV : (NANO == 4835703278458517 # 4835703278458516698824704)%Q) by (vm_compute; reflexivity).
  assert (W : (w == g * (4835703278458517 # 4835703278458516698824704))%Q) by (unfold w; now rewrite NV).
  assert (BW : (Qabs w <= 70369 # 1)%Q) by (apply qabs_le; rewrite W; lra).
  pose proof (fl_near q w _ Q1 BW) as U. apply qabs_le in U. apply qabs_le. lra.
Qed.
Lemma Qfloor_div n d : (0 < d)%Q -> (inject_Z (Qfloor (n / d)) * d <= n /\ n < (inject_Z (Qfloor (n / d)) + 1) * d)%Q.
Proof.
  intros D. pose proof (Qfloor_le (n / d)) as L. pose proof (Qlt_floor (n / d)) as U. rewrite inject_Z_plus in U.
  change (inject_Z 1) with 1%Q in U. assert (E : (n / d * d == n)%Q) by (field; lra).
  split; [rewrite <- E at 2; apply Qmult_le_compat_r; lra|]. rewrite <- E at 1. apply Qmult_lt_compat_r; lra.
Qed.
Lemma c85 lg p inm fin name vs v0 v1 : 54 <= p -> Forall word_ok vs -> printable inm fin vs -> first vs = Some v0 -> final vs = Some v1 -> time_of v0 + 32 <= time_of v1 ->
  exists r ds d l s, let lines := fst (print_main lg p inm fin any name (encode fin vs)) in
    nth 12 lines [] = text "Event rate (/s) : " ++ ds /\ decimal ds r /\
    (Qabs (d * (1000000000 # 1) - inject_Z (time_of v1 - time_of v0) / (256 # 1)) <= 1 # 16)%Q /\
    (inject_Z r * d <= inject_Z (len vs) < (inject_Z r + 1) * d)%Q /\
    nth 13 lines [] = text "Detection patterns: [" ++ s ++ text "]" /\ items l s /\ lists_patterns l (map pattern_of vs) /\ length lines = 14%nat.
Proof.
  intros P W PR F0 F1 LT. destruct (shown_file p inm fin vs v0 v1 P W PR F0 F1) as (s & a & b & R & C & A & B & NA & NB).
  assert (W0 : word_ok v0). { destruct vs; [discriminate|]. inv F0. now inv W. }
  assert (W1 : word_ok v1). { unfold final in F1. apply Forall_rev in W. destruct (rev vs); [discriminate|]. inv F1. now inv W. }
  destruct (reported_near v0 W0) as [R0 _], (reported_near v1 W1) as [R1 _].
  assert (NE : vs <> []) by (destruct PR; assumption).
  assert (N : num_events s = len vs). { destruct C as (C & _). now rewrite C, len_map. } pose proof (len_pos vs NE) as PV.
  unfold print_main. rewrite R. set (q := if inm || has_filtering any then p else 53). assert (Q1 : 53 <= q) by (unfold q; destruct (_ || _); lia). clearbody q.
  destruct (report_tail lg q name (len (encode fin vs)) s a b ltac:(lia) A B) as (_ & _ & _ & E). cbv zeta.
  pose proof (duration_near q _ _ a b Q1 R0 R1 NA NB) as D. set (d := fl q (fl q (b - a) * NANO)) in *.
  assert (TD : (inject_Z (time_of v1) / (256 # 1) - inject_Z (time_of v0) / (256 # 1) == inject_Z (time_of v1 - time_of v0) / (256 # 1))%Q).
  { unfold Z.sub. rewrite inject_Z_plus, inject_Z_opp. field. }
  assert (GE : (32 # 1 <= inject_Z (time_of v1 - time_of v0))%Q) by (change (32 # 1)%Q with (inject_Z 32); rewrite <- Zle_Qle; lia).
  apply qabs_le in NA, NB. assert (F : forall z, (z / (256 # 1) == z * (1 # 256))%Q) by (intros; field).
  rewrite TD in D. pose proof (proj1 (qabs_le _ _) D) as D'. rewrite !F in D', NA, NB. rewrite (F (inject_Z (time_of v0))), (F (inject_Z (time_of v1))), (F (inject_Z (time_of v1 - time_of v0))) in TD.
  destruct E as (E0 & E4 & E5); [intros AB; lra|lia|]. destruct C as (_ & _ & _ & _ & _ & _ & _ & LP).
  assert (PN : patterns s <> []). { destruct vs as [|v vs]; [congruence|]. intros X. destruct LP as [_ LP]. specialize (LP (pattern_of v)). rewrite X in LP. cbn [In map] in LP. tauto. }
  exists (Qfloor (inject_Z (num_events s) / d)), (dec (Qfloor (inject_Z (num_events s) / d))), d, (patterns s), (joined_by (text ", ") (map dec (patterns s))).
  split; [exact E4|]. split; [apply dec_spec|]. split; [exact D|]. rewrite <- N. split; [apply Qfloor_div; lra|].
  split; [rewrite E5; unfold show_list; reflexivity|]. split; [now apply show_items|]. split; [exact LP|exact E0].
Qed.
