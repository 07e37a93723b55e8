(** Proof of C128. *)
From Coq Require Import QArith Qabs String List Lia Lqa.
From Verif Require Import Float Base FreqcdExamples CdRunModel CdRunProofs TimestampsModel TimestampsSpec TimestampsProofs2 FpfindSpec ReportModel ReportSpec ReportProofs2 ReportProofs3
  ArgModel FpCliSpec CliSpec FpCliCase TsCliModel TsCliSpec TsCliProofs3 TsCliCase EpochsProofs2 ReadmeSpec.
Import ListNotations. Local Open Scope string_scope. Local Open Scope list_scope. Local Open Scope Z_scope.

Lemma report_any p inm fin f file : f_pattern f = None -> f_start f = None -> f_end f = None -> report p inm fin f file = report p inm fin any file.
Proof.
  intros P S E. unfold report, has_filtering. rewrite P, S, E. cbn [any f_pattern f_start f_end]. destruct inm; [|reflexivity].
  destruct (read p fin file NS1 true) as [[t pats]|]; [|reflexivity]. cbn [bind]. unfold event_filter. rewrite P, S, E. reflexivity.
Qed.
Lemma print_any lg p inm fin f name file : f_pattern f = None -> f_start f = None -> f_end f = None -> print_main lg p inm fin f name file = print_main lg p inm fin any name file.
Proof. intros P S E. unfold print_main. rewrite (report_any p inm fin f file P S E). unfold has_filtering. rewrite P, S, E. reflexivity. Qed.
Lemma print_code lg p inm fin name vs v0 v1 : 54 <= p -> Forall TimestampsSpec.word_ok vs -> printable inm fin vs -> first vs = Some v0 -> final vs = Some v1 -> time_of v0 + 32 <= time_of v1 ->
  snd (print_main lg p inm fin any name (encode fin vs)) = None.
Proof.
  intros P W PR F0 F1 LT. destruct (shown_file p inm fin vs v0 v1 P W PR F0 F1) as (s & a & b & R & C & A & B & NA & NB).
  destruct (print_outcome lg p inm fin any name _ s ltac:(lia) R) as [K _]. apply K. right. rewrite A, B. cbn [same_time]. intros E.
  apply qabs_le in NA, NB. assert (F : forall z, (z / (256 # 1) == z * (1 # 256))%Q) by (intros; field). rewrite !F in NA, NB.
  assert (GE : (inject_Z (time_of v0) + 32 <= inject_Z (time_of v1))%Q) by (change 32%Q with (inject_Z 32); rewrite <- inject_Z_plus, <- Zle_Qle; lia). lra.
Qed.
Lemma size_shown z : 0 <= z <= 2 ^ 53 -> size_line z (text "Filesize (MB): " ++ fixed 3 (fl 53 (fl 53 (inject_Z z) / inject_Z (2 ^ 20)))%Q).
Proof.
  intros Z1. set (v := fl 53 (fl 53 (inject_Z z) / inject_Z (2 ^ 20))%Q).
  assert (V : (v == inject_Z z / inject_Z (2 ^ 20))%Q).
  { unfold v. assert (E : (fl 53 (inject_Z z) / inject_Z (2 ^ 20) == inject_Z z * pow2 (-20))%Q) by (rewrite fl_int by lia; reflexivity).
    rewrite (fl_eq 53 _ _ E). rewrite fl_exact by lia. reflexivity. }
  exists (fixed 3 v), (units 3 v). split; [reflexivity|]. split; [apply fixed_shows|].
  pose proof (units_nearest 3 v) as N. unfold nearest in N.
  assert (X : (v * inject_Z (10 ^ Z.of_nat 3) == inject_Z (1000 * z) / inject_Z (2 ^ 20))%Q) by (rewrite V; change (10 ^ Z.of_nat 3) with 1000; rewrite inject_Z_mult; field; discriminate).
  rewrite <- X. exact N.
Qed.
Lemma report_head lg q name z s : exists rest, fst (print_report lg q name (Some z) s) =
  (text "Name: " ++ name) :: (text "Filesize (MB): " ++ fixed 3 (fl 53 (fl 53 (inject_Z z) / inject_Z (2 ^ 20)))%Q) :: rest.
Proof.
  unfold print_report. cbv zeta. destruct (num_events s =? 0); [eexists; reflexivity|]. destruct (start_t s); [|eexists; reflexivity]. destruct (end_t s); [|eexists; reflexivity].
  destruct (Qeq_bool _ _); eexists; reflexivity.
Qed.
Lemma print_head lg p inm fin name vs v0 v1 : 54 <= p -> Forall TimestampsSpec.word_ok vs -> printable inm fin vs -> first vs = Some v0 -> final vs = Some v1 ->
  exists rest, fst (print_main lg p inm fin any name (encode fin vs)) =
    (text "Name: " ++ name) :: (text "Filesize (MB): " ++ fixed 3 (fl 53 (fl 53 (inject_Z (len (encode fin vs))) / inject_Z (2 ^ 20)))%Q) :: rest.
Proof. intros P W PR F0 F1. destruct (shown_file p inm fin vs v0 v1 P W PR F0 F1) as (s & _ & _ & R & _). unfold print_main. rewrite R. apply report_head. Qed.
Lemma printed lg p inm fin name vs v0 v1 : log10_ok lg -> 54 <= p -> Forall TimestampsSpec.word_ok vs -> printable inm fin vs -> first vs = Some v0 -> final vs = Some v1 ->
  time_of v0 + 32 <= time_of v1 -> len (encode fin vs) <= 2 ^ 53 ->
  exists lines, print_main lg p inm fin any name (encode fin vs) = (lines, None) /\ statistics name (len (encode fin vs)) (lg (len vs) + 1) vs v0 v1 lines.
Proof.
  intros LG P W PR F0 F1 LT SZ. destruct (print_main lg p inm fin any name (encode fin vs)) as [lines x] eqn:E.
  pose proof (print_code lg p inm fin name vs v0 v1 P W PR F0 F1 LT) as X. rewrite E in X. cbn [snd] in X. subst x. exists lines. split; [reflexivity|].
  destruct (print_head lg p inm fin name vs v0 v1 P W PR F0 F1) as (r0 & H0). rewrite E in H0. cbn [fst] in H0.
  destruct (c83 lg p inm fin name vs LG P W PR) as (n & m & cs & rest & H1 & T). rewrite E in H1. cbn [fst] in H1.
  destruct (c84 lg p inm fin name vs v0 v1 P W PR F0 F1) as (d & t0 & t1 & H2). rewrite E in H2. cbn [fst] in H2. cbv zeta in H2. destruct H2 as (S1 & S2 & S3 & B1 & B2 & B3).
  destruct (c85 lg p inm fin name vs v0 v1 P W PR F0 F1 LT) as (r & ds & secs & l & s & H3). rewrite E in H3. cbn [fst] in H3. cbv zeta in H3. destruct H3 as (R1 & R2 & R3 & R4 & R5 & R6 & R7 & R8).
  assert (L7 : length cs = 7%nat) by (clear - T; apply EpochsProofs2.Forall2_len in T; now rewrite <- T).
  rewrite H0 in H1. injection H1 as <- <- H1. subst r0.
  exists (text "Filesize (MB): " ++ fixed 3 (fl 53 (fl 53 (inject_Z (len (encode fin vs))) / inject_Z (2 ^ 20)))%Q), cs, d, t0, t1, r, ds, secs, l, s.
  split; [exact L7|]. split.
  - rewrite H0 in R1, R5, R8 |- *. clear - R1 R5 R8 L7. do 7 (destruct cs as [|? cs]; [discriminate L7|]). destruct cs; [|discriminate L7]. clear L7.
    do 5 (destruct rest as [|? rest]; [discriminate R8|]). destruct rest; [|discriminate R8]. cbn [app nth] in *. now rewrite R1, R5.
  - split; [apply size_shown; split; [unfold len; lia|exact SZ]|]. repeat (split; [assumption|]). assumption.
Qed.
Lemma c128 lg p path args ss input output fs fin memory vs v0 v1 : log10_ok lg -> 54 <= p -> command args ss input output -> Forall tgood ss -> ~ In WHelp ss -> In WPrint ss -> filterless ss ->
  input_format ss fin -> wanted WMemory ss memory -> input <> [] -> fs input = Some (encode fin vs) -> Forall TimestampsSpec.word_ok vs -> printable memory fin vs ->
  first vs = Some v0 -> final vs = Some v1 -> time_of v0 + 32 <= time_of v1 -> len (encode fin vs) <= 2 ^ 53 ->
  exists lines, said (trun lg p path args fs) 0 fs (lines_text lines) /\ statistics (path input) (len (encode fin vs)) (lg (len vs) + 1) vs v0 v1 lines.
Proof.
  intros LG P C G NH PR FL IF WM NE FS W PB F0 F1 LT SZ. destruct (printed lg p memory fin (path input) vs v0 v1 LG P W PB F0 F1 LT SZ) as (lines & E & S). exists lines. split; [|exact S].
  destruct (c118 lg p path args ss input output fs C G) as (_ & _ & K).
  assert (OF : exists fout, output_format ss fout).
  { assert (B : exists b, wanted WLegacyOut ss b). { destruct (In_dec (fun a b : want => ltac:(decide equality; apply (list_eq_dec Z.eq_dec))) WLegacyOut ss) as [I|I]; [exists true|exists false]; split; intros; try assumption; try reflexivity; try discriminate; contradiction. }
    destruct B as (b & B). destruct (last_given to_of ss) as [t|] eqn:LT0.
    - assert (FT : format_text t).
      { clear - LT0 G. unfold last_given in LT0. rewrite <- fold_left_rev_right in LT0. apply Forall_rev in G. revert LT0. induction (rev ss) as [|a l IH]; intros H; [discriminate|]. inversion G as [|? ? GA GL]; subst.
        cbn [fold_right] in H. destruct a; cbn [to_of] in H; try (apply IH; assumption). injection H as <-. exact GA. }
      destruct FT as [FT|[FT|FT]]; subst t; [exists A0, [48], b|exists (A1 b), [49], b|exists A2, [50], b]; rewrite LT0; (split; [reflexivity|split; [exact B|]]); unfold named_format; tauto.
    - exists (A1 b), [49], b. rewrite LT0. split; [reflexivity|]. split; [exact B|]. right. left. auto. }
  destruct OF as (fout & OF).
  assert (FA : exists f, filter_asked ss f /\ f_pattern f = None /\ f_start f = None /\ f_end f = None).
  { destruct FL as (L1 & L2 & L3).
    assert (B : forall a, exists b, wanted a ss b). { intros a. destruct (In_dec (fun a b : want => ltac:(decide equality; apply (list_eq_dec Z.eq_dec))) a ss) as [I|I]; [exists true|exists false]; split; intros; try assumption; try reflexivity; try discriminate; contradiction. }
    destruct (B WMask) as (m & M). destruct (B WInvert) as (i & I0). exists (mkF None m i None None). split; [|repeat split; reflexivity]. unfold filter_asked. rewrite L1, L2, L3. cbn [f_pattern f_mask f_invert f_start f_end maybe]. tauto. }
  destruct FA as (f & FA & N1 & N2 & N3).
  destruct (K NH fin fout f memory IF OF FA WM) as (_ & _ & KK). destruct (KK _ NE FS) as [KP _]. apply (KP PR lines None 0); [|reflexivity]. now rewrite print_any.
Qed.
(** parse_timestamps -A1 -X -p name *)
Definition readme_wants : list want := [WFrom [49]; WLegacyIn; WPrint].
Lemma readme_command name : file_name name -> command (readme_parse name) readme_wants name None.
Proof.
  intros FN. exists (map codes ["-A1"; "-X"; "-p"]), readme_wants, [], [].
  split.
  { apply (P_attached _ _ _ _ [] [] (WFrom [49]) 65 [49]); [constructor|reflexivity|reflexivity|split; [discriminate|intros [X|[]]; discriminate]|ascii|].
    apply (P_flags _ _ _ _ [WLegacyIn] [88]); [discriminate|repeat constructor|]. apply (P_flags _ _ _ _ [WPrint] [112] [] []); [discriminate|repeat constructor|]. constructor. }
  split; [constructor|]. split; [reflexivity|]. split; [exact FN|]. split; [discriminate|reflexivity].
Qed.
Lemma c128_readme lg p path name fs vs v0 v1 : log10_ok lg -> 54 <= p -> file_name name -> name <> [] -> fs name = Some (encode (A1 true) vs) -> Forall TimestampsSpec.word_ok vs ->
  first vs = Some v0 -> final vs = Some v1 -> time_of v0 + 32 <= time_of v1 -> len (encode (A1 true) vs) <= 2 ^ 53 ->
  exists lines, said (trun lg p path (readme_parse name) fs) 0 fs (lines_text lines) /\ statistics (path name) (len (encode (A1 true) vs)) (lg (len vs) + 1) vs v0 v1 lines.
Proof.
  intros LG P FN NE FS W F0 F1 LT SZ. apply (c128 lg p path (readme_parse name) readme_wants name None fs (A1 true) false vs v0 v1); try assumption.
  - exact (readme_command name FN).
  - unfold readme_wants. goods.
  - unfold readme_wants. nowhere.
  - unfold readme_wants. somewhere.
  - repeat split; reflexivity.
  - exists [49], true. split; [reflexivity|]. split; [unfold readme_wants; decide_wanted|]. right. left. now split.
  - unfold readme_wants. decide_wanted.
  - split; [intros ->; discriminate|]. split; discriminate.
Qed.
