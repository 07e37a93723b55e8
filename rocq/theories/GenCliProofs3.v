(** What generate_freqcd_testcase does, from the command line. *)
From Coq Require Import QArith String Lia.
From Coq Require Import ZifyBool.
From Verif Require Import Float Base TimestampsModel TimestampsSpec FpfindModel FpfindSpec FpfindProofs3 MiscModel MiscSpec MiscProofs CdRunModel CdRunProofs ArgModel FpCliSpec CliSpec FpCliProofs CliProofs TsCliModel TsCliSpec TsCliProofs
  GenCliModel GenCliSpec GenCliProofs GenCliProofs2.
Import ListNotations. Local Open Scope string_scope. Local Open Scope list_scope. Local Open Scope Z_scope.

Lemma same_ok a b : same_name a b = true -> a = b. Proof. apply same_name_iff. Qed.
Lemma same_refl a : same_name a a = true. Proof. now apply same_name_iff. Qed.
Lemma out_named ss t : Forall ggood ss -> last_given gout_of ss = Some t -> t <> [].
Proof.
  intros G. unfold last_given. rewrite <- fold_left_rev_right. apply Forall_rev in G. induction G as [|a l GA GL IH]; intros H; [discriminate|].
  cbn [fold_right] in H. destruct a; cbn [gout_of] in H; try (apply IH; assumption). injection H as <-. exact GA.
Qed.
Lemma means_out ss input n : Forall ggood ss -> means ss input n -> match g_out n with Some [] => None | o => o end = last_given gout_of ss.
Proof. intros G (E & _). rewrite E. destruct (last_given gout_of ss) as [[|c t]|] eqn:L; [exfalso; now apply (out_named ss [] G L)|reflexivity|reflexivity]. Qed.
(** the output: opened, emptied, and written *)
Lemma written_delivers c fs out before bytes :
  delivers (Ends (mkEnd c (match out with Some name => put (put fs name []) name bytes | None => fs end) (match out with Some _ => before | None => before ++ bytes end))) c fs out before bytes.
Proof.
  destruct out as [name|]; cbn [delivers].
  - eexists. split; [reflexivity|]. split; [reflexivity|]. split; [reflexivity|]. cbn [files]. split; [unfold put; now rewrite same_refl|].
    intros m N. unfold put. destruct (same_name m name) eqn:S; [apply same_ok in S; congruence|reflexivity].
  - eexists. split; [reflexivity|]. repeat split.
Qed.
Lemma events_words zs : events_at false zs = encode (A1 false) (event_words zs). Proof. reflexivity. Qed.
Lemma write_until zs z rest : Forall (fun t => 0 <= t) zs -> z < 0 -> write_all false (zs ++ z :: rest) = (events_at false zs, Some AssertionError).
Proof.
  intros F N. induction F as [|t zs H HF IH]; cbn [app write_all].
  - rewrite c63_bad by lia. reflexivity.
  - rewrite get_event_word, IH by lia. reflexivity.
Qed.
Lemma c130_times p tmp args ss fs stdin ws zs : gcommand args ss -> Forall ggood ss -> ~ In GHelp ss -> last_given gtimes_of ss = Some ws -> Forall2 whole ws zs ->
  (Forall (fun t => 0 <= t) zs -> delivers (grun p tmp args fs stdin) 0 fs (last_given gout_of ss) [] (events_at false zs)) /\
  (forall zs1 z zs2, zs = zs1 ++ z :: zs2 -> Forall (fun t => 0 <= t) zs1 -> z < 0 -> delivers (grun p tmp args fs stdin) 1 fs (last_given gout_of ss) [] (events_at false zs1)).
Proof.
  intros C G NH LT W. assert (NE : args <> []) by (intros ->; pose proof (command_loop [] ss 0 [] C (or_introl eq_refl) 1 false ltac:(cbn; lia)) as X; cbn in X; rewrite app_nil_r in X; injection X as X; destruct ss; [discriminate LT|discriminate X]).
  destruct (run_means p tmp args ss None fs stdin C G NE) as [_ R]. destruct (R NH) as (n & M & ->). pose proof (means_out ss None n G M) as MO. destruct M as (_ & MT & _ & MI). rewrite LT, (ints_whole ws zs W) in MT.
  unfold gproceed. rewrite MO, MT. unfold generate. split.
  - intros F. rewrite (write_all_ok false zs F). rewrite <- events_words. pose proof (written_delivers 0 fs (last_given gout_of ss) [] (events_at false zs)) as D. destruct (last_given gout_of ss); exact D.
  - intros zs1 z zs2 -> F N. rewrite (write_until zs1 z zs2 F N). pose proof (written_delivers 1 fs (last_given gout_of ss) [] (events_at false zs1)) as D. destruct (last_given gout_of ss); exact D.
Qed.
Lemma c130_help p tmp args ss fs stdin : gcommand args ss -> Forall ggood ss -> In GHelp ss -> grun p tmp args fs stdin = Shows_help.
Proof.
  intros C G H. assert (NE : args <> []) by (intros ->; pose proof (command_loop [] ss 0 [] C (or_introl eq_refl) 1 false ltac:(cbn; lia)) as X; cbn in X; rewrite app_nil_r in X; injection X as X; destruct ss; [destruct H|discriminate X]).
  exact (proj1 (run_means p tmp args ss None fs stdin C G NE) H).
Qed.
(** ** Decoding *)
Lemma lines_numbers l : numbers l (print_lines (map dec l)).
Proof.
  exists (map dec l). split; [induction l; constructor; [apply dec_spec|assumption]|]. unfold print_lines, lines_text. rewrite flat_map_concat_map. reflexivity.
Qed.
Lemma same_same a b : same a b = same_name a b. Proof. destruct (same a b) eqn:S; [apply same_iff in S; subst; now rewrite same_refl|]. destruct (same_name a b) eqn:T; [|reflexivity]. apply same_ok in T. subst. assert (X : same b b = true) by (apply same_iff; reflexivity). congruence. Qed.
Lemma c131 p tmp args ss fs lg evs : 54 <= p -> with_input args ss [45] -> Forall ggood ss -> ~ In GHelp ss -> last_given gtimes_of ss = None -> last_given gout_of ss = None -> gasked GLegacy ss lg ->
  fs tmp = None -> Forall event_ok evs -> exists out, numbers (map fst evs) out /\ said (grun p tmp args fs (encode (A1 lg) (map word_of evs))) 0 fs out.
Proof.
  intros P C G NH LT LO LG FT EV. assert (NE : args <> []) by (destruct C as (a1 & s1 & a2 & s2 & _ & _ & _ & _ & _ & ->); destruct a1; discriminate).
  exists (print_lines (map dec (map fst evs))). split; [apply lines_numbers|].
  destruct (run_means p tmp args ss (Some [45]) fs (encode (A1 lg) (map word_of evs)) C G NE) as [_ R]. destruct (R NH) as (n & M & ->). pose proof (means_out ss _ n G M) as MO. destruct M as (_ & MT & ML & MI). rewrite LT in MT.
  assert (LE : g_legacy n = lg) by (unfold gasked in LG; destruct (g_legacy n), lg; intuition). unfold gproceed. rewrite MO, LO, MT, MI. change (same [45] [45]) with true. cbv iota. rewrite LE.
  pose proof (c65 p lg (fs tmp) evs P EV) as D. cbv zeta in D. rewrite D. eexists. split; [reflexivity|]. split; [reflexivity|]. split; [reflexivity|].
  intros m. cbn [files]. unfold unlink, put. rewrite same_same. destruct (same_name m tmp) eqn:S; [apply same_ok in S; congruence|reflexivity].
Qed.
(** a file with a name is overwritten *)
Lemma c132_file p tmp args ss fs input lg evs : 54 <= p -> with_input args ss input -> input <> [] -> input <> [45] -> Forall ggood ss -> ~ In GHelp ss -> last_given gtimes_of ss = None -> last_given gout_of ss = None ->
  gasked GLegacy ss lg -> Forall event_ok evs -> let X := encode (A1 lg) (map word_of evs) in
  exists e, grun p tmp args fs X = Ends e /\ code e = 0 /\ numbers (map fst evs) (stdout e) /\ files e input = Some X /\ forall m, m <> input -> files e m = fs m.
Proof.
  intros P C N1 N2 G NH LT LO LG EV. cbv zeta. assert (NE : args <> []) by (destruct C as (a1 & s1 & a2 & s2 & _ & _ & _ & _ & _ & ->); destruct a1; discriminate).
  destruct (run_means p tmp args ss (Some input) fs (encode (A1 lg) (map word_of evs)) C G NE) as [_ R]. destruct (R NH) as (n & M & ->). pose proof (means_out ss _ n G M) as MO. destruct M as (_ & MT & ML & MI). rewrite LT in MT.
  assert (LE : g_legacy n = lg) by (unfold gasked in LG; destruct (g_legacy n), lg; intuition). unfold gproceed. rewrite MO, LO, MT, MI. destruct input as [|c input]; [congruence|].
  assert (SI : same (c :: input) [45] = false) by (destruct (same (c :: input) [45]) eqn:S; [apply same_iff in S; congruence|reflexivity]). rewrite SI, LE.
  pose proof (c65 p lg (fs (c :: input)) evs P EV) as D. cbv zeta in D. rewrite D. eexists. split; [reflexivity|]. split; [reflexivity|]. cbn [CdRunModel.stdout files]. split; [apply lines_numbers|].
  split; [unfold put; now rewrite same_refl|]. intros m NM. unfold put. destruct (same_name m (c :: input)) eqn:S; [apply same_ok in S; congruence|reflexivity].
Qed.
(** ** Typing *)
Lemma lines_back ls : Forall (Forall (fun c => c <> 10)) ls -> text_lines [] (lines_text ls) = ls.
Proof.
  induction 1 as [|l ls H HF IH]; [reflexivity|]. cbn [lines_text flat_map]. fold (lines_text ls).
  assert (G : forall a, text_lines a ((l ++ [10]) ++ lines_text ls) = (rev a ++ l) :: ls).
  { clear HF. induction H as [|c l N HL IL]; intros a; cbn [app text_lines].
    - change (10 =? 10) with true. cbv iota. now rewrite IH, app_nil_r.
    - replace (c =? 10) with false by lia. rewrite IL. cbn [rev]. now rewrite <- app_assoc. }
  exact (G []).
Qed.
Lemma lstrip_in c s : In c (ArgModel.lstrip s) -> In c s.
Proof. induction s as [|x s IH]; [tauto|]. cbn [ArgModel.lstrip]. destruct (space x); [intros H; right; now apply IH|tauto]. Qed.
Lemma strip_in c s : In c (strip s) -> In c s.
Proof. unfold strip. intros H. apply in_rev in H. apply lstrip_in in H. apply in_rev in H. now apply lstrip_in in H. Qed.
Lemma no_digits l : Forall (fun c => ~ is_digit c) l -> int_of l = None.
Proof.
  intros F. unfold int_of. destruct (signed (strip l)) as [neg s] eqn:S.
  assert (I : forall c, In c s -> ~ is_digit c).
  { intros c I. rewrite Forall_forall in F. apply F, strip_in. revert S. unfold signed. destruct (strip l) as [|x r]; [intros E; injection E as _ <-; destruct I|].
    destruct (Z.eq_dec x 43) as [->|N1]; [intros E; injection E as _ <-; now right|]. destruct (Z.eq_dec x 45) as [->|N2]; [intros E; injection E as _ <-; now right|].
    intros E. assert (E' : x :: r = s). { destruct x as [|q|q]; try (injection E as _ <-; reflexivity). do 6 (destruct q as [q|q|]; try (injection E as _ <-; reflexivity); try congruence). }
    rewrite E'. exact I. }
  destruct s as [|c s]; [reflexivity|]. assert (D : digit c = false) by (specialize (I c (or_introl eq_refl)); unfold is_digit, digit in *; lia).
  cbn [scan_digits]. rewrite D. change (0 <? 0) with false. rewrite andb_false_r. reflexivity.
Qed.
Lemma whole_chars l z : whole l z -> Forall (fun c => c <> 10 /\ c <> 13 /\ 0 <= c < 128) l.
Proof.
  intros (s & neg & ds & S & _ & D & -> & _). apply Forall_app. split; [inversion S; repeat constructor; lia|]. eapply Forall_impl; [|exact D]. intros c H. unfold is_digit in H. lia.
Qed.
Lemma typed_answers ls zs : typed ls zs -> answered ls = events_at false zs /\ Forall (Forall (fun c => c <> 10 /\ c <> 13 /\ 0 <= c < 128)) ls.
Proof.
  induction 1 as [|l z ls zs W N H [IH1 IH2]|l ls zs F H [IH1 IH2]]; [split; [reflexivity|constructor]| |].
  - split; [|constructor; [exact (whole_chars l z W)|exact IH2]]. cbn [answered]. rewrite (int_whole l z W), get_event_word, IH1 by lia. reflexivity.
  - split; [|constructor; [eapply Forall_impl; [|exact F]; cbv beta; intros; tauto|exact IH2]]. cbn [answered]. rewrite no_digits; [exact IH1|]. eapply Forall_impl; [|exact F]. cbv beta. intros; tauto.
Qed.
Lemma c133 p tmp args ss fs ls zs : gcommand args ss -> args <> [] -> Forall ggood ss -> ~ In GHelp ss -> last_given gtimes_of ss = None -> typed ls zs ->
  delivers (grun p tmp args fs (lines_text ls)) 1 fs (last_given gout_of ss) greeting (events_at false zs).
Proof.
  intros C NE G NH LT TY. destruct (typed_answers ls zs TY) as [A F]. destruct (run_means p tmp args ss None fs (lines_text ls) C G NE) as [_ R]. destruct (R NH) as (n & M & ->). pose proof (means_out ss None n G M) as MO.
  destruct M as (_ & MT & _ & MI). rewrite LT in MT. unfold gproceed. rewrite MO, MT, MI.
  assert (PL : forallb plain (lines_text ls) = true).
  { clear - F. induction F as [|l ls H HF IH]; [reflexivity|]. cbn [lines_text flat_map]. fold (lines_text ls). rewrite !forallb_app, IH. cbn [forallb plain]. rewrite andb_true_r. apply andb_true_iff. split; [|reflexivity].
    apply forallb_forall. intros c I. rewrite Forall_forall in H. specialize (H c I). unfold plain. lia. }
  rewrite PL. cbn [negb]. rewrite lines_back by (eapply Forall_impl; [|exact F]; intros l; apply Forall_impl; intros; lia). rewrite A.
  pose proof (written_delivers 1 fs (last_given gout_of ss) greeting (events_at false zs)) as D. destruct (last_given gout_of ss); [|exact D].
  change prompt with greeting. rewrite app_nil_r. exact D.
Qed.
