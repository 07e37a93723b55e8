(** C118-C122: whole runs of parse_timestamps. *)
From Coq Require Import QArith String Lia.
From Coq Require Import ZifyBool.
From Verif Require Import Float Base TimestampsModel TimestampsSpec TimestampsProofs2 TimestampsProofs6 ReportModel CdRunModel CdRunProofs ArgModel FpCliSpec CliSpec FpCliProofs CliProofs TsCliModel TsCliSpec TsCliProofs TsCliProofs2.
Import ListNotations. Local Open Scope string_scope. Local Open Scope list_scope. Local Open Scope Z_scope.

Lemma said_ends c fs out : said (Ends (mkEnd c fs out)) c fs out. Proof. eexists. repeat split. Qed.
Lemma wrote_put c fs o out : wrote (Ends (mkEnd c (put fs o out) [])) c fs o out.
Proof. eexists. split; [reflexivity|]. cbn [code stdout files]. split; [reflexivity|]. split; [reflexivity|]. split; [apply put_same|]. intros m M. now apply put_other. Qed.
Lemma code_of x c : code_for x c -> unspecified x = false /\ exit_code x = c.
Proof. destruct x as [[]|]; cbn; intros H; try contradiction; (split; [reflexivity|congruence]). Qed.
Lemma lines_ok l : print_lines l = lines_text l. Proof. unfold print_lines, lines_text. now rewrite flat_map_concat_map. Qed.
Lemma wanted_bool a ss : exists b, wanted a ss b.
Proof. destruct (in_dec want_dec a ss) as [I|I]; [exists true|exists false]; unfold wanted; split; try easy. Qed.
Lemma wanted_true a ss : In a ss -> wanted a ss true. Proof. unfold wanted. tauto. Qed.
Lemma wanted_false a ss : ~ In a ss -> wanted a ss false. Proof. unfold wanted. easy. Qed.
Section Whole.
Variables (lg : Z -> Z) (p : Z) (path : list Z -> list Z) (args : list (list Z)) (ss : list want) (i : list Z) (o : option (list Z)) (fs : filesys).
Hypothesis C : command args ss i o.
Hypothesis G : Forall tgood ss.
Let R := trun lg p path args fs.
Lemma c118_help : In WHelp ss -> R = Shows_help.
Proof. intros H. apply (trun_help lg p path args ss i o fs C); [|exact H]. eapply Forall_impl; [exact good_accepted|exact G]. Qed.
Lemma c118_no_format : ~ In WHelp ss -> last_given from_of ss = None -> said R 2 fs [].
Proof.
  intros H L. unfold R. rewrite (trun_parsed lg p path args ss i o fs C); [|eapply Forall_impl; [exact good_accepted|exact G]|exact H]. rewrite from_last, L. apply said_ends.
Qed.
Variables (fin fout : fmt) (f : filters).
Hypothesis H : ~ In WHelp ss.
Hypothesis HI : input_format ss fin.
Hypothesis HO : output_format ss fout.
Hypothesis HF : filter_asked ss f.
Definition asked mem pr := trun_asked lg p path args ss i o fs C G H fin fout f mem pr HI HO HF.
Lemma c118_no_output : ~ In WPrint ss -> o = None \/ o = Some [] -> said R 1 fs [].
Proof.
  intros P O. destruct (wanted_bool WMemory ss) as (mem & M). unfold R. rewrite (asked mem false M (wanted_false _ _ P)). destruct O as [E|E]; rewrite E; apply said_ends.
Qed.
Lemma c118_no_input : i = [] \/ fs i = None -> said R 1 fs [].
Proof.
  intros I. destruct (wanted_bool WMemory ss) as (mem & M). destruct (wanted_bool WPrint ss) as (pr & P). unfold R. rewrite (asked mem pr M P).
  assert (X : forall (r : list Z -> tends), said (match i, fs i with [], _ | _, None => Ends (mkEnd 1 fs []) | _, Some file => r file end) 1 fs []).
  { intros r. destruct i; [apply said_ends|]. destruct I as [I|I]; [discriminate|]. rewrite I. apply said_ends. }
  destruct pr, o as [[|? ?]|]; try apply X; apply said_ends.
Qed.
Variable file : list Z.
Hypothesis NE : i <> [].
Hypothesis FI : fs i = Some file.
Lemma c118_print mem lines x c : In WPrint ss -> wanted WMemory ss mem -> print_main lg p mem fin f (path i) file = (lines, x) -> code_for x c -> said R c fs (lines_text lines).
Proof.
  intros P M E X. destruct (code_of x c X) as [U K]. unfold R. rewrite (asked mem true M (wanted_true _ _ P)). rewrite FI, E, U, K, lines_ok. destruct i; [congruence|]. apply said_ends.
Qed.
Lemma c118_memory name : ~ In WPrint ss -> In WMemory ss -> o = Some name -> name <> [] ->
  forall out x, convert p true fin fout f file = (out, x) -> (x = None -> wrote R 0 fs name out) /\ (x <> None -> code_for x 1 -> said R 1 fs []).
Proof.
  intros P M EO NN out x E. unfold R. rewrite (asked true false (wanted_true _ _ M) (wanted_false _ _ P)). rewrite EO, FI, E. destruct name; [congruence|]. destruct i; [congruence|]. split.
  - intros ->. apply wrote_put.
  - intros X K. destruct (code_of x 1 K) as [U _]. destruct x; [|congruence]. rewrite U. apply said_ends.
Qed.
Lemma c118_stream name : ~ In WPrint ss -> ~ In WMemory ss -> o = Some name -> name <> [] -> name <> i ->
  forall out x c, convert p false fin fout f file = (out, x) -> code_for x c -> wrote R c fs name out.
Proof.
  intros P M EO NN NI out x c E K. destruct (code_of x c K) as [U X]. unfold R. rewrite (asked false false (wanted_false _ _ M) (wanted_false _ _ P)).
  rewrite EO, FI. cbv zeta. rewrite (put_other fs name [] i) by congruence. rewrite FI, E, U, X. destruct name; [congruence|]. destruct i; [congruence|]. apply wrote_put.
Qed.
Lemma convert_empty fi fo : convert p false fi fo f [] = ([], None).
Proof. destruct fi as [|b|], fo as [|b'|]; reflexivity. Qed.
Lemma c120_empty : ~ In WPrint ss -> ~ In WMemory ss -> o = Some i -> wrote R 0 fs i [].
Proof.
  intros P M EO. unfold R. rewrite (asked false false (wanted_false _ _ M) (wanted_false _ _ P)). rewrite EO, FI. cbv zeta. rewrite put_same, convert_empty. cbn [unspecified exit_code].
  destruct i; [congruence|]. apply wrote_put.
Qed.
End Whole.
Lemma c118_refused lg p path args ss i o fs a : command args ss i o -> ~ In WHelp ss -> In a ss ->
  match a with WFrom t | WTo t => ~ format_text t | _ => False end -> said (trun lg p path args fs) 2 fs [].
Proof.
  intros C H I B. rewrite (trun_refused lg p path args ss i o fs C H); [apply said_ends|]. intros A. rewrite Forall_forall in A. specialize (A a I). destruct a; try contradiction; now apply choice_ok in A.
Qed.
Lemma c118_nothing lg p path fs : said (trun lg p path [] fs) 1 fs []. Proof. apply said_ends. Qed.
Lemma c118_no_file lg p path args ss fs : tspells args ss -> args <> [] -> ~ In WHelp ss -> said (trun lg p path args fs) 2 fs [].
Proof.
  intros W NE H. destruct (fine_kinds ttable topt_of args (tfine args ss W)) as (K & O & A). unfold trun. rewrite O. unfold parse. rewrite K, A.
  destruct (tloop args ss [] 0 tpos W (S (length (ttag args))) false ltac:(unfold tag; rewrite map_length; lia)) as (n & N & E). rewrite app_nil_r in E. rewrite E. unfold tag in N. rewrite map_length in N. destruct n as [|n]; [lia|].
  change (loop ttable (S n) 0 tpos false []) with ([] : list (action (D := tdst)), Some (false, [Must; May])). cbn [existsb orb]. rewrite app_nil_r.
  pose proof (act_no_help (map tgiven ss) nothing (given_no_help ss H)) as X. destruct args; [congruence|]. destruct (act (map tgiven ss) nothing); [apply said_ends|congruence|apply said_ends].
Qed.
Lemma c118 : forall lg p path args ss input output fs, command args ss input output -> Forall tgood ss ->
  (In WHelp ss -> trun lg p path args fs = Shows_help) /\
  (~ In WHelp ss -> last_given from_of ss = None -> said (trun lg p path args fs) 2 fs []) /\
  (~ In WHelp ss -> forall fin fout f memory, input_format ss fin -> output_format ss fout -> filter_asked ss f -> wanted WMemory ss memory ->
    (~ In WPrint ss -> output = None \/ output = Some [] -> said (trun lg p path args fs) 1 fs []) /\
    (input = [] \/ fs input = None -> said (trun lg p path args fs) 1 fs []) /\
    forall file, input <> [] -> fs input = Some file ->
      (In WPrint ss -> forall lines x c, print_main lg p memory fin f (path input) file = (lines, x) -> code_for x c -> said (trun lg p path args fs) c fs (lines_text lines)) /\
      (~ In WPrint ss -> forall name out x c, output = Some name -> name <> [] -> convert p memory fin fout f file = (out, x) -> code_for x c ->
        (memory = true -> x = None -> wrote (trun lg p path args fs) 0 fs name out) /\ (memory = true -> x <> None -> said (trun lg p path args fs) 1 fs []) /\
        (memory = false -> name <> input -> wrote (trun lg p path args fs) c fs name out))).
Proof.
  intros lg p path args ss i o fs C G. split; [exact (c118_help lg p path args ss i o fs C G)|]. split; [intros H; exact (c118_no_format lg p path args ss i o fs C G H)|].
  intros H fin fout f memory HI HO HF HM. split; [exact (c118_no_output lg p path args ss i o fs C G fin fout f H HI HO HF)|]. split; [exact (c118_no_input lg p path args ss i o fs C G fin fout f H HI HO HF)|].
  intros file NE FI. split.
  - intros P lines x c. exact (fun E K => c118_print lg p path args ss i o fs C G fin fout f H HI HO HF file NE FI memory lines x c P HM E K).
  - intros P name out x c EO NN E K. unfold wanted in HM. split; [|split].
    + intros -> ->. now apply (c118_memory lg p path args ss i o fs C G fin fout f H HI HO HF file NE FI name P (proj1 HM eq_refl) EO NN out None E).
    + intros -> X. apply (c118_memory lg p path args ss i o fs C G fin fout f H HI HO HF file NE FI name P (proj1 HM eq_refl) EO NN out x E); [exact X|]. destruct x as [[]|]; cbn in *; try contradiction; congruence.
    + intros -> NI. apply (c118_stream lg p path args ss i o fs C G fin fout f H HI HO HF file NE FI name P) with (x := x); try assumption. intros I. apply HM in I. discriminate.
Qed.
Lemma convertible_convert p memory f fin fout vs : 54 <= p -> convertible memory f fin vs -> convert p memory fin fout f (encode fin vs) = (encode fout (map (converted f) (filter (kept f) vs)), None).
Proof.
  intros P (W & FO & S & X & R). destruct memory.
  - apply convert_memory; try assumption; [intros; apply X; now left|]. unfold readable. destruct fin; [now apply R|exact I|]. destruct R as [R1 R2]. split; [now apply R2|exact R1].
  - apply convert_stream; try assumption; [intros [E|E]; apply X; [now left|right; now split]|]. unfold bufferable. destruct fin; tauto.
Qed.
Lemma c119 : forall lg p path args ss i o fs fin fout f memory vs, 54 <= p -> converting args ss i o fs fin fout f memory vs -> memory = true \/ o <> i ->
  wrote (trun lg p path args fs) 0 fs o (encode fout (map (converted f) (filter (kept f) vs))).
Proof.
  intros lg p path args ss i o fs fin fout f memory vs P (C & G & H & NP & HM & HI & HO & HF & NI & NO & FI & K) D.
  destruct (c118 lg p path args ss i (Some o) fs C G) as (_ & _ & X). destruct (X H fin fout f memory HI HO HF HM) as (_ & _ & Y). destruct (Y _ NI FI) as (_ & T).
  destruct (T NP o _ None 0 eq_refl NO (convertible_convert p memory f fin fout vs P K) eq_refl) as (T1 & _ & T3). destruct memory; [now apply T1|]. apply T3; [reflexivity|]. destruct D as [D|D]; [discriminate|exact D].
Qed.
Lemma c120_actual : forall lg p path args ss i fs fin fout f file, command args ss i (Some i) -> Forall tgood ss -> ~ In WHelp ss -> ~ In WPrint ss -> ~ In WMemory ss ->
  input_format ss fin -> output_format ss fout -> filter_asked ss f -> i <> [] -> fs i = Some file -> wrote (trun lg p path args fs) 0 fs i [].
Proof. intros lg p path args ss i fs fin fout f file C G H NP NM HI HO HF NI FI. exact (c120_empty lg p path args ss i (Some i) fs C G fin fout f H HI HO HF file NI FI NP NM eq_refl). Qed.
Lemma c120_partial : forall lg p path args ss i fs fin fout f vs, 54 <= p -> converting args ss i i fs fin fout f true vs ->
  wrote (trun lg p path args fs) 0 fs i (encode fout (map (converted f) (filter (kept f) vs))).
Proof. intros lg p path args ss i fs fin fout f vs P K. apply (c119 lg p path args ss i i fs fin fout f true vs P K). now left. Qed.
(** ** The order of options and file names *)
Definition stops (a : want) : Prop := a = WHelp \/ ~ accepted a.
Definition stop_of (a : want) : parsed := match a with WHelp => Helped | _ => Refused end.
Lemma act_stop x a y r n : Forall accepted x -> ~ In WHelp x -> stops a -> act (map tgiven (x ++ a :: y) ++ r) n = stop_of a.
Proof.
  intros A H [->|S]; [now apply act_help|]. rewrite act_refused by assumption. destruct a; try reflexivity. exfalso. apply S. exact I.
Qed.
Lemma first_stop ss : (Forall accepted ss /\ ~ In WHelp ss) \/ exists x a y, ss = x ++ a :: y /\ Forall accepted x /\ ~ In WHelp x /\ stops a.
Proof.
  induction ss as [|a ss IH]; [left; split; [constructor|easy]|]. destruct (want_dec a WHelp) as [E|E]; [right; exists [], a, ss; repeat split; [constructor|easy|now left]|].
  destruct (accepted_dec a) as [A|A]; [|right; exists [], a, ss; repeat split; [constructor|easy|now right]].
  destruct IH as [[IH1 IH2]|(x & b & y & -> & F & N & S)]; [left; split; [now constructor|intros [X|X]; [congruence|contradiction]]|].
  right. exists (a :: x), b, y. split; [reflexivity|]. split; [now constructor|]. split; [intros [X|X]; [congruence|contradiction]|exact S].
Qed.
Lemma app_split {A} (s1 s2 x y : list A) a : s1 ++ s2 = x ++ a :: y -> (exists y', s1 = x ++ a :: y') \/ exists x', x = s1 ++ x' /\ s2 = x' ++ a :: y.
Proof.
  revert x. induction s1 as [|b s1 IH]; intros x E; [right; now exists x|]. destruct x as [|c x]; cbn [app] in E; injection E as -> E; [left; now exists s1|].
  destruct (IH x E) as [(y' & ->)|(x' & -> & ->)]; [left; now exists y'|right; now exists x'].
Qed.
Lemma act_stopped s1 s2 i o x a y : s1 ++ s2 = x ++ a :: y -> Forall accepted x -> ~ In WHelp x -> stops a -> act (map tgiven s1 ++ placed i o ++ map tgiven s2) nothing = stop_of a.
Proof.
  intros E A H S. destruct (app_split s1 s2 x y a E) as [(y' & ->)|(x' & -> & ->)]; [now apply act_stop|]. apply Forall_app in A as [A1 A2].
  rewrite act_all; [|exact A1|intros I; apply H, in_or_app; now left]. rewrite act_placed, <- (app_nil_r (map _ _)). apply act_stop; [exact A2| |exact S]. intros I. apply H, in_or_app. now right.
Qed.
Lemma c121_partial : forall lg p path args args' ss i o fs, command args ss i o -> command args' ss i o -> trun lg p path args fs = trun lg p path args' fs.
Proof.
  intros lg p path args args' ss i o fs C C'. destruct (first_stop ss) as [[A H]|(x & a & y & E & A & H & S)].
  - rewrite (trun_parsed lg p path args ss i o fs C A H), (trun_parsed lg p path args' ss i o fs C' A H). reflexivity.
  - destruct (trun_acts lg p path args ss i o fs C) as (s1 & s2 & E1 & ->). destruct (trun_acts lg p path args' ss i o fs C') as (t1 & t2 & E2 & ->). rewrite E in E1, E2.
    rewrite (act_stopped s1 s2 i o x a y (eq_sym E1) A H S), (act_stopped t1 t2 i o x a y (eq_sym E2) A H S). reflexivity.
Qed.
Lemma c121_actual : forall lg p path args ss i o fs, between args ss i o -> ~ In WHelp ss -> said (trun lg p path args fs) 2 fs [].
Proof.
  intros lg p path args ss i o fs (a1 & s1 & a2 & s2 & a3 & s3 & W1 & W2 & W3 & N2 & -> & HI & HO & ->) H.
  assert (F : Forall (fine ttable topt_of) (a1 ++ i :: a2 ++ o :: a3)).
  { apply Forall_app. split; [exact (tfine a1 s1 W1)|]. constructor; [now apply name_fine|]. apply Forall_app. split; [exact (tfine a2 s2 W2)|]. constructor; [now apply name_fine|exact (tfine a3 s3 W3)]. }
  destruct (fine_kinds ttable topt_of _ F) as (K & O & A).
  assert (P : exists l, Forall no_help l /\ parse ttable tpos (a1 ++ i :: a2 ++ o :: a3) = (l, true)).
  { exists (map tgiven s1 ++ placed i None ++ map tgiven s2 ++ map tgiven s3). split.
    { rewrite !Forall_app. repeat split; try (apply given_no_help; intros X; apply H; rewrite !in_app_iff; tauto). unfold placed. constructor; [exact I|]. constructor; [exact I|constructor]. }
    unfold parse. rewrite K, A. set (n := length (ttag (a1 ++ i :: a2 ++ o :: a3))).
    assert (L : n = (length a1 + S (length a2 + S (length a3)))%nat) by (unfold n, tag; rewrite map_length, app_length; cbn [length]; rewrite app_length; reflexivity).
    rewrite tag_app. destruct (tloop a1 s1 (ttag (i :: a2 ++ o :: a3)) 0 tpos W1 (S n) false ltac:(lia)) as (m & M & ->). destruct m as [|m]; [lia|].
    assert (NE : a2 <> []) by (intros ->; inv W2; congruence). destruct (tfirst a2 s2 W2 NE) as (w & r & E2 & OP).
    assert (E : loop ttable (S m) 0 tpos false (ttag (i :: a2 ++ o :: a3)) = (placed i None ++ map tgiven s2 ++ map tgiven s3, Some (true, []))); [|rewrite E; reflexivity].
    cbn [tag map]. fold (ttag (a2 ++ o :: a3)). rewrite tag_app, (name_arg i HI). cbn [loop existsb snd is_opt orb].
    assert (EX : existsb (fun x => is_opt (snd x)) (ttag a2 ++ ttag (o :: a3)) = true) by (rewrite E2; cbn [tag map app existsb snd]; rewrite OP; reflexivity). rewrite EX.
    assert (PA : partial 2 [Must; May] ((i, Arg) :: ttag a2 ++ ttag (o :: a3)) = [1%nat; 0%nat]).
    { rewrite E2. cbn [tag map app]. cbn [partial firstn matched_all matched dashes skipn Nat.add]. destruct (classify_any ttable w); try discriminate OP; reflexivity. }
    unfold tpos. cbn [length]. rewrite PA. cbn [length place map fst firstn skipn total fold_right Nat.add]. change (0 <? 1)%nat with true. cbv iota. rewrite (undash_name i HI). cbn [undash].
    destruct (tloop a2 s2 (ttag (o :: a3)) 2 [] W2 m false ltac:(lia)) as (k & KK & ->). destruct k as [|k]; [lia|].
    assert (E3 : loop ttable (S k) 2 [] false (ttag (o :: a3)) = (map tgiven s3, Some (true, []))); [|rewrite E3; reflexivity].
    cbn [tag map]. fold (ttag a3). rewrite (name_arg o HO). cbn [loop existsb snd is_opt orb]. destruct a3 as [|w3 a3].
    - inv W3. reflexivity.
    - destruct (tfirst (w3 :: a3) s3 W3 ltac:(discriminate)) as (w' & r' & E' & OP'). injection E' as <- <-. cbn [tag map existsb snd]. rewrite OP'. cbn [orb length partial place total fold_right skipn app]. change (0 <? 0)%nat with false. cbv iota.
      fold (ttag a3). change ((w3, classify_any ttable w3) :: ttag a3) with (ttag (w3 :: a3)). rewrite (tloop_end (w3 :: a3) s3 (2 + 0) true k W3); [reflexivity|]. cbn [length] in *. lia. }
  destruct P as (l & NH & P). unfold trun. assert (NE : a1 ++ i :: a2 ++ o :: a3 <> []) by (destruct a1; discriminate). destruct (a1 ++ i :: a2 ++ o :: a3) as [|w r]; [congruence|]. rewrite O, P.
  pose proof (act_no_help l nothing NH) as X. destruct (act l nothing); [apply said_ends|congruence|]. cbn [orb]. apply said_ends.
Qed.
