(** Proofs of C197 and C198. *)
From Coq Require Import String List.
From Verif Require Import Base FreqcdModel FreqcdSpec FreqcdExamples FreqcdProofs FreqcdProofs6 Float FreqcdCli FreqcdCliSpec FreqcdCliStatements FreqcdCliProofs FreqcdCliRefute CdRunModel CdWordSpec.
From Coq Require Import ZifyBool.
Import ListNotations.
Local Open Scope Z_scope.

(** ** Numbers *)
Lemma scan_digits_rest : forall s acc any n any' rest, scan_digits s acc any = (n, any', rest) -> match rest with c :: _ => ~ digit c | [] => True end.
Proof.
  induction s as [|c s IH]; intros acc any n any' rest H; cbn in H; [now inv H|].
  destruct (is_digit c) eqn:E; [eapply IH; exact H|]. inv H. intros D. apply is_digit_digit in D. congruence.
Qed.
Lemma strtol_begins t w rest : strtol t = (true, w, rest) -> exists v, begins t v /\ w = clampl v.
Proof.
  unfold strtol. destruct (skip_spaces_inv t) as (ws & E & B). destruct (skip_spaces t) as [|c r] eqn:SS; [discriminate|].
  assert (NE : forall ds : list Z, true = false || nonempty ds -> ds <> []) by (intros [|] H; [discriminate|congruence]).
  destruct (c =? 45) eqn:C1; [|destruct (c =? 43) eqn:C2].
  - assert (c = 45) by lia. subst c. destruct (scan_digits r 0 false) as [[n any] rest'] eqn:SD. destruct any; [|discriminate]. intros H; injection H as <- ->.
    pose proof (scan_digits_rest _ _ _ _ _ _ SD) as R. apply scan_digits_inv in SD as (ds & -> & D & -> & NN).
    exists (- decimal ds). split; [|reflexivity]. exists (ws ++ [45] ++ ds), rest. split; [now rewrite E, <- !app_assoc|]. split; [|exact R]. apply (Denotes _ _ ws [45] ds); auto.
  - assert (c = 43) by lia. subst c. destruct (scan_digits r 0 false) as [[n any] rest'] eqn:SD. destruct any; [|discriminate]. intros H; injection H as <- ->.
    pose proof (scan_digits_rest _ _ _ _ _ _ SD) as R. apply scan_digits_inv in SD as (ds & -> & D & -> & NN).
    exists (decimal ds). split; [|reflexivity]. exists (ws ++ [43] ++ ds), rest. split; [now rewrite E, <- !app_assoc|]. split; [|exact R]. apply (Denotes _ _ ws [43] ds); auto.
  - destruct (scan_digits (c :: r) 0 false) as [[n any] rest'] eqn:SD. destruct any; [|discriminate]. intros H; injection H as <- ->.
    pose proof (scan_digits_rest _ _ _ _ _ _ SD) as R. apply scan_digits_inv in SD as (ds & E2 & D & -> & NN).
    exists (decimal ds). split; [|reflexivity]. exists (ws ++ [] ++ ds), rest. split; [rewrite E, E2; cbn [app]; now rewrite <- app_assoc|]. split; [|exact R]. apply (Denotes _ _ ws [] ds); auto.
Qed.
Lemma scan_digits_app : forall ds r acc any, Forall digit ds -> match r with c :: _ => ~ digit c | [] => True end ->
  scan_digits (ds ++ r) acc any = (fold_left (fun n c => 10 * n + (c - 48)) ds acc, any || nonempty ds, r).
Proof.
  induction ds as [|c ds IH]; intros r acc any D R; cbn [app scan_digits fold_left nonempty].
  - rewrite orb_false_r. destruct r as [|c r]; [reflexivity|]. cbn [scan_digits]. destruct (is_digit c) eqn:E; [|reflexivity]. apply is_digit_digit in E. contradiction.
  - inv D. apply is_digit_digit in H1. rewrite H1, IH by assumption. now rewrite orb_true_r.
Qed.
Lemma begins_strtol t v : begins t v -> exists rest, strtol t = (true, clampl v, rest).
Proof.
  intros (num & r & -> & [ws sg ds -> B D NE S] & R). exists r. unfold strtol. rewrite <- app_assoc.
  rewrite skip_spaces_app; [|assumption|].
  2:{ destruct ds as [|d ds]; [congruence|]. inv D.
      destruct S as [[[->| ->] _]|[-> _]]; cbn; [now apply digit_not_blank|unfold blank; lia|unfold blank; lia]. }
  pose proof (scan_digits_app ds r 0 false D R) as SD. fold (decimal ds) in SD.
  assert (NN : nonempty ds = true) by (destruct ds; [congruence|reflexivity]). rewrite NN in SD. cbn [orb] in SD.
  destruct S as [[[->| ->] ->]|[-> ->]]; cbn [app].
  - destruct ds as [|d ds']; [congruence|]. inv D. unfold digit in H1. cbn [app] in *.
    replace (d =? 45) with false by lia. replace (d =? 43) with false by lia. now rewrite SD.
  - cbn [Z.eqb Pos.eqb]. now rewrite SD.
  - cbn [Z.eqb Pos.eqb]. now rewrite SD.
Qed.
Lemma begins_stored t v w : begins t v -> begins t w -> stored v = stored w.
Proof. intros H1 H2. apply begins_strtol in H1 as [a H1]. apply begins_strtol in H2 as [b H2]. unfold stored. f_equal. change (clampl v = clampl w). congruence. Qed.
Lemma stored_range v : - 2 ^ 31 <= stored v < 2 ^ 31.
Proof. unfold stored, s32. generalize (Z.max (- 2 ^ 63) (Z.min (2 ^ 63 - 1) v)). intros z. change (2 ^ 31) with 2147483648. change (2 ^ 32) with 4294967296. pose proof (Z.mod_pos_bound (z + 2147483648) 4294967296 ltac:(lia)). lia. Qed.
Lemma cli_any prog args ss t : writes args ss -> (ss = [Corr t] \/ ss = [Decimal; Corr t]) ->
  (forall v, begins t v -> answers (prog :: args) (run_with (actual (match ss with Decimal :: _ => true | _ => false end) (stored v)))) /\
  ((forall v, ~ begins t v) -> answers (prog :: args) (Stops (-4))).
Proof.
  intros W SS. unfold answers. rewrite (cli_writes _ _ _ W). split.
  - intros v Hb. apply begins_strtol in Hb as [rest E]. assert (SD : sscanf_d t = Some (stored v)) by (unfold sscanf_d; rewrite E; reflexivity).
    pose proof (stored_range v) as R. destruct SS as [->| ->].
    + replace (apply_all config0 [Corr t]) with (Ok (E := trap) (@inl config Z (final config0 (stored v)))) by (cbn [apply_all letter argument]; unfold option_step; cbn [Z.eqb Pos.eqb]; now rewrite SD).
      eexists. split; [reflexivity|]. rewrite check_actual by exact R. change (c_decimal (final config0 (stored v))) with false. change (c_fcorr (final config0 (stored v))) with (stored v).
      destruct (actual false (stored v)); reflexivity.
    + set (c1 := mkC 0 (c_in config0) (c_out config0) (c_freq config0) false true).
      replace (apply_all config0 [Decimal; Corr t]) with (Ok (E := trap) (@inl config Z (final c1 (stored v)))) by (cbn [apply_all letter argument]; unfold option_step; cbn [Z.eqb Pos.eqb]; now rewrite SD).
      eexists. split; [reflexivity|]. rewrite check_actual by exact R. change (c_decimal (final c1 (stored v))) with true. change (c_fcorr (final c1 (stored v))) with (stored v).
      destruct (actual true (stored v)); reflexivity.
  - intros N. assert (SD : sscanf_d t = None).
    { unfold sscanf_d. destruct (strtol t) as [[[|] w] rest] eqn:E; [|reflexivity]. apply strtol_begins in E as (v & Hb & _). now apply N in Hb. }
    exists (Exit (-4)). split; [|reflexivity]. destruct SS as [->| ->]; cbn [apply_all letter argument]; unfold option_step; cbn [Z.eqb Pos.eqb]; now rewrite SD.
Qed.
Lemma c197 prog t :
  (forall v, begins t v -> answers [prog; dash_f; t] (run_with (actual false (stored v))) /\ answers [prog; dash_d; dash_f; t] (run_with (actual true (stored v)))) /\
  ((forall v, ~ begins t v) -> answers [prog; dash_f; t] (Stops (-4)) /\ answers [prog; dash_d; dash_f; t] (Stops (-4))).
Proof.
  destruct (cli_any prog _ _ t (writes_f t) (or_introl eq_refl)) as [A1 A2]. destruct (cli_any prog _ _ t (writes_df t) (or_intror eq_refl)) as [B1 B2].
  split; [intros v Hb; split; [exact (A1 v Hb)|exact (B1 v Hb)]|intros N; split; [exact (A2 N)|exact (B2 N)]].
Qed.
Lemma begins_12 : begins (str "12abc") 12.
Proof.
  exists (str "12"), (str "abc"). split; [reflexivity|]. split; [|cbn; unfold digit; lia].
  apply denotes_of_strtol; [vm_compute; reflexivity|split; reflexivity].
Qed.
Lemma not_12 n : ~ denotes (str "12abc") n.
Proof. intros D. apply strtol_denotes in D. apply (f_equal snd) in D. vm_compute in D. discriminate. Qed.
Lemma C197_refuted_lemma : ~ C197_statement.
Proof.
  intros H. specialize (H (str "freqcd") (str "12abc") not_12). destruct (c197 (str "freqcd") (str "12abc")) as [A _]. destruct (A 12 begins_12) as [B _].
  pose proof (answers_fun _ _ _ H B) as E. discriminate E.
Qed.

(** ** Options *)
Lemma unknown_strchr c : unknown c -> (if c =? COLON then None else strchr OPTS c) = None.
Proof.
  intros [_ N]. destruct (c =? COLON) eqn:E; [reflexivity|]. unfold COLON in E.
  pose proof (N Legacy). pose proof (N Decimal). pose proof (N Help). pose proof (N (InName [])). pose proof (N (OutName [])). pose proof (N (FreqName [])). pose proof (N (Corr [])). cbn [letter] in *.
  unfold OPTS. cbn [strchr].
  repeat match goal with |- (if ?a =? c then _ else _) = None => replace (a =? c) with false by lia end. reflexivity.
Qed.
Lemma loops_skip argv g pl i c r : getopt argv OPTS g = (Some QUESTION, None, mkG pl i) -> loops argv (mkG pl i) c r -> loops argv g c r.
Proof. intros E H. eapply loops_step; [exact E|]. exact H. Qed.
Lemma getopt_unknown argv i x cs : unknown x -> getopt argv OPTS (mkG (x :: cs) i) = (Some QUESTION, None, mkG cs (match cs with [] => i + 1 | _ => i end)).
Proof. intros U. unfold getopt. cbn [place optind]. rewrite unknown_strchr by assumption. destruct U as [D _]. unfold DASH. now replace (x =? 45) with false by lia. Qed.
Lemma loops_cluster argv i pl ss :
  (forall c', loops argv (match pl with [] => mkG [] (i + 1) | _ => mkG pl i end) c' (apply_all c' ss)) ->
  forall cs fs, cluster cs fs -> forall c, cs <> [] \/ pl <> [] -> loops argv (mkG (cs ++ pl) i) c (apply_all c (fs ++ ss)).
Proof.
  intros H. induction 1 as [|x cs fs U K IH|s cs fs F K IH]; intros c N.
  - cbn [app]. destruct pl; [destruct N; congruence|]. apply H.
  - cbn [app]. eapply loops_skip; [apply getopt_unknown; assumption|]. destruct cs as [|y cs].
    + inv K. cbn [app]. specialize (H c). destruct pl; exact H.
    + cbn [app] in *. apply IH. left; discriminate.
  - cbn [app]. eapply loops_apply.
    + rewrite F. apply getopt_flag; [reflexivity|assumption].
    + intros c'. destruct cs as [|y cs].
      * inv K. cbn [app optind]. specialize (H c'). destruct pl; exact H.
      * cbn [app optind] in *. apply IH. left; discriminate.
Qed.
Lemma cluster_head cs fs r : cluster cs fs -> (cs <> [] \/ hd 0 r <> 45) -> hd 0 (cs ++ r) <> 45.
Proof. intros [|c cs' fs' [U _] _|s cs' fs' _ _] N; [destruct N; [congruence|assumption]|exact U|apply letter_not_dash]. Qed.
Lemma loops_end argv i c : 0 <= i -> no_options (drop i argv) -> loops argv (mkG [] i) c (Ok (inl c)).
Proof.
  intros Hi N. exists 1%nat. cbn [option_loop]. pose proof (getopt_end argv i Hi N) as E.
  destruct (getopt argv OPTS (mkG [] i)) as [[o a] g']. cbn in E. now rewrite E.
Qed.
Lemma loops_loosely argv args ss : loosely args ss -> forall i c, 0 <= i -> drop i argv = args -> loops argv (mkG [] i) c (apply_all c ss).
Proof.
  induction 1 as [args N|args|cs fs rest args K|cs fs s t K A|cs fs args ss K N W IH|cs fs s t args ss K A N W IH|cs fs s t args ss K A W IH]; intros i c Hi D.
  - apply loops_end; [assumption|now rewrite D].
  - exists 1%nat. cbn [option_loop apply_all]. unfold getopt. cbn [place optind]. destruct (len argv <=? i) eqn:L; [reflexivity|]. rewrite argn_drop, D. reflexivity.
  - destruct (list_eq_dec Z.eq_dec cs []) as [->|NC].
    + inv K. apply loops_end; [assumption|]. rewrite D. right. exists rest. reflexivity.
    + eapply loops_word; [assumption|exact D|destruct cs; discriminate|eapply cluster_head; [exact K|now left]|].
      rewrite <- (app_nil_r fs). apply loops_cluster; [|assumption|now left]. intros c'. exists 1%nat. reflexivity.
  - pose proof (drop_S _ _ _ _ Hi D) as D1. assert (L : (len argv <=? i + 1) = true) by (apply Z.leb_le; apply drop_nil; [lia|exact D1]).
    eapply loops_word; [assumption|exact D|destruct cs; discriminate|eapply cluster_head; [exact K|right; apply letter_not_dash]|].
    rewrite <- (app_nil_r fs). apply loops_cluster; [|assumption|right; discriminate]. intros c'. cbn [apply_all].
    eapply loops_skip; [rewrite (getopt_arg _ _ s t []) by (first [reflexivity|assumption]); cbn [optind]; rewrite L; reflexivity|].
    exists 1%nat. cbn [option_loop]. unfold getopt. cbn [place optind]. now rewrite L.
  - rewrite <- (app_nil_r cs) in D. eapply loops_word; [assumption|exact D|destruct cs; [congruence|discriminate]|eapply cluster_head; [exact K|now left]|].
    apply loops_cluster; [|assumption|now left]. intros c'. apply IH; [lia|]. eapply drop_S; [assumption|exact D].
  - eapply loops_word; [assumption|exact D|destruct cs; discriminate|eapply cluster_head; [exact K|right; apply letter_not_dash]|].
    apply loops_cluster; [|assumption|right; discriminate]. intros c'. eapply loops_apply.
    + rewrite (getopt_arg _ _ s t t); [|reflexivity|assumption]. destruct t; [congruence|]. rewrite A. reflexivity.
    + intros c2. cbn [optind]. apply IH; [lia|]. eapply drop_S; [assumption|exact D].
  - pose proof (drop_S _ _ _ _ Hi D) as D1. pose proof (drop_S _ _ _ _ (ltac:(lia) : 0 <= i + 1) D1) as D2.
    eapply loops_word; [assumption|exact D|destruct cs; discriminate|eapply cluster_head; [exact K|right; apply letter_not_dash]|].
    apply loops_cluster; [|assumption|right; discriminate]. intros c'. eapply loops_apply.
    + rewrite (getopt_arg _ _ s t []); [|reflexivity|assumption]. cbn [optind].
      destruct (len argv <=? i + 1) eqn:L.
      { apply Z.leb_le, (drop_nil (i + 1) argv ltac:(lia)) in L. congruence. }
      rewrite argn_drop, D1, A. reflexivity.
    + intros c2. cbn [optind]. apply IH; [lia|]. exact D2.
Qed.
Lemma cli_loosely prog args ss : loosely args ss ->
  cli (prog :: args) = Some (match apply_all config0 ss with
                             | Err e => Err e
                             | Ok (inr k) => Ok (Exit k)
                             | Ok (inl c) => Ok (check_fcorr c)
                             end).
Proof.
  intros W. destruct (loops_loosely (prog :: args) args ss W 1 config0 ltac:(lia) eq_refl) as [fuel E].
  unfold cli. pose proof (option_loop_fuel (prog :: args) (cli_fuel (prog :: args)) (mkG [] 1) config0) as H.
  assert (G : gok (prog :: args) (mkG [] 1)) by (split; cbn; [lia|congruence]).
  specialize (H G). unfold todo in H. cbn [place optind] in H.
  unfold cli_fuel in *. fold (size (prog :: args)) in *.
  pose proof (size_drop (prog :: args) 1). specialize (H ltac:(lia)).
  destruct (option_loop (S (size (prog :: args))) (prog :: args) (mkG [] 1) config0) as [r|] eqn:R; [|congruence].
  assert (r = apply_all config0 ss).
  { pose proof (option_loop_mono _ _ _ _ _ R (Nat.max fuel (S (size (prog :: args)))) ltac:(lia)) as R1.
    pose proof (option_loop_mono _ _ _ _ _ E (Nat.max fuel (S (size (prog :: args)))) ltac:(lia)) as R2. congruence. }
  subst r. destruct (apply_all config0 ss) as [[?|?]|?]; reflexivity.
Qed.
Lemma c198 strict junk ib ob fb prog args args' ss fs stdin : loosely args ss -> writes args' ss ->
  freqcd_main strict junk ib ob fb (prog :: args) fs stdin = freqcd_main strict junk ib ob fb (prog :: args') fs stdin.
Proof. intros L W. unfold freqcd_main. now rewrite (cli_loosely prog _ _ L), (cli_writes prog _ _ W). Qed.
Lemma unknown_z : unknown 122.
Proof. split; [discriminate|]. intros []; discriminate. Qed.
Lemma C198_refuted_lemma : ~ C198_statement.
Proof.
  intros H. destruct (H (str "freqcd") 122 [] unknown_z) as (k & o & E & O). change (cli [str "freqcd"; [45; 122]]) with (cli [str "freqcd"; str "-z"]) in E.
  rewrite (cli_loosely (str "freqcd") [str "-z"] []) in E by (apply (L_flags [122] [] [] []); [apply K_unknown; [exact unknown_z|constructor]|discriminate|constructor; exact I]).
  injection E as <-. discriminate O.
Qed.

(** ** Every command line *)
Lemma letter_cases c : c = 45 \/ unknown c \/ exists s, c = letter s.
Proof.
  destruct (Z.eq_dec c 45) as [E|N]; [now left|right].
  destruct (in_dec Z.eq_dec c [120; 100; 104; 105; 111; 70; 102]) as [J|J].
  - right. cbn [In] in J. destruct J as [<-|[<-|[<-|[<-|[<-|[<-|[<-|[]]]]]]]]; [exists Legacy|exists Decimal|exists Help|exists (InName [])|exists (OutName [])|exists (FreqName [])|exists (Corr [])]; reflexivity.
  - left. split; [exact N|]. intros s E. apply J. rewrite E. destruct s; cbn; tauto.
Qed.
Definition with_value (s : setting) (t : list Z) : setting :=
  match s with InName _ => InName t | OutName _ => OutName t | FreqName _ => FreqName t | Corr _ => Corr t | _ => s end.
Lemma with_value_ok s a t : argument s = Some a -> letter (with_value s t) = letter s /\ argument (with_value s t) = Some t.
Proof. destruct s; intros H; inv H; split; reflexivity. Qed.
Lemma cluster_split : forall body, exists cs fs, cluster cs fs /\ (body = cs \/ (exists rest, body = cs ++ 45 :: rest) \/ exists s a rest, body = cs ++ letter s :: rest /\ argument s = Some a).
Proof.
  induction body as [|x body (cs & fs & K & IH)]; [exists [], []; split; [constructor|now left]|].
  assert (EXT : forall gs, cluster (x :: cs) gs -> exists cs0 fs0, cluster cs0 fs0 /\ (x :: body = cs0 \/ (exists rest, x :: body = cs0 ++ 45 :: rest) \/ exists s a rest, x :: body = cs0 ++ letter s :: rest /\ argument s = Some a)).
  { intros gs K'. exists (x :: cs), gs. split; [exact K'|]. cbn [app]. destruct IH as [->|[[rest ->]|(s & a & rest & -> & A)]]; [now left|right; left; now exists rest|right; right; now exists s, a, rest]. }
  destruct (letter_cases x) as [->|[U|[s ->]]].
  - exists [], []. split; [constructor|]. right. left. now exists body.
  - apply (EXT fs). now constructor.
  - destruct (argument s) as [a|] eqn:A; [|apply (EXT (s :: fs)); now constructor].
    exists [], []. split; [constructor|]. right. right. now exists s, a, body.
Qed.
Lemma loosely_all : forall n args, (length args <= n)%nat -> exists ss, loosely args ss.
Proof.
  induction n as [|n IH]; intros args L.
  { destruct args; [|cbn in L; lia]. exists []. constructor. exact I. }
  destruct args as [|w args]; [exists []; constructor; exact I|]. cbn [length] in L.
  destruct w as [|x body]; [exists []; constructor; left; discriminate|].
  destruct (Z.eq_dec x 45) as [->|NX]; [|exists []; constructor; left; intros r E; congruence].
  destruct (IH args ltac:(lia)) as [ss W]. destruct (cluster_split body) as (cs & fs & K & [->|[[rest ->]|(s & a & rest & -> & A)]]).
  - destruct cs as [|y cs]; [exists []; apply L_dash|]. exists (fs ++ ss)%list. apply L_flags; [exact K|discriminate|exact W].
  - exists fs. now apply L_stop.
  - destruct (with_value_ok s a rest A) as [E1 E2]. destruct rest as [|y rest].
    + destruct args as [|t args]; [exists fs; eapply L_missing; eassumption|]. cbn [length] in L. destruct (IH args ltac:(lia)) as [ss' W'].
      destruct (with_value_ok s a t A) as [E3 E4]. exists (fs ++ with_value s t :: ss')%list. rewrite <- E3. now apply L_detached.
    + exists (fs ++ with_value s (y :: rest) :: ss)%list. rewrite <- E1. apply L_attached; [exact K|exact E2|discriminate|exact W].
Qed.
Lemma writable : forall ss, exists args, writes args ss.
Proof.
  induction ss as [|s ss [args W]]; [exists []; constructor; exact I|]. destruct (argument s) as [t|] eqn:A.
  - exists ((45 :: [letter s]) :: t :: args). apply (W_detached [] s t args ss); [constructor|exact A|exact W].
  - exists ((45 :: [letter s]) :: args). apply (W_flags [s] args ss); [constructor; [exact A|constructor]|discriminate|exact W].
Qed.
Lemma c198_all args : exists ss args', loosely args ss /\ writes args' ss.
Proof. destruct (loosely_all (length args) args (le_n _)) as [ss L]. destruct (writable ss) as [args' W]. now exists ss, args'. Qed.
