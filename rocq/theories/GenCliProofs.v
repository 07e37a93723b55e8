(** Proofs about the command line of generate_freqcd_testcase. *)
From Coq Require Import QArith String Lia.
From Coq Require Import ZifyBool.
From Verif Require Import Float Base TimestampsModel TimestampsSpec FpfindModel FpfindSpec MiscModel CdRunModel CdRunProofs ArgModel FpCliSpec CliSpec FpCliProofs CliProofs TsCliModel TsCliSpec TsCliProofs GenCliModel GenCliSpec.
Import ListNotations. Local Open Scope string_scope. Local Open Scope list_scope. Local Open Scope Z_scope.

Definition gdst_of (a : gask) : gdst := match a with GHelp => DHelp | GLegacy => DLegacy | GOut _ => DOut | GTimes _ => DHelp end.
(** the option of a request other than times *)
Definition gopt_of (a : gask) : opt gdst :=
  match a with GOut _ => mkOpt DOut [[45; 111]] One | GLegacy => mkOpt DLegacy [[45; 120]] No | _ => mkOpt DHelp [[45; 104]; codes "--help"] No end.
Definition times_opt : opt gdst := mkOpt DTimes [[45; 116]] Some_of.
Lemma g_one a c : gletter a = Some c -> exactly gtable [45; c] = Some (gopt_of a).
Proof. destruct a; intros H; try discriminate; injection H as <-; reflexivity. Qed.
Lemma g_more a c d r : gletter a = Some c -> classify gtable (45 :: c :: d :: r) = Known (gopt_of a) (Some (d :: r)).
Proof. destruct a; intros H; try discriminate; injection H as <-; reflexivity. Qed.
Lemma g_code a c : gletter a = Some c -> c <> 45 /\ c <> 61 /\ 0 <= c < 128.
Proof. destruct a; intros H; try discriminate; injection H as <-; lia. Qed.
Lemma g_arity a : arity_of (gopt_of a) = match gargument a with Some _ => One | None => No end. Proof. destruct a; reflexivity. Qed.
Lemma g_number : forall x, In x (all_names gtable) -> exists c r, fst x = 45 :: c :: r /\ (57 < c \/ c = 45).
Proof. intros x I. unfold gtable in I. cbn in I. repeat (destruct I as [<-|I]; [cbn [fst]; eexists; eexists; split; [reflexivity|lia]|]). destruct I. Qed.
Lemma g_long p a : shortens gword gwords p a -> classify gtable p = Known (gopt_of a) None /\ ascii_text p /\ ~ In 61 p.
Proof.
  intros (L & w & r & W & E & _). destruct a; try discriminate W.
  assert (P : p = firstn (length p) w) by (rewrite E, firstn_app, Nat.sub_diag, firstn_all, app_nil_r; reflexivity).
  assert (HW : w = codes "--help") by (cbn [gword] in W; congruence). rewrite HW in P, E. clear W HW.
  assert (N : (length p <= 6)%nat) by (apply (f_equal (@length Z)) in E; rewrite app_length in E; cbn in E; lia).
  assert (M : (3 <= length p)%nat) by (unfold len in L; lia).
  assert (C : (length p = 3 \/ length p = 4 \/ length p = 5 \/ length p = 6)%nat) by lia.
  destruct C as [C|[C|[C|C]]]; rewrite C in P; cbn [firstn codes] in P; subst p; (split; [reflexivity|split; [repeat constructor; cbn; lia|cbn [In]; intuition discriminate]]).
Qed.
Lemma g_dash p a : shortens gword gwords p a -> double_dash p = true.
Proof.
  intros (L & w & r & W & E & _). destruct p as [|c0 [|c1 p]]; [exfalso; unfold len in L; cbn [length] in L; lia|exfalso; unfold len in L; cbn [length] in L; lia|]. destruct a; try discriminate W; injection W as <-; injection E as <- <- _; reflexivity.
Qed.
Notation ggiven := (given_of gargument gopt_of).
Notation gtag := (tag gtable).
Definition ggiven' (a : gask) : action (D := gdst) := match a with GTimes ts => Given DTimes ts | a => ggiven a end.
Definition no_times (a : gask) : Prop := match a with GTimes _ => False | _ => True end.
Lemma plain_given ss : Forall no_times ss -> map ggiven' ss = map ggiven ss.
Proof. induction 1 as [|a ss H HF IH]; [reflexivity|]. cbn [map]. rewrite IH. f_equal. destruct a; [reflexivity..|destruct H]. Qed.
Lemma spelled_plain a s : gspells a s -> Forall no_times s.
Proof.
  assert (SW : forall f c, switch gletter gargument f c -> no_times f) by (intros f c [A B]; destruct f; [exact I|exact I|exact I|discriminate]).
  assert (SWS : forall fs cs, Forall2 (switch gletter gargument) fs cs -> Forall no_times fs) by (induction 1; constructor; eauto).
  induction 1 as [|fs cs args ss NE HF W IH|fs cs a c t args ss HF La Aa ST AT W IH|fs cs a c t args ss HF La Aa OW AT W IH|p a args ss Aa AB W IH|p a t args ss Aa AB OW AT W IH|a c t args ss La Aa AT W IH|p a t args ss Aa AB AT W IH]; try constructor;
    try (apply Forall_app; split; [eauto|try constructor]); try assumption; try (destruct a; [exact I|exact I|exact I|discriminate]).
  - destruct AB as (_ & w & r & W0 & _). destruct a; try discriminate W0. exact I.
Qed.
Lemma gloop args ss rest i ps : gspells args ss -> forall n ex, (length args <= n)%nat ->
  exists n', (n - length args <= n')%nat /\ loop gtable n i ps ex (gtag args ++ rest) = (let (ms, r) := loop gtable n' i ps ex rest in (map ggiven ss ++ ms, r)).
Proof. intros W. exact (loop_spelled gletter gword gargument gwords gtable gopt_of g_one g_more g_code g_arity g_long g_dash g_number args ss rest i ps W). Qed.
Lemma gfine args ss : gspells args ss -> Forall (fine gtable gopt_of) args.
Proof. exact (spelled_fine gletter gword gargument gwords gtable gopt_of g_one g_more g_code g_long g_dash g_number args ss). Qed.
Lemma gfirst args ss : gspells args ss -> args <> [] -> exists w rest, args = w :: rest /\ is_opt (classify_any gtable w) = true.
Proof. exact (spelled_first gletter gword gargument gwords gtable gopt_of g_one g_more g_code g_long g_dash args ss). Qed.
(** ** -t *)
Lemma t_alone : classify gtable [45; 116] = Known times_opt None. Proof. reflexivity. Qed.
Lemma t_attached d r : classify gtable (45 :: 116 :: d :: r) = Known times_opt (Some (d :: r)). Proof. reflexivity. Qed.
Lemma t_exact : exactly gtable [45; 116] = Some times_opt. Proof. reflexivity. Qed.
Lemma cluster_times : forall fs cs f0 c0 t, switch gletter gargument f0 c0 -> Forall2 (switch gletter gargument) fs cs ->
  cluster gtable (gopt_of f0) (cs ++ 116 :: t) = match t with [] => Waiting (map ggiven (f0 :: fs)) times_opt | _ => Done (map ggiven (f0 :: fs) ++ [Given DTimes [t]]) end.
Proof.
  induction fs as [|f fs IH]; intros cs f0 c0 t H0 HF; inv HF; destruct (switch_args gletter gword gargument gwords gopt_of g_arity f0 c0 H0) as [A0 E0].
  - cbn [app cluster]. rewrite A0. change (116 =? dash) with false. change [dash; 116] with [45; 116]. rewrite t_exact. destruct t as [|x t]; cbn [map app]; rewrite E0; reflexivity.
  - match goal with X : switch _ _ f ?c |- _ => rename c into d; rename X into Hf end. match goal with X : Forall2 _ fs ?l |- _ => rename l into cs; rename X into HF end.
    destruct (g_code f d (proj2 Hf)) as (ND & _). cbn [app cluster]. rewrite A0. replace (d =? dash) with false by (unfold dash; lia). change [dash; d] with [45; d]. rewrite (g_one f d (proj2 Hf)).
    pose proof (IH cs f d t Hf HF) as X. destruct (cs ++ 116 :: t) as [|y l] eqn:E; [destruct cs; discriminate|]. rewrite X. destruct t; cbn [map app]; rewrite <- E0; reflexivity.
Qed.
Definition time_fine (w : list Z) : Prop := w <> [45; 45] /\ unclear w = false /\ (classify_any gtable w = Arg \/ (exists o e, classify_any gtable w = Known o e) \/ exists o e, classify_any gtable w = Equals o e).
Lemma fine_time w : fine gtable gopt_of w -> time_fine w.
Proof. intros (A & B & [C|[(a & e & C)|(a & e & C)]]); (split; [exact A|split; [exact B|]]); [now left|right; left; eauto|right; right; eauto]. Qed.
Lemma times_word fs cs t : Forall2 (switch gletter gargument) fs cs -> ascii_text t -> ~ In 61 t ->
  time_fine (45 :: cs ++ 116 :: t) /\ exists o e, classify_any gtable (45 :: cs ++ 116 :: t) = Known o e /\
    forall rest, consume_optional gtable (Known o e) rest = match t with [] => match with_next times_opt rest with None => None | Some (a, n) => Some (map ggiven fs ++ [a], false, n) end | _ => Some (map ggiven fs ++ [Given DTimes [t]], false, O) end.
Proof.
  intros HF AT N. pose proof (codes_of gletter gargument g_code fs cs HF) as LO.
  assert (N' : ~ In 61 (45 :: cs ++ 116 :: t)).
  { intros [I|I]; [discriminate|]. apply in_app_or in I as [I|[I|I]]; [|discriminate|tauto]. rewrite Forall_forall in LO. specialize (LO 61 I). lia. }
  assert (K : exists o e, classify_any gtable (45 :: cs ++ 116 :: t) = Known o e /\
    forall rest, consume_optional gtable (Known o e) rest = match t with [] => match with_next times_opt rest with None => None | Some (a, n) => Some (map ggiven fs ++ [a], false, n) end | _ => Some (map ggiven fs ++ [Given DTimes [t]], false, O) end).
  { rewrite (any_plain gtable _ N'). destruct HF as [|f d fs cs H HF].
    - cbn [app map]. destruct t as [|x t]; [exists times_opt, None|exists times_opt, (Some (x :: t))]; (split; [reflexivity|intros rest; reflexivity]).
    - cbn [app]. pose proof (cluster_times fs cs f d t H HF) as C. destruct (cs ++ 116 :: t) as [|x y] eqn:X; [destruct cs; discriminate|]. exists (gopt_of f), (Some (x :: y)).
      split; [exact (g_more f d x y (proj2 H))|]. intros rest. cbn [consume_optional]. rewrite C. destruct t; reflexivity. }
  split; [|exact K]. destruct K as (o & e & K & _). split; [|split; [|right; left; eauto]].
  - destruct cs as [|d cs]; cbn [app]; intros E; [discriminate|]. injection E as -> _. inv LO. lia.
  - apply outside_clear, FpCliProofs.within.
    + constructor; [lia|]. apply Forall_app. split; [eapply Forall_impl; [|exact LO]; cbv beta; intros; lia|]. constructor; [lia|exact AT].
    + intros r E. injection E as <-. intros I. apply in_app_or in I as [I|[I|I]]; [|lia|tauto]. rewrite Forall_forall in LO. specialize (LO 61 I). lia.
Qed.
Lemma times_equals t : ascii_text t -> time_fine (45 :: 116 :: 61 :: t).
Proof.
  intros AT. split; [discriminate|]. split; [|right; right; exists times_opt, t; reflexivity]. unfold unclear. rewrite ascii_clear by (repeat (constructor; [lia|]); exact AT). reflexivity.
Qed.
Lemma own_time t : own_word t -> ascii_text t -> time_fine t.
Proof. intros A B. apply fine_time. exact (own_fine gtable gopt_of g_number t A B). Qed.
Lemma command_fine args ss : gcommand args ss -> Forall time_fine args.
Proof.
  induction 1 as [|a s args ss W H IH|fs cs ts args ss HF NE OW H IH|fs cs t args ss HF SW AT H IH|t args ss AT H IH].
  - constructor.
  - apply Forall_app. split; [|exact IH]. eapply Forall_impl; [|exact (gfine a s W)]. exact fine_time.
  - constructor; [exact (proj1 (times_word fs cs [] HF ltac:(constructor) ltac:(easy)))|]. apply Forall_app. split; [|exact IH]. eapply Forall_impl; [|exact OW]. intros t [A B]. now apply own_time.
  - constructor; [|exact IH]. exact (proj1 (times_word fs cs t HF AT (proj2 SW))).
  - constructor; [|exact IH]. now apply times_equals.
Qed.
Lemma time_kinds args : Forall time_fine args -> kinds gtable args = gtag args /\ existsb unclear args = false /\ existsb (fun x => match snd x with Ambiguous => true | _ => false end) (gtag args) = false.
Proof.
  induction 1 as [|w args (N & O & K) H (IH1 & IH2 & IH3)]; [now repeat split|]. repeat split.
  - cbn [kinds tag map]. destruct (same w [dash; dash]) eqn:S; [exfalso; apply same_iff in S; apply N; exact S|]. rewrite IH1. reflexivity.
  - cbn [existsb]. rewrite O, IH2. reflexivity.
  - cbn [tag map existsb snd]. fold (gtag args). rewrite IH3. destruct K as [->|[(a & e & ->)|(a & e & ->)]]; reflexivity.
Qed.
(** a command begins with an option *)
Lemma command_first args ss : gcommand args ss -> args = [] \/ exists w rest, args = w :: rest /\ is_opt (classify_any gtable w) = true.
Proof.
  induction 1 as [|a s args ss W H IH|fs cs ts args ss HF NE OW H IH|fs cs t args ss HF SW AT H IH|t args ss AT H IH]; [now left| | | |].
  - destruct a as [|w a]; [exact IH|]. right. destruct (gfirst (w :: a) s W ltac:(discriminate)) as (w' & r & E & O). injection E as <- <-. exists w, (a ++ args). now split.
  - right. eexists. eexists. split; [reflexivity|]. destruct (times_word fs cs [] HF ltac:(constructor) ltac:(easy)) as (_ & o & e & -> & _). reflexivity.
  - right. eexists. eexists. split; [reflexivity|]. destruct (times_word fs cs t HF AT (proj2 SW)) as (_ & o & e & -> & _). reflexivity.
  - right. eexists. eexists. split; reflexivity.
Qed.
Lemma run_of_own ts rest : Forall (fun t => own_word t /\ ascii_text t) ts -> (rest = [] \/ exists w r, rest = w :: r /\ is_opt (classify_any gtable w) = true) ->
  run_of_args (gtag (ts ++ rest)) = ts.
Proof.
  intros H. induction H as [|t ts [A A'] HF IH]; intros R.
  - cbn [app]. destruct R as [->|(w & r & -> & O)]; [reflexivity|]. cbn [tag map run_of_args]. destruct (classify_any gtable w); try reflexivity; discriminate.
  - cbn [app tag map run_of_args]. rewrite (own_is_arg gtable g_number t A A'). fold (gtag (ts ++ rest)). now rewrite IH.
Qed.
Definition at_end (i : nat) (ps : list pos) : list (action (D := gdst)) := match ps with [] => [] | _ => [Placed i []] end.
Lemma command_loop args ss i ps : gcommand args ss -> ps = [] \/ ps = [May] -> forall n ex, (length args < n)%nat -> loop gtable n i ps ex (gtag args) = (map ggiven' ss ++ at_end i ps, Some (ex, [])).
Proof.
  intros C PS. induction C as [|a s args ss W H IH|fs cs ts args ss HF NE OW H IH|fs cs t args ss HF SW AT H IH|t args ss AT H IH]; intros n ex L.
  - destruct n as [|n]; [lia|]. destruct PS as [->| ->]; cbn; now rewrite orb_false_r.
  - rewrite app_length in L. rewrite tag_app. destruct (gloop a s (gtag args) i ps W n ex ltac:(lia)) as (n' & N & ->). rewrite (IH n' ex) by lia. now rewrite map_app, (plain_given s (spelled_plain a s W)), app_assoc.
  - cbn [length] in L. rewrite app_length in L. destruct n as [|n]; [lia|]. destruct (times_word fs cs [] HF ltac:(constructor) ltac:(easy)) as (_ & o & e & K & CO). cbn [tag map]. fold (gtag (ts ++ args)).
    assert (WN : with_next times_opt (gtag (ts ++ args)) = Some (Given DTimes ts, length ts)).
    { unfold with_next. change (arity_of times_opt) with Some_of. rewrite (run_of_own ts args OW (command_first args ss H)). destruct ts; [congruence|reflexivity]. }
    specialize (CO (gtag (ts ++ args))). rewrite WN in CO. rewrite K. rewrite (loop_option gtable n i ps ex _ (Known o e) _ _ _ eq_refl CO).
    assert (SK : skipn (length ts) (gtag (ts ++ args)) = gtag args) by (rewrite tag_app, skipn_app; unfold tag at 1 2; rewrite map_length, Nat.sub_diag; cbn [skipn]; rewrite skipn_all2 by (rewrite map_length; lia); reflexivity).
    rewrite SK, (IH n ex) by lia. rewrite map_app, <- !app_assoc. cbn [map app ggiven']. rewrite (plain_given fs); [reflexivity|].
    clear - HF. induction HF as [|f c fs cs [A B] HF IH]; constructor; [|exact IH]. destruct f; [exact I|exact I|exact I|discriminate].
  - cbn [length] in L. destruct n as [|n]; [lia|]. destruct (times_word fs cs t HF AT (proj2 SW)) as (_ & o & e & K & CO). cbn [tag map]. fold (gtag args). specialize (CO (gtag args)). rewrite K.
    destruct t as [|x t]; [now destruct SW|]. rewrite (loop_option gtable n i ps ex _ (Known o e) _ _ _ eq_refl CO). cbn [skipn]. rewrite (IH n ex) by lia. rewrite map_app, <- !app_assoc. cbn [map app ggiven']. rewrite (plain_given fs); [reflexivity|].
    clear - HF. induction HF as [|f c fs cs [A B] HF IH]; constructor; [|exact IH]. destruct f; [exact I|exact I|exact I|discriminate].
  - cbn [length] in L. destruct n as [|n]; [lia|]. cbn [tag map]. fold (gtag args). assert (K : classify_any gtable (45 :: 116 :: 61 :: t) = Equals times_opt t) by reflexivity. rewrite K.
    rewrite (loop_option gtable n i ps ex _ (Equals times_opt t) (gtag args) [Given DTimes [t]] O eq_refl eq_refl). cbn [skipn]. rewrite (IH n ex) by lia. reflexivity.
Qed.
Lemma gparse args ss : gcommand args ss -> existsb unclear args = false /\ parse gtable gpos args = (map ggiven' ss ++ [Placed 0 []], false).
Proof.
  intros C. destruct (time_kinds args (command_fine args ss C)) as (K & O & A). split; [exact O|]. unfold parse. rewrite K, A.
  rewrite (command_loop args ss 0 gpos C) by (auto || (unfold tag; rewrite map_length; lia)). reflexivity.
Qed.
Lemma gparse_input args ss input : with_input args ss input -> existsb unclear args = false /\ exists s1 s2, ss = s1 ++ s2 /\ parse gtable gpos args = (map ggiven' s1 ++ Placed 0 [input] :: map ggiven' s2, false).
Proof.
  intros (a1 & s1 & a2 & s2 & W1 & W2 & -> & OW & AT & ->).
  assert (F : Forall time_fine (a1 ++ input :: a2)).
  { apply Forall_app. split; [eapply Forall_impl; [|exact (gfine a1 s1 W1)]; exact fine_time|]. constructor; [now apply own_time|exact (command_fine a2 s2 W2)]. }
  destruct (time_kinds _ F) as (K & O & A). split; [exact O|]. exists s1, s2. split; [reflexivity|]. unfold parse. rewrite K, A.
  assert (L : length (gtag (a1 ++ input :: a2)) = (length a1 + S (length a2))%nat) by (unfold tag; rewrite map_length, app_length; reflexivity). rewrite L.
  rewrite tag_app. destruct (gloop a1 s1 (gtag (input :: a2)) 0 gpos W1 (S (length a1 + S (length a2))) false ltac:(lia)) as (n & N & ->).
  assert (E : loop gtable n 0 gpos false (gtag (input :: a2)) = (Placed 0 [input] :: map ggiven' s2, Some (false, []))).
  2:{ rewrite E, (plain_given s1 (spelled_plain a1 s1 W1)). reflexivity. }
  cbn [tag map]. fold (gtag a2). rewrite (own_is_arg gtable g_number input OW AT). destruct n as [|n]; [lia|].
  assert (NI : same input [dash; dash] = false).
  { destruct (same input [dash; dash]) eqn:S; [|reflexivity]. apply same_iff in S. destruct (own_time input OW AT) as (X & _). exfalso. now apply X. }
  destruct (command_first a2 s2 W2) as [->|(w & r & -> & OP)].
  - assert (S2 : map ggiven' s2 = []).
    { pose proof (command_loop [] s2 0 [] W2 (or_introl eq_refl) 1 false ltac:(cbn; lia)) as X. cbn in X. rewrite app_nil_r in X. injection X as X. now symmetry. }
    cbn [tag map loop existsb snd is_opt orb]. unfold gpos. cbn [length partial firstn matched_all matched dashes skipn Nat.add place undash map fst total fold_right]. rewrite NI, S2. reflexivity.
  - cbn [loop existsb snd is_opt orb tag map]. rewrite OP. cbn [orb]. unfold gpos. fold (gtag r).
    assert (PA : partial 1 [May] ((input, Arg) :: (w, classify_any gtable w) :: gtag r) = [1%nat]) by (cbn [partial firstn matched_all matched dashes skipn Nat.add]; destruct (classify_any gtable w); try discriminate OP; reflexivity).
    cbn [length]. rewrite PA. cbn [place undash map fst firstn skipn total fold_right Nat.add length]. change (0 <? 1)%nat with true. cbv iota. rewrite NI.
    change ((w, classify_any gtable w) :: gtag r) with (gtag (w :: r)). rewrite (command_loop (w :: r) s2 1 [] W2 (or_introl eq_refl) n false) by (cbn [length] in *; lia). cbn [at_end]. rewrite app_nil_r. reflexivity.
Qed.
