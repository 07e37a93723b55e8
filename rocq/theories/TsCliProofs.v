(** Proofs about the command line of parse_timestamps. *)
From Coq Require Import QArith String Lia.
From Coq Require Import ZifyBool.
From Verif Require Import Float Base TimestampsModel ReportModel CdRunModel ArgModel FpCliSpec CliSpec FpCliProofs CliProofs TsCliModel TsCliSpec.
Import ListNotations. Local Open Scope string_scope. Local Open Scope list_scope. Local Open Scope Z_scope.

Definition tdst_of (a : want) : tdst :=
  match a with
  | WHelp => THelp | WLegacyIn => TLegacyIn | WLegacyOut => TLegacyOut | WPrint => TPrint | WQuiet => TQuiet | WMask => TMask | WInvert => TInvert | WMemory => TInmemory
  | WFrom _ => TFrom | WTo _ => TTo | WPattern _ => TPattern | WStart _ => TStart | WEnd _ => TEnd
  end.
Definition topt_of (a : want) : opt tdst :=
  mkOpt (tdst_of a) (match tletter a with Some c => [[45; c]] | None => [] end ++ match tword a with Some w => [w] | None => [] end) (match targument a with Some _ => One | None => No end).
Lemma t_one a c : tletter a = Some c -> exactly ttable [45; c] = Some (topt_of a).
Proof. destruct a; intros H; try discriminate; injection H as <-; reflexivity. Qed.
Lemma t_more a c d r : tletter a = Some c -> classify ttable (45 :: c :: d :: r) = Known (topt_of a) (Some (d :: r)).
Proof. destruct a; intros H; try discriminate; injection H as <-; reflexivity. Qed.
Lemma t_code a c : tletter a = Some c -> c <> 45 /\ c <> 61 /\ 0 <= c < 128.
Proof. destruct a; intros H; try discriminate; injection H as <-; lia. Qed.
Lemma t_arity a : arity_of (topt_of a) = match targument a with Some _ => One | None => No end. Proof. reflexivity. Qed.
Lemma t_number : forall x, In x (all_names ttable) -> exists c r, fst x = 45 :: c :: r /\ (57 < c \/ c = 45).
Proof.
  intros x I. unfold ttable in I. cbn in I. repeat (destruct I as [<-|I]; [cbn [fst]; eexists; eexists; split; [reflexivity|lia]|]). destruct I.
Qed.
(** long names: all beginnings are checked *)
Definition tshapes : list want := [WHelp; WLegacyIn; WLegacyOut; WPrint; WQuiet; WMask; WInvert; WMemory; WFrom []; WTo []; WPattern []; WStart []; WEnd []].
Definition tshape (a : want) : want := match a with WFrom _ => WFrom [] | WTo _ => WTo [] | WPattern _ => WPattern [] | WStart _ => WStart [] | WEnd _ => WEnd [] | a => a end.
Lemma tshape_same a : In (tshape a) tshapes /\ tword (tshape a) = tword a /\ topt_of (tshape a) = topt_of a.
Proof. destruct a; (split; [cbn [tshape tshapes In]; tauto|split; reflexivity]). Qed.
Definition tunique (p w : list Z) : bool := forallb (fun v => negb (starts v p) || same v w) twords.
Definition tknown_as (k : kind) (d : tdst) : bool := match k with Known o None => tdst_beq (dest o) d | _ => false end.
Definition tword' (a : want) : list Z := match tword a with Some w => w | None => [] end.
Lemma tlong_checked : forallb (fun a => forallb (fun n => let p := firstn n (tword' a) in negb (2 <? len p) || negb (tunique p (tword' a)) || tknown_as (classify ttable p) (tdst_of a)) (seq 0 20)) tshapes = true.
Proof. vm_compute. reflexivity. Qed.
Lemma ttable_dest o o' : In o ttable -> In o' ttable -> dest o = dest o' -> o = o'.
Proof.
  intros I I' E. unfold ttable in I, I'. cbn [In] in I, I'.
  repeat (destruct I as [<-|I]; [repeat (destruct I' as [<-|I']; [first [reflexivity|discriminate E]|]); destruct I'|]). destruct I.
Qed.
Lemma known_in {D} (opts : list (opt D)) s o e : classify opts s = Known o e -> In o opts.
Proof.
  assert (N : forall x, In x (all_names opts) -> In (snd x) opts).
  { intros x I. unfold all_names in I. apply in_flat_map in I as (o' & I1 & I2). apply in_map_iff in I2 as (n & <- & _). exact I1. }
  unfold classify. destruct s as [|c r]; [discriminate|]. destruct (negb (c =? dash)); [discriminate|].
  destruct (exactly opts (c :: r)) as [o'|] eqn:E.
  - intros H. injection H as <- _. unfold exactly in E. destruct (find _ _) as [x|] eqn:F; [|discriminate]. injection E as <-. apply find_some in F as [F _]. now apply N.
  - destruct (same r []); [discriminate|]. destruct (candidates opts (c :: r)) as [|[o' e'] [|? ?]] eqn:C; [destruct (negative_number _); [discriminate|]; destruct (existsb _ _); discriminate| |discriminate].
    intros H. injection H as <- <-. assert (I : In (o', e') (candidates opts (c :: r))) by (rewrite C; now left). unfold candidates in I. destruct r as [|d r]; [destruct I|].
    destruct (d =? dash).
    + apply in_map_iff in I as (x & X & I). apply filter_In in I as [I _]. injection X as <- _. now apply N.
    + apply in_flat_map in I as (x & I & X). destruct (same _ _); [destruct X as [X|[]]; injection X as <- _; now apply N|]. destruct (starts _ _); [destruct X as [X|[]]; injection X as <- _; now apply N|destruct X].
Qed.
Lemma topt_in a : In (topt_of a) ttable.
Proof. destruct a; unfold ttable; cbn [In]; repeat (first [left; reflexivity|right]). Qed.
Lemma t_long p a : shortens tword twords p a -> classify ttable p = Known (topt_of a) None /\ ascii_text p /\ ~ In 61 p.
Proof.
  intros (L & w & r & W & E & U). destruct (tshape_same a) as (IS & WS & OS).
  assert (P : p = firstn (length p) w) by (rewrite E, firstn_app, Nat.sub_diag, firstn_all, app_nil_r; reflexivity).
  assert (T : forall c, In c w -> 0 <= c < 128 /\ c <> 61) by (intros c; destruct a; try discriminate W; injection W as <-; cbn [codes In]; intros I; repeat (destruct I as [<-|I]; [cbn; lia|]); destruct I).
  assert (T' : forall c, In c p -> 0 <= c < 128 /\ c <> 61) by (intros c I; apply T; rewrite E; apply in_or_app; now left).
  split; [|split; [apply Forall_forall; intros c I; apply T'; exact I|intros I; apply T' in I; lia]].
  pose proof tlong_checked as C. rewrite forallb_forall in C. specialize (C _ IS). rewrite forallb_forall in C. cbv zeta in C. unfold tword' in C. rewrite WS, W in C.
  assert (LW : (length w < 20)%nat) by (destruct a; try discriminate W; injection W as <-; cbn; lia). specialize (C (length p)). rewrite <- P in C.
  assert (X : In (length p) (seq 0 20)) by (apply in_seq; rewrite E, app_length in LW; lia). specialize (C X). rewrite !orb_true_iff in C.
  destruct C as [[C|C]|C]; [lia| |].
  - exfalso. apply negb_true_iff in C. assert (UU : tunique p w = true); [|congruence]. unfold tunique. apply forallb_forall. intros v I. apply orb_true_iff.
    destruct (starts v p) eqn:S; [right|now left]. apply starts_iff in S as (q & S). apply same_iff. exact (U v q I S).
  - unfold tknown_as in C. destruct (classify ttable p) as [| |o [e|]| | |] eqn:K; try discriminate. apply internal_tdst_dec_bl in C. f_equal. apply ttable_dest; [exact (known_in _ _ _ _ K)|apply topt_in|].
    rewrite C. cbn [topt_of dest]. destruct a; reflexivity.
Qed.
Lemma t_dash p a : shortens tword twords p a -> double_dash p = true.
Proof.
  intros (L & w & r & W & E & _). destruct p as [|c0 [|c1 p]]; [exfalso; unfold len in L; cbn [length] in L; lia|exfalso; unfold len in L; cbn [length] in L; lia|]. destruct a; try discriminate W; injection W as <-; injection E as <- <- _; reflexivity.
Qed.
Notation tgiven := (given_of targument topt_of).
Notation ttag := (tag ttable).
Lemma tloop args ss rest i ps : tspells args ss -> forall n ex, (length args <= n)%nat ->
  exists n', (n - length args <= n')%nat /\ loop ttable n i ps ex (ttag args ++ rest) = (let (ms, r) := loop ttable n' i ps ex rest in (map tgiven ss ++ ms, r)).
Proof. intros W. exact (loop_spelled tletter tword targument twords ttable topt_of t_one t_more t_code t_arity t_long t_dash t_number args ss rest i ps W). Qed.
Lemma tfine args ss : tspells args ss -> Forall (fine ttable topt_of) args.
Proof. exact (spelled_fine tletter tword targument twords ttable topt_of t_one t_more t_code t_long t_dash t_number args ss). Qed.
Lemma tfirst args ss : tspells args ss -> args <> [] -> exists w rest, args = w :: rest /\ is_opt (classify_any ttable w) = true.
Proof. exact (spelled_first tletter tword targument twords ttable topt_of t_one t_more t_code t_long t_dash args ss). Qed.
Lemma name_own a : file_name a -> own_word a. Proof. intros [_ H]. now left. Qed.
Lemma name_fine a : file_name a -> fine ttable topt_of a.
Proof. intros H. exact (own_fine ttable topt_of t_number a (name_own a H) (proj1 H)). Qed.
Lemma name_arg a : file_name a -> classify_any ttable a = Arg.
Proof. intros H. exact (own_is_arg ttable t_number a (name_own a H) (proj1 H)). Qed.
Lemma tloop_end args ss i ex n : tspells args ss -> (length args < n)%nat -> loop ttable n i [] ex (ttag args) = (map tgiven ss, Some (ex, [])).
Proof.
  intros W L. destruct (tloop args ss [] i [] W n ex ltac:(lia)) as (n' & N & E). rewrite app_nil_r in E. rewrite E. destruct n' as [|n']; [lia|].
  cbn [loop existsb partial length place total fold_right skipn]. change (0 <? 0)%nat with false. rewrite orb_false_r, app_nil_r. reflexivity.
Qed.
Definition placed (input : list Z) (output : option (list Z)) : list (action (D := tdst)) := [Placed 0 [input]; Placed 1 (match output with Some o => [o] | None => [] end)].
Lemma undash_name a : file_name a -> undash [a] = [a].
Proof. intros H. destruct (name_fine a H) as (N & _). cbn [undash]. destruct (same a [dash; dash]) eqn:S; [|reflexivity]. apply same_iff in S. exfalso. now apply N. Qed.
Lemma tparse args ss input output : command args ss input output ->
  existsb unclear args = false /\ exists s1 s2, ss = s1 ++ s2 /\ parse ttable tpos args = (map tgiven s1 ++ placed input output ++ map tgiven s2, false).
Proof.
  intros (a1 & s1 & a2 & s2 & W1 & W2 & -> & HI & HO & ->). set (o := match output with Some o => [o] | None => [] end).
  assert (F : Forall (fine ttable topt_of) (a1 ++ input :: o ++ a2)).
  { apply Forall_app. split; [exact (tfine a1 s1 W1)|]. constructor; [now apply name_fine|]. apply Forall_app. split; [|exact (tfine a2 s2 W2)]. unfold o. destruct output as [x|]; [|constructor]. constructor; [|constructor]. apply name_fine. now apply HO. }
  destruct (fine_kinds ttable topt_of _ F) as (K & O & A). split; [exact O|]. exists s1, s2. split; [reflexivity|]. unfold parse. rewrite K, A.
  set (len_all := length (ttag (a1 ++ input :: o ++ a2))). assert (L : len_all = (length a1 + S (length o + length a2))%nat) by (unfold len_all, tag; rewrite map_length, app_length; cbn [length]; now rewrite app_length).
  rewrite tag_app. destruct (tloop a1 s1 (ttag (input :: o ++ a2)) 0 tpos W1 (S len_all) false ltac:(lia)) as (n & N & ->).
  assert (E : loop ttable n 0 tpos false (ttag (input :: o ++ a2)) = (placed input output ++ map tgiven s2, Some (false, []))); [|rewrite E; reflexivity].
  cbn [tag map]. fold (ttag (o ++ a2)). rewrite tag_app, (name_arg input HI). destruct n as [|n]; [lia|]. cbn [loop existsb snd is_opt orb].
  assert (NI : same input [dash; dash] = false) by (destruct (same input [dash; dash]) eqn:S; [|reflexivity]; apply same_iff in S; destruct (name_fine input HI) as (X & _); exfalso; now apply X).
  destruct a2 as [|w2 a2].
  - inv W2; [|match goal with X : ?a = [] |- _ => idtac end..]. cbn [tag map app]. destruct output as [x|].
    + assert (NX : same x [dash; dash] = false) by (destruct (same x [dash; dash]) eqn:S; [|reflexivity]; apply same_iff in S; destruct (name_fine x (HO x eq_refl)) as (X & _); exfalso; now apply X).
      subst o. cbn [tag map app existsb snd is_opt orb]. rewrite (name_arg x (HO x eq_refl)). cbn [is_opt orb]. unfold tpos. cbn [length partial firstn matched_all matched dashes skipn Nat.add place undash map fst total fold_right]. rewrite NI, NX.
      reflexivity.
    + subst o. cbn [tag map app existsb is_opt orb]. unfold tpos. cbn [length partial firstn matched_all matched dashes skipn Nat.add place undash map fst total fold_right]. rewrite NI. reflexivity.
  - destruct (tfirst (w2 :: a2) s2 W2 ltac:(discriminate)) as (w & r & E & OP). injection E as <- <-.
    assert (EX : existsb (fun x => is_opt (snd x)) (ttag o ++ ttag (w2 :: a2)) = true).
    { rewrite existsb_app. cbn [tag map existsb snd]. rewrite OP. cbn [orb]. apply orb_true_r. }
    rewrite EX. destruct output as [x|].
    + assert (NX : same x [dash; dash] = false) by (destruct (same x [dash; dash]) eqn:S; [|reflexivity]; apply same_iff in S; destruct (name_fine x (HO x eq_refl)) as (X & _); exfalso; now apply X).
      assert (PA : partial 2 [Must; May] ((input, Arg) :: ttag o ++ ttag (w2 :: a2)) = [1%nat; 1%nat]).
      { subst o. cbn [tag map app]. rewrite (name_arg x (HO x eq_refl)). cbn [partial firstn matched_all matched dashes skipn Nat.add]. destruct (classify_any ttable w2); try discriminate OP; reflexivity. }
      unfold tpos. cbn [length]. rewrite PA. subst o. cbn [tag map app length]. fold (ttag a2).
      cbn [place undash map fst firstn skipn total fold_right Nat.add]. change (0 <? 2)%nat with true. cbv iota. rewrite NI, NX. change ((w2, classify_any ttable w2) :: ttag a2) with (ttag (w2 :: a2)).
      rewrite (tloop_end (w2 :: a2) s2 2 false n W2); [reflexivity|]. cbn [length] in *. lia.
    + assert (PA : partial 2 [Must; May] ((input, Arg) :: ttag o ++ ttag (w2 :: a2)) = [1%nat; 0%nat]).
      { subst o. cbn [tag map app]. cbn [partial firstn matched_all matched dashes skipn Nat.add]. destruct (classify_any ttable w2); try discriminate OP; reflexivity. }
      unfold tpos. cbn [length]. rewrite PA. subst o. cbn [tag map app length]. fold (ttag a2).
      cbn [place undash map fst firstn skipn total fold_right Nat.add]. change (0 <? 1)%nat with true. cbv iota. rewrite NI. change ((w2, classify_any ttable w2) :: ttag a2) with (ttag (w2 :: a2)).
      rewrite (tloop_end (w2 :: a2) s2 2 false n W2); [reflexivity|]. cbn [length] in *. lia.
Qed.
(** ** The namespace *)
Definition upd (a : want) (n : named) : named :=
  match a with
  | WHelp | WQuiet => n
  | WFrom t => mkN (choice t) (n_legacy_in n) (n_to n) (n_legacy_out n) (n_print n) (n_inmemory n) (n_pattern n) (n_mask n) (n_invert n) (n_start n) (n_end n) (n_in n) (n_out n)
  | WTo t => mkN (n_from n) (n_legacy_in n) (match choice t with Some z => z | None => 0 end) (n_legacy_out n) (n_print n) (n_inmemory n) (n_pattern n) (n_mask n) (n_invert n) (n_start n) (n_end n) (n_in n) (n_out n)
  | WLegacyIn => mkN (n_from n) true (n_to n) (n_legacy_out n) (n_print n) (n_inmemory n) (n_pattern n) (n_mask n) (n_invert n) (n_start n) (n_end n) (n_in n) (n_out n)
  | WLegacyOut => mkN (n_from n) (n_legacy_in n) (n_to n) true (n_print n) (n_inmemory n) (n_pattern n) (n_mask n) (n_invert n) (n_start n) (n_end n) (n_in n) (n_out n)
  | WPrint => mkN (n_from n) (n_legacy_in n) (n_to n) (n_legacy_out n) true (n_inmemory n) (n_pattern n) (n_mask n) (n_invert n) (n_start n) (n_end n) (n_in n) (n_out n)
  | WMemory => mkN (n_from n) (n_legacy_in n) (n_to n) (n_legacy_out n) (n_print n) true (n_pattern n) (n_mask n) (n_invert n) (n_start n) (n_end n) (n_in n) (n_out n)
  | WPattern t => mkN (n_from n) (n_legacy_in n) (n_to n) (n_legacy_out n) (n_print n) (n_inmemory n) (int_of t) (n_mask n) (n_invert n) (n_start n) (n_end n) (n_in n) (n_out n)
  | WMask => mkN (n_from n) (n_legacy_in n) (n_to n) (n_legacy_out n) (n_print n) (n_inmemory n) (n_pattern n) true (n_invert n) (n_start n) (n_end n) (n_in n) (n_out n)
  | WInvert => mkN (n_from n) (n_legacy_in n) (n_to n) (n_legacy_out n) (n_print n) (n_inmemory n) (n_pattern n) (n_mask n) true (n_start n) (n_end n) (n_in n) (n_out n)
  | WStart t => mkN (n_from n) (n_legacy_in n) (n_to n) (n_legacy_out n) (n_print n) (n_inmemory n) (n_pattern n) (n_mask n) (n_invert n) (float_of t) (n_end n) (n_in n) (n_out n)
  | WEnd t => mkN (n_from n) (n_legacy_in n) (n_to n) (n_legacy_out n) (n_print n) (n_inmemory n) (n_pattern n) (n_mask n) (n_invert n) (n_start n) (float_of t) (n_in n) (n_out n)
  end.
(** values the program converts *)
Definition accepted (a : want) : Prop :=
  match a with WFrom t | WTo t => choice t <> None | WPattern t => int_of t <> None | WStart t | WEnd t => float_of t <> None | _ => True end.
Lemma choice_ok t : format_text t <-> choice t <> None.
Proof.
  unfold choice, format_text. destruct (same t [48]) eqn:A; [apply same_iff in A; subst; split; [discriminate|tauto]|]. destruct (same t [49]) eqn:B; [apply same_iff in B; subst; split; [discriminate|tauto]|].
  destruct (same t [50]) eqn:C; [apply same_iff in C; subst; split; [discriminate|tauto]|]. split; [|tauto]. intros [ -> | [ -> | -> ] ]; discriminate.
Qed.
Lemma good_accepted a : tgood a -> accepted a.
Proof. destruct a; cbn [tgood accepted]; try tauto; [apply choice_ok|apply choice_ok|intros (z & W); rewrite (int_whole _ _ W); discriminate|intros (z & W); rewrite (float_decimal _ _ W); discriminate|intros (z & W); rewrite (float_decimal _ _ W); discriminate]. Qed.
Lemma act_step a r n : accepted a -> a <> WHelp -> act (tgiven a :: r) n = act r (upd a n).
Proof.
  destruct a; cbn [accepted]; intros A H; try congruence; try reflexivity; unfold given_of; cbn [targument topt_of dest tdst_of act one upd];
    first [destruct (choice t); [reflexivity|congruence]|destruct (int_of t); [reflexivity|congruence]|destruct (float_of t); [reflexivity|congruence]].
Qed.
Lemma act_all ss r n : Forall accepted ss -> ~ In WHelp ss -> act (map tgiven ss ++ r) n = act r (fold_left (fun n a => upd a n) ss n).
Proof.
  revert n. induction ss as [|a ss IH]; intros n A H; [reflexivity|]. inv A. cbn [map app fold_left]. rewrite act_step; [|assumption|intros ->; apply H; now left]. apply IH; [assumption|]. intros I. apply H. now right.
Qed.
(** no help: never the help text *)
Definition no_help (x : action (D := tdst)) : Prop := match x with Given THelp _ => False | _ => True end.
Lemma act_no_help l n : Forall no_help l -> act l n <> Helped.
Proof.
  revert n. induction l as [|x l IH]; intros n H; [discriminate|]. inv H. destruct x as [d args|[|i] args]; cbn [act]; [|now apply IH|now apply IH].
  destruct d; try (now apply IH); try contradiction; [destruct (choice _)|destruct (choice _)|destruct (int_of _)|destruct (float_of _)|destruct (float_of _)]; try discriminate; now apply IH.
Qed.
Lemma given_no_help ss : ~ In WHelp ss -> Forall no_help (map tgiven ss).
Proof. intros H. apply Forall_map. apply Forall_forall. intros a I. unfold given_of, no_help. cbn [topt_of dest]. destruct a; try exact Logic.I. now apply H. Qed.
Lemma act_help ss1 ss2 r n : Forall accepted ss1 -> act (map tgiven (ss1 ++ WHelp :: ss2) ++ r) n = Helped.
Proof.
  revert n. induction ss1 as [|a ss1 IH]; intros n A; [reflexivity|]. inv A. cbn [map app]. assert (D : a = WHelp \/ a <> WHelp) by (destruct a; try (left; reflexivity); right; discriminate).
  destruct D as [->|D]; [reflexivity|]. rewrite act_step by assumption. now apply IH.
Qed.
Lemma act_refused ss1 a ss2 r n : Forall accepted ss1 -> ~ In WHelp ss1 -> ~ accepted a -> act (map tgiven (ss1 ++ a :: ss2) ++ r) n = Refused.
Proof.
  intros A H N. rewrite map_app, <- app_assoc, act_all by assumption. cbn [map app]. unfold given_of at 1.
  destruct a; cbn [accepted] in N; try (now exfalso; apply N); cbn [targument topt_of dest tdst_of act one];
    first [destruct (choice t); [exfalso; apply N; discriminate|reflexivity]|destruct (int_of t); [exfalso; apply N; discriminate|reflexivity]|destruct (float_of t); [exfalso; apply N; discriminate|reflexivity]].
Qed.
Lemma accepted_dec a : accepted a \/ ~ accepted a.
Proof.
  destruct a; cbn [accepted]; try (left; exact I); first [destruct (choice t); [left; discriminate|right; tauto]|destruct (int_of t); [left; discriminate|right; tauto]|destruct (float_of t); [left; discriminate|right; tauto]].
Qed.
Lemma first_refused ss : Forall accepted ss \/ exists s1 a s2, ss = s1 ++ a :: s2 /\ Forall accepted s1 /\ ~ accepted a.
Proof.
  induction ss as [|a ss IH]; [left; constructor|]. destruct (accepted_dec a) as [A|N]; [|right; now exists [], a, ss].
  destruct IH as [IH|(s1 & b & s2 & -> & F & N)]; [left; now constructor|]. right. exists (a :: s1), b, s2. split; [reflexivity|]. split; [now constructor|exact N].
Qed.
(** projections of the namespace *)
Lemma fold_pick {A B} (pr : named -> B) (pick : want -> option A) (g : A -> B) ss n :
  (forall a n, pr (upd a n) = match pick a with Some t => g t | None => pr n end) ->
  pr (fold_left (fun n a => upd a n) ss n) = match last_given pick ss with Some t => g t | None => pr n end.
Proof.
  intros H. unfold last_given. assert (G : forall acc n, pr n = match acc with Some t => g t | None => pr n end -> forall m, (acc = None -> pr m = pr n) ->
    pr (fold_left (fun n a => upd a n) ss n) = match fold_left (fun acc s => match pick s with Some v => Some v | None => acc end) ss acc with Some t => g t | None => pr m end).
  { induction ss as [|a ss IH]; intros acc k E m M; cbn [fold_left].
    - destruct acc; [exact E|]. now rewrite M.
    - apply IH.
      + rewrite H. destruct (pick a); [reflexivity|]. exact E.
      + rewrite H. destruct (pick a); [discriminate|]. exact M. }
  apply (G None n); [reflexivity|reflexivity].
Qed.
Lemma fold_flag (pr : named -> bool) (f : want) ss n : (forall a n, a <> f -> pr (upd a n) = pr n) -> (forall n, pr (upd f n) = true) -> (forall a, a = f \/ a <> f) ->
  (pr (fold_left (fun n a => upd a n) ss n) = true <-> pr n = true \/ In f ss).
Proof.
  intros H1 H2 D. revert n. induction ss as [|a ss IH]; intros n; cbn [fold_left In]; [tauto|]. rewrite IH. destruct (D a) as [->|N]; [rewrite H2; tauto|]. rewrite (H1 a n N). tauto.
Qed.
