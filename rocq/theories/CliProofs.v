(** Command lines written as in CliSpec are read by argparse as they are meant. *)
From Coq Require Import Lia.
From Coq Require Import ZifyBool.
From Verif Require Import Base ArgModel FpCliSpec CliSpec FpCliProofs.
Import ListNotations. Local Open Scope Z_scope.

Section Reading.
Context {R D : Type} (letter : R -> option Z) (word : R -> option (list Z)) (argument : R -> option (list Z)) (words : list (list Z)).
Context (opts : list (opt D)) (opt_of : R -> opt D).
Hypothesis one_letter : forall a c, letter a = Some c -> exactly opts [45; c] = Some (opt_of a).
Hypothesis letter_more : forall a c d r, letter a = Some c -> classify opts (45 :: c :: d :: r) = Known (opt_of a) (Some (d :: r)).
Hypothesis letter_code : forall a c, letter a = Some c -> c <> 45 /\ c <> 61 /\ 0 <= c < 128.
Hypothesis arities : forall a, arity_of (opt_of a) = match argument a with Some _ => One | None => No end.
Hypothesis long_name : forall p a, shortens word words p a -> classify opts p = Known (opt_of a) None /\ ascii_text p /\ ~ In 61 p.
Hypothesis long_dash : forall p a, shortens word words p a -> double_dash p = true.
Hypothesis no_number : forall x, In x (all_names opts) -> exists c r, fst x = 45 :: c :: r /\ (57 < c \/ c = 45).

Definition given_of (a : R) : action (D := D) := Given (dest (opt_of a)) (match argument a with Some t => [t] | None => [] end).
Let switch := switch letter argument.
Let spells := spells letter word argument words.
Lemma letter_alone a c : letter a = Some c -> classify opts [45; c] = Known (opt_of a) None.
Proof. intros H. unfold classify. rewrite (one_letter a c H). reflexivity. Qed.
Lemma switch_args f c : switch f c -> arity_of (opt_of f) = No /\ given_of f = Given (dest (opt_of f)) [].
Proof. intros [H _]. unfold given_of. rewrite arities, H. tauto. Qed.
Lemma group_flags : forall fs cs f0 c0, switch f0 c0 -> Forall2 switch fs cs -> fs <> [] -> cluster opts (opt_of f0) cs = Done (map given_of (f0 :: fs)).
Proof.
  induction fs as [|f fs IH]; intros cs f0 c0 H0 HF NE; [congruence|]. inv HF. match goal with X : switch f ?c |- _ => rename c into d; rename X into Hf end.
  destruct (switch_args f0 c0 H0) as [A0 E0]. destruct (letter_code f d (proj2 Hf)) as (ND & _).
  match goal with X : Forall2 _ fs ?l |- _ => rename l into cs; rename X into HF end. cbn [cluster]. rewrite A0. replace (d =? dash) with false by (unfold dash; lia). cbn [map].
  change [dash; d] with [45; d]. rewrite (one_letter f d (proj2 Hf)), <- E0. destruct (switch_args f d Hf) as [A1 E1]. destruct fs as [|f' fs].
  - inv HF. rewrite A1, <- E1. reflexivity.
  - destruct cs as [|c' cs]; [inv HF|]. rewrite (IH (c' :: cs) f d Hf HF) by discriminate. reflexivity.
Qed.
Lemma group_attached : forall fs cs f0 c0 a c t, switch f0 c0 -> Forall2 switch fs cs -> letter a = Some c -> argument a = Some t -> t <> [] ->
  cluster opts (opt_of f0) (cs ++ c :: t) = Done (map given_of (f0 :: fs ++ [a])).
Proof.
  induction fs as [|f fs IH]; intros cs f0 c0 a c t H0 HF La Aa NT; inv HF; destruct (switch_args f0 c0 H0) as [A0 E0].
  - cbn [app cluster]. rewrite A0. destruct (letter_code a c La) as (ND & _). replace (c =? dash) with false by (unfold dash; lia). change [dash; c] with [45; c]. rewrite (one_letter a c La).
    destruct t as [|x t]; [congruence|]. assert (X : cluster opts (opt_of a) (x :: t) = Done [Given (dest (opt_of a)) [x :: t]]) by (cbn [cluster]; rewrite arities, Aa; reflexivity).
    rewrite X, <- E0. cbn [map app]. f_equal. f_equal. unfold given_of. rewrite Aa. reflexivity.
  - match goal with X : switch f ?c |- _ => rename c into d; rename X into Hf end. match goal with X : Forall2 _ fs ?l |- _ => rename l into cs; rename X into HF end.
    destruct (letter_code f d (proj2 Hf)) as (ND & _). cbn [app cluster]. rewrite A0. replace (d =? dash) with false by (unfold dash; lia). change [dash; d] with [45; d]. rewrite (one_letter f d (proj2 Hf)).
    pose proof (IH cs f d a c t Hf HF La Aa NT) as X. destruct (cs ++ c :: t) as [|y l] eqn:E; [destruct cs; discriminate|]. rewrite X, <- E0. reflexivity.
Qed.
Lemma group_waiting : forall fs cs f0 c0 a c t, switch f0 c0 -> Forall2 switch fs cs -> letter a = Some c -> argument a = Some t ->
  cluster opts (opt_of f0) (cs ++ [c]) = Waiting (map given_of (f0 :: fs)) (opt_of a).
Proof.
  induction fs as [|f fs IH]; intros cs f0 c0 a c t H0 HF La Aa; inv HF; destruct (switch_args f0 c0 H0) as [A0 E0].
  - cbn [app cluster]. rewrite A0. destruct (letter_code a c La) as (ND & _). replace (c =? dash) with false by (unfold dash; lia). change [dash; c] with [45; c]. rewrite (one_letter a c La).
    rewrite arities, Aa, <- E0. reflexivity.
  - match goal with X : switch f ?c |- _ => rename c into d; rename X into Hf end. match goal with X : Forall2 _ fs ?l |- _ => rename l into cs; rename X into HF end.
    destruct (letter_code f d (proj2 Hf)) as (ND & _). cbn [app cluster]. rewrite A0. replace (d =? dash) with false by (unfold dash; lia). change [dash; d] with [45; d]. rewrite (one_letter f d (proj2 Hf)).
    pose proof (IH cs f d a c t Hf HF La Aa) as X. destruct (cs ++ [c]) as [|y l] eqn:E; [destruct cs; discriminate|]. rewrite X, <- E0. reflexivity.
Qed.
(** ** Arguments in a word of their own *)
Lemma nameless d r : 46 <= d <= 57 -> exactly opts (45 :: d :: r) = None /\ candidates opts (45 :: d :: r) = [].
Proof.
  intros Hd. split.
  - unfold exactly. destruct (find _ _) as [x|] eqn:F; [|reflexivity]. exfalso. apply find_some in F as [I S]. destruct (no_number x I) as (c & r' & E & C). apply same_iff in S. rewrite E in S. injection S as -> _. lia.
  - unfold candidates. replace (d =? dash) with false by (unfold dash; lia).
    assert (G : forall l, (forall x, In x l -> exists c r, fst x = 45 :: c :: r /\ (57 < c \/ c = 45)) ->
      flat_map (fun x : list Z * opt D => if same (fst x) [dash; d] then [(snd x, Some r)] else if starts (fst x) (45 :: d :: r) then [(snd x, None)] else []) l = []).
    { induction l as [|x l IH]; intros HL; [reflexivity|]. cbn [flat_map]. rewrite IH by (intros y I; apply HL; now right). destruct (HL x (or_introl eq_refl)) as (c & r' & E & C).
      destruct (same (fst x) [dash; d]) eqn:S1. { apply same_iff in S1. rewrite E in S1. injection S1 as -> _. lia. }
      destruct (starts (fst x) (45 :: d :: r)) eqn:S2. { apply starts_iff in S2 as (q & S2). rewrite E in S2. injection S2 as -> _. lia. } reflexivity. }
    apply G. exact no_number.
Qed.
Lemma own_argument t : own_word t -> exactly opts [45] = None -> classify opts t = Arg.
Proof.
  intros [H|[->|[(ds & NE & HD & ->)|(ds & fs & NE & HD & HF & ->)]]] X.
  - destruct t as [|c r]; [reflexivity|]. cbn [classify]. replace (c =? dash) with false; [reflexivity|]. unfold dash. assert (c <> 45) by (intros ->; now apply (H r)). lia.
  - unfold classify. rewrite X. reflexivity.
  - destruct ds as [|d ds]; [congruence|]. pose proof HD as HD'. inv HD. unfold is_digit in *. destruct (nameless d ds ltac:(lia)) as [A B]. unfold classify. rewrite A, B.
    change (negb (45 =? dash)) with false. cbn [same]. unfold negative_number. rewrite no_newline_id by (intros [Y|Y]; [discriminate|revert Y; now apply digits_no10]). cbn [same negb andb].
    rewrite <- (app_nil_r (d :: ds)), skip_all by exact HD'. reflexivity.
  - assert (F : exists d r, 46 <= d <= 57 /\ ds ++ 46 :: fs = d :: r).
    { destruct ds as [|d ds]; [exists 46, fs; split; [lia|reflexivity]|]. inv HD. unfold is_digit in *. exists d, (ds ++ 46 :: fs). split; [lia|reflexivity]. }
    destruct F as (d & r & Hd & F). assert (N : negative_number (45 :: ds ++ 46 :: fs) = true).
    { unfold negative_number. rewrite no_newline_id.
      - rewrite skip_all by exact HD. cbn [skip_digits]. change (digit 46) with false. rewrite F. cbn [same negb andb orb]. destruct fs as [|f fs]; [congruence|].
        rewrite <- (app_nil_r (f :: fs)), skip_all by exact HF. reflexivity.
      - intros [Y|Y]; [discriminate|]. apply in_app_or in Y as [Y|[Y|Y]]; [revert Y; now apply digits_no10|discriminate|revert Y; now apply digits_no10]. }
    rewrite F in *. destruct (nameless d r Hd) as [A B]. unfold classify. rewrite A, B, N. reflexivity.
Qed.
Lemma no_single : exactly opts [45] = None.
Proof. unfold exactly. destruct (find _ _) as [x|] eqn:F; [|reflexivity]. exfalso. apply find_some in F as [I S]. destruct (no_number x I) as (c & r' & E & C). apply same_iff in S. rewrite E in S. discriminate. Qed.
Lemma own_inside t : own_word t -> ascii_text t -> outside t = false. Proof. intros H A. exact (proj1 (proj2 (own_plain t H A))). Qed.
Lemma own_is_arg t : own_word t -> ascii_text t -> classify_any opts t = Arg.
Proof. intros H A. rewrite (any_inside opts t no_number (own_inside t H A)). exact (own_argument t H no_single). Qed.
(** ** Words with "=" *)
Lemma any_plain w : ~ In 61 w -> classify_any opts w = classify opts w.
Proof. intros N. unfold classify_any. now rewrite (split_none w N). Qed.
Lemma letter_equals a c t : letter a = Some c -> classify_any opts (45 :: c :: 61 :: t) = Equals (opt_of a) t.
Proof.
  intros La. destruct (letter_code a c La) as (_ & N & _). unfold classify_any. change (45 :: c :: 61 :: t) with ([45; c] ++ 61 :: t). rewrite split_some; [|intros [X|[X|[]]]; [discriminate|congruence]]. now rewrite (one_letter a c La).
Qed.
Lemma long_equals p a t : shortens word words p a -> classify_any opts (p ++ 61 :: t) = Equals (opt_of a) t.
Proof.
  intros SH. destruct (long_name p a SH) as (C & _ & N). pose proof (long_dash p a SH) as DD. unfold classify_any. rewrite (split_some p t N). destruct p as [|c0 [|c1 r]]; try discriminate.
  cbn [double_dash] in DD. apply andb_true_iff in DD as [D0 D1]. unfold classify in C. rewrite D0 in C. cbn [negb] in C. destruct (exactly opts (c0 :: c1 :: r)) as [o|]; [now injection C as ->|].
  cbn [app double_dash]. rewrite D0, D1. cbn [andb]. cbn [same] in C. unfold candidates in C. rewrite D1 in C. destruct (filter _ _) as [|x [|y l]]; cbn [map] in C; [destruct (negative_number _); [discriminate|destruct (existsb _ _); discriminate]|now injection C as ->|discriminate].
Qed.
Lemma flags_no fs cs : Forall2 switch fs cs -> ~ In 61 cs.
Proof. induction 1 as [|f c fs cs H HF IH]; [easy|]. intros [X|X]; [|now apply IH]. subst c. destruct (letter_code f 61 (proj2 H)) as (_ & N & _). congruence. Qed.
Lemma group_no fs cs (a : R) c t : Forall2 switch fs cs -> letter a = Some c -> ~ In 61 t -> ~ In 61 (45 :: cs ++ c :: t).
Proof.
  intros HF La N [X|X]; [discriminate|]. apply in_app_or in X as [X|[X|X]]; [exact (flags_no fs cs HF X)| |exact (N X)]. subst c. destruct (letter_code a 61 La) as (_ & M & _). congruence.
Qed.
(** ** The loop *)
Definition tag (ws : list (list Z)) : list (list Z * kind (D := D)) := map (fun w => (w, classify_any opts w)) ws.
Lemma loop_option n i ps ex w k rest l m : is_opt k = true -> consume_optional opts k rest = Some (l, false, m) ->
  loop opts (S n) i ps ex ((w, k) :: rest) = (let (ms, r) := loop opts n i ps ex (skipn m rest) in (l ++ ms, r)).
Proof. intros O C. cbn [loop existsb snd]. rewrite O. cbn [orb]. rewrite C, orb_false_r. reflexivity. Qed.
Lemma switches_split (fs : list R) cs : Forall2 switch fs cs -> fs <> [] -> exists f c fs' cs', fs = f :: fs' /\ cs = c :: cs' /\ switch f c /\ Forall2 switch fs' cs'.
Proof. intros H N. destruct H as [|f c fs' cs']; [congruence|]. now exists f, c, fs', cs'. Qed.
Lemma known_opt w o e : classify_any opts w = Known o e -> is_opt (classify_any opts w) = true. Proof. intros ->. reflexivity. Qed.
Lemma loop_spelled args ss rest i ps : spells args ss -> forall n ex, (length args <= n)%nat ->
  exists n', (n - length args <= n')%nat /\ loop opts n i ps ex (tag args ++ rest) = (let (ms, r) := loop opts n' i ps ex rest in (map given_of ss ++ ms, r)).
Proof.
  induction 1 as [|fs cs args ss NE HF W IH|fs cs a c t args ss HF La Aa ST AT W IH|fs cs a c t args ss HF La Aa OW AT W IH|p a args ss Aa AB W IH|p a t args ss Aa AB OW AT W IH|a c t args ss La Aa AT W IH|p a t args ss Aa AB AT W IH];
    intros n ex Hn.
  - exists n. split; [lia|]. cbn [tag map app]. destruct (loop opts n i ps ex rest). reflexivity.
  - destruct n as [|n]; [cbn [length] in Hn; lia|]. cbn [length] in Hn. destruct (switches_split fs cs HF NE) as (f & d & fs' & cs' & -> & -> & Hf & HF'). destruct (switch_args f d Hf) as [A0 E0]. cbn [tag map app].
    assert (C : exists e, classify_any opts (45 :: d :: cs') = Known (opt_of f) e /\ consume_optional opts (Known (opt_of f) e) (tag args ++ rest) = Some (map given_of (f :: fs'), false, O)).
    { rewrite any_plain by (intros [X|X]; [discriminate|exact (flags_no _ _ HF X)]). destruct cs' as [|d' cs'].
      - inv HF'. exists None. split; [exact (letter_alone f d (proj2 Hf))|]. cbn [consume_optional]. unfold with_next. rewrite A0, <- E0. reflexivity.
      - exists (Some (d' :: cs')). split; [exact (letter_more f d d' cs' (proj2 Hf))|]. cbn [consume_optional]. rewrite (group_flags fs' (d' :: cs') f d Hf HF') by (intros ->; inv HF'). reflexivity. }
    destruct C as (e & C1 & C2). rewrite (loop_option n i ps ex _ _ _ _ _ (known_opt _ _ _ C1) ltac:(rewrite C1; exact C2)). cbn [skipn].
    destruct (IH n ex ltac:(lia)) as (n' & N & ->). exists n'. split; [cbn [length]; lia|]. destruct (loop opts n' i ps ex rest) as [ms rr]. rewrite map_app, <- app_assoc. reflexivity.
  - destruct n as [|n]; [cbn [length] in Hn; lia|]. cbn [length] in Hn. cbn [tag map app]. assert (AR : arity_of (opt_of a) = One) by (rewrite arities, Aa; reflexivity). destruct ST as [NT NE61].
    assert (C : exists o e, classify_any opts (45 :: cs ++ c :: t) = Known o e /\ consume_optional opts (Known o e) (tag args ++ rest) = Some (map given_of (fs ++ [a]), false, O)).
    { rewrite (any_plain _ (group_no fs cs a c t HF La NE61)). destruct fs as [|f fs'].
      - inv HF. destruct t as [|x t]; [congruence|]. exists (opt_of a), (Some (x :: t)). split; [exact (letter_more a c x t La)|]. cbn [consume_optional cluster]. rewrite AR. cbn [app map].
        unfold given_of. rewrite Aa. reflexivity.
      - destruct (switches_split (f :: fs') cs HF ltac:(discriminate)) as (f1 & d & fs1 & cs' & E & -> & Hf & HF'). injection E as <- <-. cbn [app].
        destruct (cs' ++ c :: t) as [|x l] eqn:X; [destruct cs'; discriminate|]. exists (opt_of f), (Some (x :: l)). split; [exact (letter_more f d x l (proj2 Hf))|].
        cbn [consume_optional]. rewrite <- X, (group_attached fs' cs' f d a c t Hf HF' La Aa NT). reflexivity. }
    destruct C as (o & e & C1 & C2). rewrite (loop_option n i ps ex _ _ _ _ _ (known_opt _ _ _ C1) ltac:(rewrite C1; exact C2)). cbn [skipn].
    destruct (IH n ex ltac:(lia)) as (n' & N & ->). exists n'. split; [cbn [length]; lia|]. destruct (loop opts n' i ps ex rest) as [ms rr]. rewrite !map_app. cbn [map]. rewrite <- !app_assoc. reflexivity.
  - destruct n as [|n]; [cbn [length] in Hn; lia|]. cbn [length] in Hn. cbn [tag map app]. assert (AR : arity_of (opt_of a) = One) by (rewrite arities, Aa; reflexivity). rewrite (own_is_arg t OW AT). fold (tag args).
    assert (WN : with_next (opt_of a) ((t, Arg) :: tag args ++ rest) = Some (given_of a, 1%nat)).
    { unfold with_next. rewrite AR. cbn [run_of_args]. unfold given_of. rewrite Aa. reflexivity. }
    assert (C : exists o e, classify_any opts (45 :: cs ++ [c]) = Known o e /\ consume_optional opts (Known o e) ((t, Arg) :: tag args ++ rest) = Some (map given_of (fs ++ [a]), false, 1%nat)).
    { rewrite (any_plain _ (group_no fs cs a c [] HF La (fun x => x))). destruct fs as [|f fs'].
      - inv HF. exists (opt_of a), None. split; [exact (letter_alone a c La)|]. cbn [consume_optional]. rewrite WN. reflexivity.
      - destruct (switches_split (f :: fs') cs HF ltac:(discriminate)) as (f1 & d & fs1 & cs' & E & -> & Hf & HF'). injection E as <- <-. cbn [app].
        destruct (cs' ++ [c]) as [|x l] eqn:X; [destruct cs'; discriminate|]. exists (opt_of f), (Some (x :: l)). split; [exact (letter_more f d x l (proj2 Hf))|].
        cbn [consume_optional]. rewrite <- X, (group_waiting fs' cs' f d a c t Hf HF' La Aa), WN, <- map_app with (l' := [a]). reflexivity. }
    destruct C as (o & e & C1 & C2). rewrite (loop_option n i ps ex _ _ _ _ _ (known_opt _ _ _ C1) ltac:(rewrite C1; exact C2)). cbn [skipn].
    destruct (IH n ex ltac:(lia)) as (n' & N & ->). exists n'. split; [cbn [length]; lia|]. destruct (loop opts n' i ps ex rest) as [ms rr]. rewrite !map_app. cbn [map]. rewrite <- !app_assoc. reflexivity.
  - destruct n as [|n]; [cbn [length] in Hn; lia|]. cbn [length] in Hn. cbn [tag map app]. fold (tag args). destruct (long_name p a AB) as (C1 & _ & N61). rewrite <- (any_plain p N61) in C1.
    assert (C2 : consume_optional opts (Known (opt_of a) None) (tag args ++ rest) = Some ([given_of a], false, O)).
    { cbn [consume_optional]. unfold with_next. rewrite arities, Aa. unfold given_of. rewrite Aa. reflexivity. }
    rewrite (loop_option n i ps ex _ _ _ _ _ (known_opt _ _ _ C1) ltac:(rewrite C1; exact C2)). cbn [skipn].
    destruct (IH n ex ltac:(lia)) as (n' & N & ->). exists n'. split; [cbn [length]; lia|]. destruct (loop opts n' i ps ex rest) as [ms rr]. reflexivity.
  - destruct n as [|n]; [cbn [length] in Hn; lia|]. cbn [length] in Hn. cbn [tag map app]. fold (tag args). destruct (long_name p a AB) as (C1 & _ & N61). rewrite <- (any_plain p N61) in C1. rewrite (own_is_arg t OW AT).
    assert (C2 : consume_optional opts (Known (opt_of a) None) ((t, Arg) :: tag args ++ rest) = Some ([given_of a], false, 1%nat)).
    { cbn [consume_optional]. unfold with_next. rewrite arities, Aa. cbn [run_of_args]. unfold given_of. rewrite Aa. reflexivity. }
    rewrite (loop_option n i ps ex _ _ _ _ _ (known_opt _ _ _ C1) ltac:(rewrite C1; exact C2)). cbn [skipn].
    destruct (IH n ex ltac:(lia)) as (n' & N & ->). exists n'. split; [cbn [length]; lia|]. destruct (loop opts n' i ps ex rest) as [ms rr]. reflexivity.
  - destruct n as [|n]; [cbn [length] in Hn; lia|]. cbn [length] in Hn. cbn [tag map app]. fold (tag args). pose proof (letter_equals a c t La) as C1.
    assert (C2 : consume_optional opts (Equals (opt_of a) t) (tag args ++ rest) = Some ([given_of a], false, O)) by (cbn [consume_optional]; rewrite arities, Aa; unfold given_of; rewrite Aa; reflexivity).
    rewrite C1, (loop_option n i ps ex _ (Equals (opt_of a) t) (tag args ++ rest) [given_of a] O eq_refl C2). cbn [skipn].
    destruct (IH n ex ltac:(lia)) as (n' & N & ->). exists n'. split; [cbn [length]; lia|]. destruct (loop opts n' i ps ex rest) as [ms rr]. reflexivity.
  - destruct n as [|n]; [cbn [length] in Hn; lia|]. cbn [length] in Hn. cbn [tag map app]. fold (tag args). pose proof (long_equals p a t AB) as C1.
    assert (C2 : consume_optional opts (Equals (opt_of a) t) (tag args ++ rest) = Some ([given_of a], false, O)) by (cbn [consume_optional]; rewrite arities, Aa; unfold given_of; rewrite Aa; reflexivity).
    rewrite C1, (loop_option n i ps ex _ (Equals (opt_of a) t) (tag args ++ rest) [given_of a] O eq_refl C2). cbn [skipn].
    destruct (IH n ex ltac:(lia)) as (n' & N & ->). exists n'. split; [cbn [length]; lia|]. destruct (loop opts n' i ps ex rest) as [ms rr]. reflexivity.
Qed.
(** ** Every word is within the model and none is "--" *)
Definition fine (w : list Z) : Prop := w <> [45; 45] /\ unclear w = false /\ (classify_any opts w = Arg \/ (exists a e, classify_any opts w = Known (opt_of a) e) \/ exists a e, classify_any opts w = Equals (opt_of a) e).
Lemma outside_clear w : outside w = false -> unclear w = false.
Proof.
  intros O. pose proof (inside w) as I. pose proof O as O'. unfold outside in O'. apply orb_false_iff in O' as [_ A]. unfold unclear. rewrite A, orb_false_r. destruct w as [|c [|d r]]; try reflexivity. cbn [single_dash]. destruct (c =? dash) eqn:C; [|reflexivity].
  apply Z.eqb_eq in C. unfold dash in C. subst c. specialize (I (d :: r) O eq_refl). replace (existsb (Z.eqb 61) (45 :: d :: r)) with false; [destruct (negb (d =? dash)); reflexivity|].
  symmetry. change (existsb (Z.eqb 61) (45 :: d :: r)) with (existsb (Z.eqb 61) (d :: r)). destruct (existsb _ (d :: r)) eqn:E; [|reflexivity]. exfalso. apply existsb_exists in E as (y & Y & E). apply Z.eqb_eq in E. subst y. exact (I Y).
Qed.
Lemma ascii_clear w : ascii_text w -> existsb (fun c => (c <? 0) || (127 <? c)) w = false.
Proof. intros A. destruct (existsb _ w) eqn:E; [|reflexivity]. exfalso. apply existsb_exists in E as (d & I & E). unfold ascii_text in A. rewrite Forall_forall in A. specialize (A d I). cbv beta in *. lia. Qed.
Lemma codes_of fs cs : Forall2 switch fs cs -> Forall (fun c => c <> 45 /\ c <> 61 /\ 0 <= c < 128) cs.
Proof. induction 1 as [|f c fs cs H HF IH]; constructor; [|assumption]. exact (letter_code f c (proj2 H)). Qed.
Lemma own_fine t : own_word t -> ascii_text t -> fine t.
Proof. intros OW AT. destruct (own_plain t OW AT) as (A & B & _). split; [exact A|]. split; [exact (outside_clear t B)|]. left. now apply own_is_arg. Qed.
Lemma long_fine p a : shortens word words p a -> fine p.
Proof.
  intros AB. pose proof AB as (L & _). destruct (long_name p a AB) as (C & A & N). split; [intros ->; vm_compute in L; discriminate|]. split; [|right; left; exists a, None; now rewrite any_plain].
  apply outside_clear, within; [exact A|]. intros r -> I. apply N. now right.
Qed.
Lemma word_fine fs cs (a : R) c l : Forall2 switch fs cs -> letter a = Some c -> ascii_text l -> ~ In 61 l -> fine (45 :: cs ++ c :: l).
Proof.
  intros HF La AT N. pose proof (codes_of fs cs HF) as LO. pose proof (letter_code a c La) as Lc.
  assert (C : exists b e, classify_any opts (45 :: cs ++ c :: l) = Known (opt_of b) e).
  { rewrite (any_plain _ (group_no fs cs a c l HF La N)). destruct HF as [|f d fs cs H HF].
    - cbn [app]. destruct l as [|x l]; [exists a, None; now apply letter_alone|exists a, (Some (x :: l)); now apply letter_more].
    - cbn [app]. destruct (cs ++ c :: l) as [|x y] eqn:X; [destruct cs; discriminate|]. exists f, (Some (x :: y)). exact (letter_more f d x y (proj2 H)). }
  split; [|split; [|right; now left]].
  - destruct cs as [|d cs]; cbn [app]; intros E; injection E as -> _; [tauto|]. inv LO. tauto.
  - apply outside_clear, within.
    + constructor; [lia|]. apply Forall_app. split; [eapply Forall_impl; [|exact LO]; cbv beta; intros; lia|]. constructor; [lia|exact AT].
    + intros r E. injection E as <-. intros I. apply in_app_or in I as [I|[I|I]]; [|lia|tauto]. rewrite Forall_forall in LO. specialize (LO 61 I). lia.
Qed.
Lemma spelled_fine args ss : spells args ss -> Forall fine args.
Proof.
  induction 1 as [|fs cs args ss NE HF W IH|fs cs a c t args ss HF La Aa ST AT W IH|fs cs a c t args ss HF La Aa OW AT W IH|p a args ss Aa AB W IH|p a t args ss Aa AB OW AT W IH|a c t args ss La Aa AT W IH|p a t args ss Aa AB AT W IH].
  - constructor.
  - constructor; [|exact IH]. assert (X : exists fs' cs' f c, Forall2 switch fs' cs' /\ switch f c /\ cs = cs' ++ [c]).
    { clear IH W. induction HF as [|f c fs cs H HF IH]; [congruence|]. destruct fs as [|f' fs]; [inv HF; exists [], [], f, c; repeat split; [constructor|exact (proj1 H)|exact (proj2 H)]|].
      destruct IH as (fs1 & cs1 & f1 & c1 & A & B & ->); [discriminate|]. exists (f :: fs1), (c :: cs1), f1, c1. repeat split; [now constructor|exact (proj1 B)|exact (proj2 B)]. }
    destruct X as (fs' & cs' & f & c & A & B & ->). apply (word_fine fs' cs' f c []); [exact A|exact (proj2 B)|constructor|easy].
  - constructor; [|exact IH]. apply (word_fine fs cs a c t HF La AT). exact (proj2 ST).
  - constructor; [|constructor; [now apply own_fine|exact IH]]. apply (word_fine fs cs a c [] HF La); [constructor|easy].
  - constructor; [exact (long_fine p a AB)|exact IH].
  - constructor; [exact (long_fine p a AB)|constructor; [now apply own_fine|exact IH]].
  - constructor; [|exact IH]. destruct (letter_code a c La) as (ND & N61 & RG). split; [intros X; injection X as ->; congruence|]. split; [|right; right; exists a, t; now apply letter_equals].
    unfold unclear. rewrite ascii_clear by (repeat (constructor; [lia|]); exact AT). replace (c =? 61) with false by lia. cbn [negb andb]. change (61 =? 61) with true. cbn [negb]. rewrite andb_false_r. reflexivity.
  - constructor; [|exact IH]. pose proof (long_dash p a AB) as DD. destruct (long_name p a AB) as (_ & A & _). split; [|split; [|right; right; exists a, t; now apply long_equals]].
    + intros X. destruct AB as (L & _). apply (f_equal (fun l => len l)) in X. rewrite len_app in X. change (len [45; 45]) with 2 in X. pose proof (len_nonneg (61 :: t)). lia.
    + unfold unclear. rewrite ascii_clear by (apply Forall_app; split; [exact A|constructor; [lia|exact AT]]). rewrite orb_false_r. destruct p as [|c0 [|c1 r]]; try discriminate. cbn [double_dash] in DD. apply andb_true_iff in DD as [D0 D1]. cbn [app single_dash]. rewrite D0, D1. reflexivity.
Qed.
Lemma fine_kinds args : Forall fine args -> kinds opts args = tag args /\ existsb unclear args = false /\ existsb (fun x => match snd x with Ambiguous => true | _ => false end) (tag args) = false.
Proof.
  induction 1 as [|w args (N & O & K) H (IH1 & IH2 & IH3)]; [now repeat split|]. repeat split.
  - cbn [kinds tag map]. destruct (same w [dash; dash]) eqn:S; [exfalso; apply same_iff in S; apply N; exact S|]. rewrite IH1. reflexivity.
  - cbn [existsb]. rewrite O, IH2. reflexivity.
  - cbn [tag map existsb snd]. fold (tag args). rewrite IH3. destruct K as [->|[(a & e & ->)|(a & e & ->)]]; reflexivity.
Qed.
Lemma tag_app x y : tag (x ++ y) = tag x ++ tag y. Proof. apply map_app. Qed.
Lemma spelled_first args ss : spells args ss -> args <> [] -> exists w rest, args = w :: rest /\ is_opt (classify_any opts w) = true.
Proof.
  assert (SW : forall fs cs (a : R) c l, Forall2 switch fs cs -> letter a = Some c -> ~ In 61 l -> is_opt (classify_any opts (45 :: cs ++ c :: l)) = true).
  { intros fs cs a c l HF La N. rewrite (any_plain _ (group_no fs cs a c l HF La N)). destruct HF as [|f d fs cs H HF].
    - cbn [app]. destruct l as [|x l]; [rewrite (letter_alone a c La)|rewrite (letter_more a c x l La)]; reflexivity.
    - cbn [app]. destruct (cs ++ c :: l) as [|x y] eqn:X; [destruct cs; discriminate|]. rewrite (letter_more f d x y (proj2 H)). reflexivity. }
  intros W NE. destruct W as [|fs cs args ss N HF W|fs cs a c t args ss HF La Aa ST AT W|fs cs a c t args ss HF La Aa OW AT W|p a args ss Aa AB W|p a t args ss Aa AB OW AT W|a c t args ss La Aa AT W|p a t args ss Aa AB AT W]; [congruence| | | | | | |].
  - exists (45 :: cs), args. split; [reflexivity|]. rewrite any_plain by (intros [X|X]; [discriminate|exact (flags_no _ _ HF X)]). destruct (switches_split fs cs HF N) as (f & d & fs' & cs' & -> & -> & Hf & HF').
    destruct cs' as [|x y]; [rewrite (letter_alone f d (proj2 Hf))|rewrite (letter_more f d x y (proj2 Hf))]; reflexivity.
  - exists (45 :: cs ++ c :: t), args. split; [reflexivity|]. apply (SW fs cs a); [assumption|assumption|exact (proj2 ST)].
  - exists (45 :: cs ++ [c]), (t :: args). split; [reflexivity|]. apply (SW fs cs a); [assumption|assumption|easy].
  - exists p, args. split; [reflexivity|]. destruct (long_name p a AB) as (C & _ & N). rewrite (any_plain p N), C. reflexivity.
  - exists p, (t :: args). split; [reflexivity|]. destruct (long_name p a AB) as (C & _ & N). rewrite (any_plain p N), C. reflexivity.
  - exists (45 :: c :: 61 :: t), args. split; [reflexivity|]. now rewrite (letter_equals a c t La).
  - exists (p ++ 61 :: t), args. split; [reflexivity|]. now rewrite (long_equals p a t AB).
Qed.
Lemma loop_end n i ps ex : loop opts (S n) i ps ex [] = (place i (partial (length ps) ps ([] : list (list Z * kind (D := D)))) [], Some (ex || (total (partial (length ps) ps ([] : list (list Z * kind (D := D)))) <? 0)%nat, skipn (length (partial (length ps) ps ([] : list (list Z * kind (D := D))))) ps)).
Proof. reflexivity. Qed.
End Reading.
