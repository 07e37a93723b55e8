(** Proofs about fpfind's command line. *)
From Coq Require Import QArith Qabs Lqa String Lia.
From Coq Require Import ZifyBool.
From Verif Require Import Float Base TimestampsModel EpochsModel UtilsModel FpfindModel MainModel CdRunModel ArgModel FpCliModel FpCliSpec.
Import ListNotations. Local Open Scope string_scope. Local Open Scope list_scope. Local Open Scope Z_scope.

Lemma same_iff : forall s t, same s t = true <-> s = t.
Proof.
  induction s as [|c s IH]; intros [|d t]; cbn [same]; split; try easy.
  - rewrite andb_true_iff, IH. intros [E ->]. f_equal. lia.
  - intros E. injection E as -> ->. rewrite andb_true_iff, IH. split; [lia|reflexivity].
Qed.
Lemma starts_iff : forall s p, starts s p = true <-> exists r, s = p ++ r.
Proof.
  intros s p. revert s. induction p as [|d p IH]; intros s.
  - split; [now exists s|now destruct s].
  - destruct s as [|c s]; cbn [starts]; [split; [easy|intros (r & E); discriminate]|]. rewrite andb_true_iff, IH. split.
    + intros (E & r & ->). exists r. cbn [app]. f_equal. lia.
    + intros (r & E). cbn [app] in E. injection E as -> ->. split; [lia|now exists r].
Qed.
Definition dst_of (a : ask) : dst :=
  match a with
  | AHelp => Help | AVerbose => Verbosity | AQuiet => Quiet | ALegacy => Legacy | APrecomp => PrecompEnable | AOrdered => PrecompOrdered | AFullscan => PrecompFullscan
  | AReference _ => Reference | ATarget _ => Target | ASendfiles _ => Sendfiles | AT1files _ => T1files | AFirst _ => FirstEpoch
  | ASkipEpochs _ => SkipEpochs | AWraps _ => NumWraps | AOrder _ => BufferOrder | AInitial _ => InitialRes | AFinal _ => FinalRes | AOutput _ => Output
  | ASkip _ => SkipDuration | ASeparation _ => Separation | AThreshold _ => Threshold | AStart _ => PrecompStart | AStep _ => PrecompStep | AStop _ => PrecompStop
  end.
Definition args_of (a : ask) : list (list Z) := match argument a with Some t => [t] | None => [] end.
Definition act_of (a : ask) : action := Given (dst_of a) (args_of a).
Definition opt_of (a : ask) : opt dst :=
  mkOpt (dst_of a) (match letter a with Some c => [[45; c]; word a] | None => [word a] end) (match argument a with Some _ => One | None => No end).
(** ** Single words *)
Lemma short_alone a c : letter a = Some c -> exactly table [45; c] = Some (opt_of a).
Proof. destruct a; intros H; try discriminate; injection H as <-; reflexivity. Qed.
Lemma short_more a c d r : letter a = Some c -> classify table (45 :: c :: d :: r) = Known (opt_of a) (Some (d :: r)).
Proof. destruct a; intros H; try discriminate; injection H as <-; reflexivity. Qed.
Lemma short_one a c : letter a = Some c -> classify table [45; c] = Known (opt_of a) None.
Proof. intros H. unfold classify. rewrite (short_alone a c H). reflexivity. Qed.
Lemma not_dash a c : letter a = Some c -> c <> 45 /\ c <> 61 /\ 0 <= c < 128.
Proof. destruct a; intros H; try discriminate; injection H as <-; lia. Qed.
Lemma flag_args f c : flag_letter f c -> arity_of (opt_of f) = No /\ act_of f = Given (dest (opt_of f)) [].
Proof. intros [H _]. unfold opt_of, act_of, args_of. cbn [arity_of dest]. rewrite H. tauto. Qed.
Lemma cl_flags : forall fs cs f0 c0, flag_letter f0 c0 -> Forall2 flag_letter fs cs -> fs <> [] -> cluster table (opt_of f0) cs = Done (map act_of (f0 :: fs)).
Proof.
  induction fs as [|f fs IH]; intros cs f0 c0 H0 HF NE; [congruence|]. inv HF. match goal with X : flag_letter f ?c |- _ => rename c into d; rename X into Hf end.
  destruct (flag_args f0 c0 H0) as [A0 E0]. destruct (not_dash f d (proj2 Hf)) as (ND & _).
  match goal with X : Forall2 _ fs ?l |- _ => rename l into cs; rename X into HF end. cbn [cluster]. rewrite A0. replace (d =? dash) with false by (unfold dash; lia). cbn [map].
  change [dash; d] with [45; d]. rewrite (short_alone f d (proj2 Hf)), <- E0. destruct (flag_args f d Hf) as [A1 E1]. destruct fs as [|f' fs].
  - inv HF. rewrite A1, <- E1. reflexivity.
  - destruct cs as [|c' cs]; [inv HF|]. rewrite (IH (c' :: cs) f d Hf HF) by discriminate. reflexivity.
Qed.
Lemma cl_attached : forall fs cs f0 c0 a c t, flag_letter f0 c0 -> Forall2 flag_letter fs cs -> letter a = Some c -> argument a = Some t -> t <> [] ->
  cluster table (opt_of f0) (cs ++ c :: t) = Done (map act_of (f0 :: fs ++ [a])).
Proof.
  induction fs as [|f fs IH]; intros cs f0 c0 a c t H0 HF La Aa NT; inv HF; destruct (flag_args f0 c0 H0) as [A0 E0].
  - cbn [app cluster]. rewrite A0. destruct (not_dash a c La) as (ND & _). replace (c =? dash) with false by (unfold dash; lia). change [dash; c] with [45; c]. rewrite (short_alone a c La).
    destruct t as [|x t]; [congruence|]. assert (X : cluster table (opt_of a) (x :: t) = Done [Given (dest (opt_of a)) [x :: t]]) by (cbn [cluster opt_of arity_of]; rewrite Aa; reflexivity).
    rewrite X, <- E0. cbn [map opt_of dest app]. f_equal. f_equal. unfold act_of at 1, args_of. rewrite Aa. reflexivity.
  - match goal with X : flag_letter f ?c |- _ => rename c into d; rename X into Hf end. match goal with X : Forall2 _ fs ?l |- _ => rename l into cs; rename X into HF end.
    destruct (not_dash f d (proj2 Hf)) as (ND & _). cbn [app cluster]. rewrite A0. replace (d =? dash) with false by (unfold dash; lia). change [dash; d] with [45; d]. rewrite (short_alone f d (proj2 Hf)).
    pose proof (IH cs f d a c t Hf HF La Aa NT) as X. destruct (cs ++ c :: t) as [|y l] eqn:E; [destruct cs; discriminate|]. rewrite X, <- E0. reflexivity.
Qed.
Lemma cl_waiting : forall fs cs f0 c0 a c t, flag_letter f0 c0 -> Forall2 flag_letter fs cs -> letter a = Some c -> argument a = Some t ->
  cluster table (opt_of f0) (cs ++ [c]) = Waiting (map act_of (f0 :: fs)) (opt_of a).
Proof.
  induction fs as [|f fs IH]; intros cs f0 c0 a c t H0 HF La Aa; inv HF; destruct (flag_args f0 c0 H0) as [A0 E0].
  - cbn [app cluster]. rewrite A0. destruct (not_dash a c La) as (ND & _). replace (c =? dash) with false by (unfold dash; lia). change [dash; c] with [45; c]. rewrite (short_alone a c La).
    assert (X : arity_of (opt_of a) = One) by (cbn [opt_of arity_of]; now rewrite Aa). rewrite X, <- E0. reflexivity.
  - match goal with X : flag_letter f ?c |- _ => rename c into d; rename X into Hf end. match goal with X : Forall2 _ fs ?l |- _ => rename l into cs; rename X into HF end.
    destruct (not_dash f d (proj2 Hf)) as (ND & _). cbn [app cluster]. rewrite A0. replace (d =? dash) with false by (unfold dash; lia). change [dash; d] with [45; d]. rewrite (short_alone f d (proj2 Hf)).
    pose proof (IH cs f d a c t Hf HF La Aa) as X. destruct (cs ++ [c]) as [|y l] eqn:E; [destruct cs; discriminate|]. rewrite X, <- E0. reflexivity.
Qed.
(** long names: all beginnings are checked *)
Definition shapes : list ask := [AHelp; AVerbose; AQuiet; ALegacy; APrecomp; AOrdered; AFullscan; AReference []; ATarget []; ASendfiles []; AT1files []; AFirst [];
  ASkipEpochs []; AWraps []; AOrder []; AInitial []; AFinal []; AOutput []; ASkip []; ASeparation []; AThreshold []; AStart []; AStep []; AStop []].
Definition shape (a : ask) : ask :=
  match a with
  | AReference _ => AReference [] | ATarget _ => ATarget [] | ASendfiles _ => ASendfiles [] | AT1files _ => AT1files [] | AFirst _ => AFirst []
  | ASkipEpochs _ => ASkipEpochs [] | AWraps _ => AWraps [] | AOrder _ => AOrder [] | AInitial _ => AInitial [] | AFinal _ => AFinal [] | AOutput _ => AOutput []
  | ASkip _ => ASkip [] | ASeparation _ => ASeparation [] | AThreshold _ => AThreshold [] | AStart _ => AStart [] | AStep _ => AStep [] | AStop _ => AStop [] | a => a
  end.
Lemma shape_same a : In (shape a) shapes /\ word (shape a) = word a /\ opt_of (shape a) = opt_of a.
Proof. destruct a; (split; [cbn [shape shapes In]; tauto|split; reflexivity]). Qed.
Definition unique (p w : list Z) : bool := forallb (fun v => negb (starts v p) || same v w) words.
Definition known_as (k : kind) (d : dst) : bool := match k with Known o None => dst_beq (dest o) d | _ => false end.
Lemma long_checked : forallb (fun a => forallb (fun n => let p := firstn n (word a) in negb (2 <? len p) || negb (unique p (word a)) || known_as (classify table p) (dst_of a)) (seq 0 20)) shapes = true.
Proof. vm_compute. reflexivity. Qed.
Lemma table_dest o o' : In o table -> In o' table -> dest o = dest o' -> o = o'.
Proof.
  intros I I' E. unfold table, both, only in I, I'. cbn [In] in I, I'.
  repeat (destruct I as [<-|I]; [repeat (destruct I' as [<-|I']; [first [reflexivity|discriminate E]|]); destruct I'|]). destruct I.
Qed.
Lemma classify_in s o e : classify table s = Known o e -> In o table.
Proof.
  assert (N : forall x, In x (all_names table) -> In (snd x) table).
  { intros x I. unfold all_names in I. apply in_flat_map in I as (o' & I1 & I2). apply in_map_iff in I2 as (n & <- & _). exact I1. }
  unfold classify. destruct s as [|c r]; [discriminate|]. destruct (negb (c =? dash)); [discriminate|].
  destruct (exactly table (c :: r)) as [o'|] eqn:E.
  - intros H. injection H as <- _. unfold exactly in E. destruct (find _ _) as [x|] eqn:F; [|discriminate]. injection E as <-. apply find_some in F as [F _]. now apply N.
  - destruct (same r []); [discriminate|]. destruct (candidates table (c :: r)) as [|[o' e'] [|? ?]] eqn:C; [destruct (negative_number _); [discriminate|]; destruct (existsb _ _); discriminate| |discriminate].
    intros H. injection H as <- <-. assert (I : In (o', e') (candidates table (c :: r))) by (rewrite C; now left). unfold candidates in I. destruct r as [|d r]; [destruct I|].
    destruct (d =? dash).
    + apply in_map_iff in I as (x & X & I). apply filter_In in I as [I _]. injection X as <- _. now apply N.
    + apply in_flat_map in I as (x & I & X). destruct (same _ _); [destruct X as [X|[]]; injection X as <- _; now apply N|]. destruct (starts _ _); [destruct X as [X|[]]; injection X as <- _; now apply N|destruct X].
Qed.
Lemma opt_in a : In (opt_of a) table.
Proof. destruct a; unfold table, both, only; cbn [In]; repeat (first [left; reflexivity|right]). Qed.
Lemma long_word p a : abbreviates p a -> classify table p = Known (opt_of a) None.
Proof.
  intros (L & (r & E) & U). destruct (shape_same a) as (IS & WS & OS).
  assert (P : p = firstn (length p) (word a)) by (rewrite E, firstn_app, Nat.sub_diag, firstn_all, app_nil_r; reflexivity).
  pose proof long_checked as C. rewrite forallb_forall in C. specialize (C _ IS). rewrite forallb_forall in C. cbv zeta in C. rewrite WS in C.
  assert (LW : (length (word a) < 20)%nat) by (destruct a; cbn; lia). specialize (C (length p)). rewrite <- P in C.
  assert (X : In (length p) (seq 0 20)) by (apply in_seq; rewrite E, app_length in LW; lia). specialize (C X). rewrite !orb_true_iff in C.
  destruct C as [[C|C]|C]; [lia| |].
  - exfalso. apply negb_true_iff in C. assert (UU : unique p (word a) = true); [|congruence]. unfold unique. apply forallb_forall. intros v I. apply orb_true_iff.
    destruct (starts v p) eqn:S; [right|now left]. apply starts_iff in S as (q & S). apply same_iff. exact (U v q I S).
  - unfold known_as in C. destruct (classify table p) as [| |o [e|]| | |] eqn:K; try discriminate. apply internal_dst_dec_bl in C. f_equal. apply table_dest; [exact (classify_in _ _ _ K)|apply opt_in|].
    rewrite C. cbn [opt_of dest]. destruct a; reflexivity.
Qed.
(** ** Arguments in a word of their own *)
Lemma no_newline_id s : ~ In 10 s -> no_newline s = s.
Proof.
  intros N. unfold no_newline. destruct (rev s) as [|c r] eqn:E; [reflexivity|]. assert (C : c <> 10) by (intros ->; apply N, in_rev; rewrite E; now left).
  destruct c as [|q|q]; try reflexivity. repeat (destruct q as [q|q|]; try reflexivity); congruence.
Qed.
Lemma digit_iff c : digit c = true <-> is_digit c. Proof. unfold digit, is_digit. lia. Qed.
Lemma skip_all : forall ds r, digits ds -> skip_digits (ds ++ r) = skip_digits r.
Proof. induction ds as [|d ds IH]; intros r H; [reflexivity|]. inv H. cbn [app skip_digits]. rewrite (proj2 (digit_iff d)) by assumption. now apply IH. Qed.
Lemma names_second : forall x, In x (all_names table) -> exists c r, fst x = 45 :: c :: r /\ (57 < c \/ c = 45).
Proof.
  assert (G : forallb (fun x => match fst x with a :: c :: _ => (a =? 45) && ((57 <? c) || (c =? 45)) | _ => false end) (all_names table) = true) by (vm_compute; reflexivity).
  rewrite forallb_forall in G. intros x I. specialize (G x I). destruct (fst x) as [|a [|c r]]; try discriminate. exists c, r. split; [f_equal; lia|lia].
Qed.
Lemma no_name d r : 46 <= d <= 57 -> exactly table (45 :: d :: r) = None /\ candidates table (45 :: d :: r) = [].
Proof.
  intros Hd. split.
  - unfold exactly. destruct (find _ _) as [x|] eqn:F; [|reflexivity]. exfalso. apply find_some in F as [I S]. destruct (names_second x I) as (c & r' & E & C). apply same_iff in S. rewrite E in S. injection S as -> _. lia.
  - unfold candidates. replace (d =? dash) with false by (unfold dash; lia).
    assert (G : forall l, (forall x, In x l -> exists c r, fst x = 45 :: c :: r /\ (57 < c \/ c = 45)) ->
      flat_map (fun x : list Z * opt dst => if same (fst x) [dash; d] then [(snd x, Some r)] else if starts (fst x) (45 :: d :: r) then [(snd x, None)] else []) l = []).
    { induction l as [|x l IH]; intros HL; [reflexivity|]. cbn [flat_map]. rewrite IH by (intros y I; apply HL; now right). destruct (HL x (or_introl eq_refl)) as (c & r' & E & C).
      destruct (same (fst x) [dash; d]) eqn:S1. { apply same_iff in S1. rewrite E in S1. injection S1 as -> _. lia. }
      destruct (starts (fst x) (45 :: d :: r)) eqn:S2. { apply starts_iff in S2 as (q & S2). rewrite E in S2. injection S2 as -> _. lia. } reflexivity. }
    apply G. exact names_second.
Qed.
Lemma digits_no10 ds : digits ds -> ~ In 10 ds.
Proof. intros H I. rewrite (Forall_forall is_digit ds : _ <-> _) in H. specialize (H 10 I). unfold is_digit in H. lia. Qed.
Lemma own_arg t : own_word t -> classify table t = Arg.
Proof.
  intros [H|[->|[(ds & NE & HD & ->)|(ds & fs & NE & HD & HF & ->)]]].
  - destruct t as [|c r]; [reflexivity|]. cbn [classify]. replace (c =? dash) with false; [reflexivity|]. unfold dash. assert (c <> 45) by (intros ->; now apply (H r)). lia.
  - reflexivity.
  - destruct ds as [|d ds]; [congruence|]. pose proof HD as HD'. inv HD. unfold is_digit in *. destruct (no_name d ds ltac:(lia)) as [A B]. unfold classify. rewrite A, B.
    change (negb (45 =? dash)) with false. cbn [same]. unfold negative_number. rewrite no_newline_id by (intros [X|X]; [discriminate|revert X; now apply digits_no10]). cbn [same negb andb].
    rewrite <- (app_nil_r (d :: ds)), skip_all by exact HD'. reflexivity.
  - assert (F : exists d r, 46 <= d <= 57 /\ ds ++ 46 :: fs = d :: r).
    { destruct ds as [|d ds]; [exists 46, fs; split; [lia|reflexivity]|]. inv HD. unfold is_digit in *. exists d, (ds ++ 46 :: fs). split; [lia|reflexivity]. }
    destruct F as (d & r & Hd & F). assert (N : negative_number (45 :: ds ++ 46 :: fs) = true).
    { unfold negative_number. rewrite no_newline_id.
      - rewrite skip_all by exact HD. cbn [skip_digits]. change (digit 46) with false. rewrite F. cbn [same negb andb orb]. destruct fs as [|f fs]; [congruence|].
        rewrite <- (app_nil_r (f :: fs)), skip_all by exact HF. reflexivity.
      - intros [X|X]; [discriminate|]. apply in_app_or in X as [X|[X|X]]; [revert X; now apply digits_no10|discriminate|revert X; now apply digits_no10]. }
    rewrite F in *. destruct (no_name d r Hd) as [A B]. unfold classify. rewrite A, B, N. reflexivity.
Qed.
(** ** The loop *)
Definition tagged (ws : list (list Z)) : list (list Z * kind) := map (fun w => (w, classify table w)) ws.
Lemma loop_opt n ex w k rest l m : is_opt k = true -> consume_optional table k rest = Some (l, false, m) ->
  loop table (S n) 0 [] ex ((w, k) :: rest) = (let (ms, r) := loop table n 0 [] ex (skipn m rest) in (l ++ ms, r)).
Proof. intros O C. cbn [loop existsb snd]. rewrite O. cbn [orb]. rewrite C, orb_false_r. reflexivity. Qed.
Lemma flags_split (fs : list ask) cs : Forall2 flag_letter fs cs -> fs <> [] -> exists f c fs' cs', fs = f :: fs' /\ cs = c :: cs' /\ flag_letter f c /\ Forall2 flag_letter fs' cs'.
Proof. intros H N. destruct H as [|f c fs' cs']; [congruence|]. now exists f, c, fs', cs'. Qed.
Lemma first_word w o e : classify table w = Known o e -> is_opt (classify table w) = true. Proof. intros ->. reflexivity. Qed.
(** the words after splitting *)
Inductive spelled : list (list Z) -> list ask -> Prop :=
| O_end : spelled [] []
| O_flags fs cs args ss : fs <> [] -> Forall2 flag_letter fs cs -> spelled args ss -> spelled ((45 :: cs) :: args) (fs ++ ss)
| O_attached fs cs a c t args ss : Forall2 flag_letter fs cs -> letter a = Some c -> argument a = Some t -> same_word t -> ascii_text t -> spelled args ss ->
    spelled ((45 :: cs ++ c :: t) :: args) (fs ++ a :: ss)
| O_detached fs cs a c t args ss : Forall2 flag_letter fs cs -> letter a = Some c -> argument a = Some t -> own_word t -> ascii_text t -> spelled args ss ->
    spelled ((45 :: cs ++ [c]) :: t :: args) (fs ++ a :: ss)
| O_long_flag p a args ss : argument a = None -> abbreviates p a -> spelled args ss -> spelled (p :: args) (a :: ss)
| O_long p a t args ss : argument a = Some t -> abbreviates p a -> own_word t -> ascii_text t -> spelled args ss -> spelled (p :: t :: args) (a :: ss).
Lemma loop_app args ss rest : spelled args ss -> forall n ex, (length args <= n)%nat ->
  exists n', (n - length args <= n')%nat /\ loop table n 0 [] ex (tagged args ++ rest) = (let (ms, r) := loop table n' 0 [] ex rest in (map act_of ss ++ ms, r)).
Proof.
  induction 1 as [|fs cs args ss NE HF W IH|fs cs a c t args ss HF La Aa ST AT W IH|fs cs a c t args ss HF La Aa OW AT W IH|p a args ss Aa AB W IH|p a t args ss Aa AB OW AT W IH];
    intros n ex Hn.
  - exists n. split; [lia|]. cbn [tagged map app]. destruct (loop table n 0 [] ex rest). reflexivity.
  - destruct n as [|n]; [cbn [length] in Hn; lia|]. cbn [length] in Hn. destruct (flags_split fs cs HF NE) as (f & d & fs' & cs' & -> & -> & Hf & HF'). destruct (flag_args f d Hf) as [A0 E0]. cbn [tagged map app].
    assert (C : exists e, classify table (45 :: d :: cs') = Known (opt_of f) e /\ consume_optional table (Known (opt_of f) e) (tagged args ++ rest) = Some (map act_of (f :: fs'), false, O)).
    { destruct cs' as [|d' cs'].
      - inv HF'. exists None. split; [exact (short_one f d (proj2 Hf))|]. cbn [consume_optional]. unfold with_next. rewrite A0, <- E0. reflexivity.
      - exists (Some (d' :: cs')). split; [exact (short_more f d d' cs' (proj2 Hf))|]. cbn [consume_optional]. rewrite (cl_flags fs' (d' :: cs') f d Hf HF') by (intros ->; inv HF'). reflexivity. }
    destruct C as (e & C1 & C2). rewrite (loop_opt n ex _ _ _ _ _ (first_word _ _ _ C1) ltac:(rewrite C1; exact C2)). cbn [skipn].
    destruct (IH n ex ltac:(lia)) as (n' & N & ->). exists n'. split; [cbn [length]; lia|]. destruct (loop table n' 0 [] ex rest) as [ms rr]. rewrite map_app, <- app_assoc. reflexivity.
  - destruct n as [|n]; [cbn [length] in Hn; lia|]. cbn [length] in Hn. cbn [tagged map app]. assert (AR : arity_of (opt_of a) = One) by (cbn [opt_of arity_of]; now rewrite Aa). destruct ST as [NT _].
    assert (C : exists o e, classify table (45 :: cs ++ c :: t) = Known o e /\ consume_optional table (Known o e) (tagged args ++ rest) = Some (map act_of (fs ++ [a]), false, O)).
    { destruct fs as [|f fs'].
      - inv HF. destruct t as [|x t]; [congruence|]. exists (opt_of a), (Some (x :: t)). split; [exact (short_more a c x t La)|]. cbn [consume_optional cluster]. rewrite AR. cbn [app map].
        unfold act_of, args_of. rewrite Aa. reflexivity.
      - destruct (flags_split (f :: fs') cs HF ltac:(discriminate)) as (f1 & d & fs1 & cs' & E & -> & Hf & HF'). injection E as <- <-. cbn [app].
        destruct (cs' ++ c :: t) as [|x l] eqn:X; [destruct cs'; discriminate|]. exists (opt_of f), (Some (x :: l)). split; [exact (short_more f d x l (proj2 Hf))|].
        cbn [consume_optional]. rewrite <- X, (cl_attached fs' cs' f d a c t Hf HF' La Aa NT). reflexivity. }
    destruct C as (o & e & C1 & C2). rewrite (loop_opt n ex _ _ _ _ _ (first_word _ _ _ C1) ltac:(rewrite C1; exact C2)). cbn [skipn].
    destruct (IH n ex ltac:(lia)) as (n' & N & ->). exists n'. split; [cbn [length]; lia|]. destruct (loop table n' 0 [] ex rest) as [ms rr]. rewrite !map_app. cbn [map]. rewrite <- !app_assoc. reflexivity.
  - destruct n as [|n]; [cbn [length] in Hn; lia|]. cbn [length] in Hn. cbn [tagged map app]. assert (AR : arity_of (opt_of a) = One) by (cbn [opt_of arity_of]; now rewrite Aa). rewrite (own_arg t OW). fold (tagged args).
    assert (WN : with_next (opt_of a) ((t, Arg) :: tagged args ++ rest) = Some (act_of a, 1%nat)).
    { unfold with_next. rewrite AR. cbn [run_of_args]. unfold act_of, args_of. rewrite Aa. reflexivity. }
    assert (C : exists o e, classify table (45 :: cs ++ [c]) = Known o e /\ consume_optional table (Known o e) ((t, Arg) :: tagged args ++ rest) = Some (map act_of (fs ++ [a]), false, 1%nat)).
    { destruct fs as [|f fs'].
      - inv HF. exists (opt_of a), None. split; [exact (short_one a c La)|]. cbn [consume_optional]. rewrite WN. reflexivity.
      - destruct (flags_split (f :: fs') cs HF ltac:(discriminate)) as (f1 & d & fs1 & cs' & E & -> & Hf & HF'). injection E as <- <-. cbn [app].
        destruct (cs' ++ [c]) as [|x l] eqn:X; [destruct cs'; discriminate|]. exists (opt_of f), (Some (x :: l)). split; [exact (short_more f d x l (proj2 Hf))|].
        cbn [consume_optional]. rewrite <- X, (cl_waiting fs' cs' f d a c t Hf HF' La Aa), WN, <- map_app with (l' := [a]). reflexivity. }
    destruct C as (o & e & C1 & C2). rewrite (loop_opt n ex _ _ _ _ _ (first_word _ _ _ C1) ltac:(rewrite C1; exact C2)). cbn [skipn].
    destruct (IH n ex ltac:(lia)) as (n' & N & ->). exists n'. split; [cbn [length]; lia|]. destruct (loop table n' 0 [] ex rest) as [ms rr]. rewrite !map_app. cbn [map]. rewrite <- !app_assoc. reflexivity.
  - destruct n as [|n]; [cbn [length] in Hn; lia|]. cbn [length] in Hn. cbn [tagged map app]. fold (tagged args). pose proof (long_word p a AB) as C1.
    assert (C2 : consume_optional table (Known (opt_of a) None) (tagged args ++ rest) = Some ([act_of a], false, O)).
    { cbn [consume_optional]. unfold with_next. cbn [opt_of arity_of dest]. rewrite Aa. unfold act_of, args_of. rewrite Aa. reflexivity. }
    rewrite (loop_opt n ex _ _ _ _ _ (first_word _ _ _ C1) ltac:(rewrite C1; exact C2)). cbn [skipn].
    destruct (IH n ex ltac:(lia)) as (n' & N & ->). exists n'. split; [cbn [length]; lia|]. destruct (loop table n' 0 [] ex rest) as [ms rr]. reflexivity.
  - destruct n as [|n]; [cbn [length] in Hn; lia|]. cbn [length] in Hn. cbn [tagged map app]. fold (tagged args). pose proof (long_word p a AB) as C1. rewrite (own_arg t OW).
    assert (C2 : consume_optional table (Known (opt_of a) None) ((t, Arg) :: tagged args ++ rest) = Some ([act_of a], false, 1%nat)).
    { cbn [consume_optional]. unfold with_next. cbn [opt_of arity_of dest]. rewrite Aa. cbn [run_of_args]. unfold act_of, args_of. rewrite Aa. reflexivity. }
    rewrite (loop_opt n ex _ _ _ _ _ (first_word _ _ _ C1) ltac:(rewrite C1; exact C2)). cbn [skipn].
    destruct (IH n ex ltac:(lia)) as (n' & N & ->). exists n'. split; [cbn [length]; lia|]. destruct (loop table n' 0 [] ex rest) as [ms rr]. reflexivity.
Qed.
Lemma loop_spelled args ss : spelled args ss -> forall n ex, (length args < n)%nat -> loop table n 0 [] ex (tagged args) = (map act_of ss, Some (ex, [])).
Proof.
  intros W n ex Hn. destruct (loop_app args ss [] W n ex ltac:(lia)) as (n' & N & E). rewrite app_nil_r in E. rewrite E. destruct n' as [|n']; [lia|].
  cbn [loop existsb length partial place total fold_right skipn Nat.ltb Nat.leb]. rewrite orb_false_r, app_nil_r. reflexivity.
Qed.
Lemma split_none s : ~ In 61 s -> split_at s = None.
Proof. induction s as [|c r IH]; intros N; [reflexivity|]. cbn [split_at]. replace (c =? 61) with false by (symmetry; apply Z.eqb_neq; intros ->; apply N; now left). rewrite IH; [reflexivity|]. intros I. apply N. now right. Qed.
Lemma split_some k v : ~ In 61 k -> split_at (k ++ 61 :: v) = Some (k, v).
Proof. induction k as [|c r IH]; intros N; [reflexivity|]. cbn [app split_at]. replace (c =? 61) with false by (symmetry; apply Z.eqb_neq; intros ->; apply N; now left). rewrite IH; [reflexivity|]. intros I. apply N. now right. Qed.
Lemma inside w r : outside w = false -> w = 45 :: r -> ~ In 61 r.
Proof.
  intros O -> I. unfold outside in O. apply orb_false_iff in O as [O _]. assert (E : existsb (Z.eqb 61) r = true) by (apply existsb_exists; exists 61; split; [exact I|reflexivity]). rewrite O in E. discriminate.
Qed.
(** words without "=", or not beginning with "-" *)
Lemma split_back s k v : split_at s = Some (k, v) -> s = k ++ 61 :: v.
Proof.
  revert k v. induction s as [|c r IH]; intros k v H; [discriminate|]. cbn [split_at] in H. destruct (c =? 61) eqn:E; [injection H as <- <-; apply Z.eqb_eq in E; now subst c|].
  destruct (split_at r) as [[k' v']|]; [|discriminate]. injection H as <- <-. cbn [app]. f_equal. now apply IH.
Qed.
Lemma any_inside {D} (opts : list (opt D)) w : (forall x, In x (all_names opts) -> exists c r, fst x = 45 :: c :: r /\ (57 < c \/ c = 45)) -> outside w = false -> classify_any opts w = classify opts w.
Proof.
  intros NN O. unfold classify_any. destruct (split_at w) as [[k v]|] eqn:S; [|reflexivity]. apply split_back in S. assert (ND : forall r, w <> 45 :: r).
  { intros r E. apply (inside w r O E). rewrite S in E. destruct k as [|c k]; [discriminate|]. injection E as _ <-. apply in_or_app. right. now left. }
  assert (EX : exactly opts k = None).
  { unfold exactly. destruct (find _ _) as [x|] eqn:F; [|reflexivity]. exfalso. apply find_some in F as [I E]. apply same_iff in E. destruct (NN x I) as (c & r & X & _). rewrite X in E. apply (ND (c :: r ++ 61 :: v)). rewrite S, <- E. reflexivity. }
  rewrite EX. replace (double_dash w) with false; [reflexivity|]. destruct w as [|c [|d w]]; try reflexivity. cbn [double_dash]. destruct (c =? dash) eqn:C; [|reflexivity]. exfalso. apply Z.eqb_eq in C. unfold dash in C. apply (ND (d :: w)). now rewrite C.
Qed.
(** ** Every word is within the model and none is "--" *)
Definition plain (w : list Z) : Prop :=
  w <> [45; 45] /\ outside w = false /\ (classify table w = Arg \/ exists a e, classify table w = Known (opt_of a) e).
Lemma codes_ok : forall l c, Forall (fun c => 0 <= c < 128) l -> existsb (fun c => (c <? 0) || (127 <? c)) l = true -> In c l -> False.
Proof. intros l c H E _. apply existsb_exists in E as (d & I & E). rewrite Forall_forall in H. specialize (H d I). cbv beta in *. lia. Qed.
Lemma within w : ascii_text w -> (forall r, w = 45 :: r -> ~ In 61 r) -> outside w = false.
Proof.
  intros A N. unfold outside. apply orb_false_iff. split.
  - destruct w as [|c r]; [reflexivity|]. destruct (Z.eq_dec c 45) as [->|C].
    + destruct (existsb (Z.eqb 61) r) eqn:E; [|reflexivity]. exfalso. apply existsb_exists in E as (d & I & E). apply Z.eqb_eq in E. subst d. exact (N r eq_refl I).
    + destruct c as [|q|q]; try reflexivity. repeat (destruct q as [q|q|]; try reflexivity); congruence.
  - destruct (existsb _ w) eqn:E; [|reflexivity]. exfalso. apply existsb_exists in E as (d & I & E). unfold ascii_text in A. rewrite Forall_forall in A. specialize (A d I). cbv beta in *. lia.
Qed.
Lemma letters_ok fs cs : Forall2 flag_letter fs cs -> Forall (fun c => c <> 45 /\ c <> 61 /\ 0 <= c < 128) cs.
Proof. induction 1 as [|f c fs cs H HF IH]; constructor; [|assumption]. exact (not_dash f c (proj2 H)). Qed.
Lemma own_plain t : own_word t -> ascii_text t -> plain t.
Proof.
  intros OW AT. split; [|split; [|left; now apply own_arg]].
  - intros ->. destruct OW as [H|[H|[(ds & NE & HD & H)|(ds & fs & NE & HD & HF & H)]]].
    + now apply (H [45]).
    + discriminate.
    + injection H as <-. inv HD. unfold is_digit in *. lia.
    + injection H as H. destruct ds as [|d ds]; [discriminate|]. inv HD. unfold is_digit in *. injection H as <- _. lia.
  - apply within; [exact AT|]. intros r E I. assert (DN : forall ds, digits ds -> ~ In 61 ds) by (intros ds HD X; unfold digits in HD; rewrite Forall_forall in HD; specialize (HD 61 X); unfold is_digit in HD; lia).
    destruct OW as [H|[H|[(ds & NE & HD & H)|(ds & fs & NE & HD & HF & H)]]].
    + now apply (H r).
    + rewrite E in H. injection H as ->. destruct I.
    + rewrite E in H. injection H as ->. now apply (DN ds).
    + rewrite E in H. injection H as ->. apply in_app_or in I as [I|[I|I]]; [now apply (DN ds)|discriminate|now apply (DN fs)].
Qed.
Lemma long_plain p a : abbreviates p a -> plain p.
Proof.
  intros AB. pose proof AB as (L & (r & E) & _). split; [|split; [|right; exists a, None; now apply long_word]].
  - intros ->. vm_compute in L. discriminate.
  - assert (G : forallb (fun c => (0 <=? c) && (c <? 128) && negb (c =? 61)) (word a) = true) by (destruct a; reflexivity). rewrite E, forallb_app in G. apply andb_true_iff in G as [G _].
    rewrite forallb_forall in G. apply within.
    + apply Forall_forall. intros c I. specialize (G c I). lia.
    + intros q -> I. specialize (G 61 (or_intror I)). discriminate.
Qed.
Lemma short_plain w o e : classify table w = Known o e -> (exists a, o = opt_of a) -> (exists c r, w = 45 :: c :: r /\ c <> 45) -> ascii_text w -> (forall r, w = 45 :: r -> ~ In 61 r) -> plain w.
Proof. intros C (a & ->) (c & r & -> & Hc) A N. split; [intros E; injection E as -> _; congruence|]. split; [now apply within|]. right. now exists a, e. Qed.
Lemma spelled_plain args ss : spelled args ss -> Forall plain args.
Proof.
  assert (FST : forall fs cs (a : ask) c l, Forall2 flag_letter fs cs -> letter a = Some c -> exists o e, classify table (45 :: cs ++ c :: l) = Known o e /\ (exists b, o = opt_of b)).
  { intros fs cs a c l HF La. destruct HF as [|f d fs cs H HF].
    - cbn [app]. destruct l as [|x l]; [exists (opt_of a), None; split; [now apply short_one|now exists a]|exists (opt_of a), (Some (x :: l)); split; [now apply short_more|now exists a]].
    - cbn [app]. destruct (cs ++ c :: l) as [|x y] eqn:X; [destruct cs; discriminate|]. exists (opt_of f), (Some (x :: y)). split; [exact (short_more f d x y (proj2 H))|now exists f]. }
  assert (SND : forall fs cs (a : ask) c l, Forall2 flag_letter fs cs -> letter a = Some c -> ascii_text l -> ~ In 61 l -> plain (45 :: cs ++ c :: l)).
  { intros fs cs a c l HF La AT N. destruct (FST fs cs a c l HF La) as (o & e & C & B). pose proof (letters_ok fs cs HF) as LO. pose proof (not_dash a c La) as Lc. apply (short_plain _ o e C B).
    - destruct cs as [|d cs]; [exists c, l; split; [reflexivity|tauto]|]. inv LO. exists d, (cs ++ c :: l). split; [reflexivity|tauto].
    - constructor; [lia|]. apply Forall_app. split; [eapply Forall_impl; [|exact LO]; cbv beta; intros; lia|]. constructor; [lia|exact AT].
    - intros r E. injection E as <-. intros I. apply in_app_or in I as [I|[I|I]]; [|lia|tauto]. rewrite Forall_forall in LO. specialize (LO 61 I). lia. }
  induction 1 as [|fs cs args ss NE HF W IH|fs cs a c t args ss HF La Aa ST AT W IH|fs cs a c t args ss HF La Aa OW AT W IH|p a args ss Aa AB W IH|p a t args ss Aa AB OW AT W IH].
  - constructor.
  - constructor; [|exact IH]. assert (X : exists fs' cs' f c, Forall2 flag_letter fs' cs' /\ flag_letter f c /\ cs = cs' ++ [c]).
    { clear IH W. induction HF as [|f c fs cs H HF IH]; [congruence|]. destruct fs as [|f' fs]; [inv HF; exists [], [], f, c; repeat split; [constructor|exact (proj1 H)|exact (proj2 H)]|].
      destruct IH as (fs1 & cs1 & f1 & c1 & A & B & ->); [discriminate|]. exists (f :: fs1), (c :: cs1), f1, c1. repeat split; [now constructor|exact (proj1 B)|exact (proj2 B)]. }
    destruct X as (fs' & cs' & f & c & A & B & ->). apply (SND fs' cs' f c []); [exact A|exact (proj2 B)|constructor|easy].
  - constructor; [|exact IH]. apply (SND fs cs a c t HF La AT). exact (proj2 ST).
  - constructor; [|constructor; [now apply own_plain|exact IH]]. apply (SND fs cs a c [] HF La); [constructor|easy].
  - constructor; [exact (long_plain p a AB)|exact IH].
  - constructor; [exact (long_plain p a AB)|constructor; [now apply own_plain|exact IH]].
Qed.
Lemma kinds_plain args : Forall plain args -> kinds table args = tagged args.
Proof.
  induction 1 as [|w args (N & O & _) H IH]; [reflexivity|]. cbn [kinds tagged map]. destruct (same w [dash; dash]) eqn:S; [exfalso; apply same_iff in S; apply N; exact S|]. rewrite IH, (any_inside table w names_second O). reflexivity.
Qed.
Lemma parse_spelled args ss : spelled args ss -> parse table [] args = (map act_of ss, false) /\ existsb outside args = false /\ names_config args = false.
Proof.
  intros W. pose proof (spelled_plain args ss W) as P. repeat split.
  - unfold parse. rewrite (kinds_plain args P). replace (existsb _ (tagged args)) with false.
    + rewrite (loop_spelled args ss W) by (unfold tagged; rewrite map_length; lia). reflexivity.
    + symmetry. clear W. induction P as [|w args (_ & _ & K) P IH]; [reflexivity|]. cbn [tagged map existsb snd]. fold (tagged args). rewrite IH.
      destruct K as [->|(a & e & ->)]; reflexivity.
  - clear W. induction P as [|w args (_ & O & _) P IH]; [reflexivity|]. cbn [existsb]. rewrite O, IH. reflexivity.
  - unfold names_config. rewrite (kinds_plain args P). clear W. induction P as [|w args (_ & _ & K) P IH]; [reflexivity|]. cbn [tagged map existsb snd]. fold (tagged args). rewrite IH.
    destruct K as [->|(a & e & ->)]; [reflexivity|destruct a; reflexivity].
Qed.
(** ** Splitting *)
Lemma split_inside w : outside w = false -> split_equals w = [w].
Proof.
  intros O. destruct w as [|c r]; [reflexivity|]. cbn [split_equals]. destruct (c =? dash) eqn:E; [|reflexivity]. apply Z.eqb_eq in E. unfold dash in E. subst c. now rewrite (split_none r (inside _ r O eq_refl)).
Qed.
Lemma split_word r t : outside (45 :: r) = false -> split_equals (45 :: r ++ 61 :: t) = [45 :: r; t].
Proof. intros O. cbn [split_equals]. change (45 =? dash) with true. cbv iota. now rewrite (split_some r t (inside _ r O eq_refl)). Qed.
Lemma spelled_first w args ss : spelled (w :: args) ss -> outside w = false.
Proof. intros W. pose proof (spelled_plain _ _ W) as P. inv P. apply H1. Qed.
Lemma long_dash p a : abbreviates p a -> exists r, p = 45 :: r.
Proof. intros (L & (r & E) & _). destruct p as [|c p]; [discriminate|]. exists p. f_equal. assert (X : exists q, word a = 45 :: q) by (destruct a; eexists; reflexivity). destruct X as (q & X). rewrite X in E. now injection E as <- _. Qed.
Lemma split_writes args ss : writes args ss -> spelled (flat_map split_equals args) ss /\ existsb (fun w => same w []) args = false.
Proof.
  assert (NE : forall t, t <> [] -> same t [] = false) by (intros [|c t]; [congruence|reflexivity]).
  induction 1 as [|fs cs args ss N HF W [IH IE]|fs cs a c t args ss HF La Aa ST AT W [IH IE]|fs cs a c t args ss HF La Aa [TN OW] AT W [IH IE]|p a args ss Aa AB W [IH IE]|p a t args ss Aa AB [TN OW] AT W [IH IE]
    |fs cs a c t args ss HF La Aa OW AT W [IH IE]|p a t args ss Aa AB OW AT W [IH IE]]; cbn [flat_map existsb].
  - split; [constructor|reflexivity].
  - split; [|exact IE]. rewrite (split_inside _ (spelled_first _ _ _ (O_flags fs cs [] [] N HF O_end))). cbn [app]. now constructor.
  - split; [|exact IE]. rewrite (split_inside _ (spelled_first _ _ _ (O_attached fs cs a c t [] [] HF La Aa ST AT O_end))). cbn [app]. now constructor.
  - split; [|now rewrite (NE t TN), IE]. rewrite (split_inside _ (spelled_first _ _ _ (O_detached fs cs a c t [] [] HF La Aa OW AT O_end))), (split_inside t (proj1 (proj2 (own_plain t OW AT)))). cbn [app]. now constructor.
  - destruct (long_dash p a AB) as (r & E). split; [|subst p; exact IE]. rewrite (split_inside _ (proj1 (proj2 (long_plain p a AB)))). cbn [app]. now constructor.
  - destruct (long_dash p a AB) as (r & E). split; [|rewrite (NE t TN), IE; subst p; reflexivity]. rewrite (split_inside _ (proj1 (proj2 (long_plain p a AB)))), (split_inside t (proj1 (proj2 (own_plain t OW AT)))). cbn [app]. now constructor.
  - split; [|exact IE]. replace (cs ++ c :: 61 :: t) with ((cs ++ [c]) ++ 61 :: t) by (now rewrite <- app_assoc). rewrite (split_word (cs ++ [c]) t); [cbn [app]; now constructor|].
    exact (spelled_first _ _ _ (O_detached fs cs a c t [] [] HF La Aa OW AT O_end)).
  - destruct (long_dash p a AB) as (r & E). split; [|subst p; exact IE]. pose proof (long_plain p a AB) as (_ & O & _). subst p. cbn [app]. rewrite (split_word r t O). cbn [app]. now constructor.
Qed.
Lemma split_cons w : split_equals w <> [].
Proof. destruct w as [|c r]; [discriminate|]. cbn [split_equals]. destruct (c =? dash); [|discriminate]. destruct (split_at r) as [[k v]|]; discriminate. Qed.
Lemma split_nil {A} args (x y : A) : match flat_map split_equals args with [] => x | _ => y end = match args with [] => x | _ => y end.
Proof. destruct args as [|w r]; [reflexivity|]. cbn [flat_map]. destruct (split_equals w) eqn:E; [destruct (split_cons w E)|reflexivity]. Qed.
(** ** Numbers *)
Lemma strip_id s : (forall c r, s = c :: r -> space c = false) -> (forall c r, s = r ++ [c] -> space c = false) -> strip s = s.
Proof.
  intros A B. unfold strip. assert (L : lstrip s = s) by (destruct s as [|c r]; [reflexivity|]; cbn [lstrip]; now rewrite (A c r eq_refl)). rewrite L.
  destruct (rev s) as [|c r] eqn:E.
  - cbn [lstrip rev]. rewrite <- (rev_involutive s), E. reflexivity.
  - cbn [lstrip]. rewrite (B c (rev r)) by (rewrite <- (rev_involutive s), E; reflexivity). rewrite <- E. apply rev_involutive.
Qed.
Lemma strip_text s : Forall (fun c => space c = false) s -> strip s = s.
Proof.
  intros H. rewrite Forall_forall in H. apply strip_id; intros c r ->; apply H; [now left|apply in_or_app; right; now left].
Qed.
Lemma scan_ok : forall ds v n r, digits ds -> (match r with c :: _ => digit c = false /\ c <> 95 | [] => True end) ->
  scan_digits (ds ++ r) v n = (fold_left (fun v c => 10 * v + (c - 48)) ds v, n + len ds, r).
Proof.
  induction ds as [|d ds IH]; intros v n r HD HR.
  - cbn [app fold_left]. rewrite len_nil, Z.add_0_r. destruct r as [|c r]; [reflexivity|]. destruct HR as [A B]. cbn [scan_digits]. rewrite A. replace (c =? 95) with false by lia. reflexivity.
  - inv HD. cbn [app scan_digits fold_left]. rewrite (proj2 (digit_iff d)) by assumption. rewrite IH by assumption. f_equal. f_equal. rewrite len_cons. lia.
Qed.
Lemma digits_nospace ds : digits ds -> Forall (fun c => space c = false) ds.
Proof. intros H. eapply Forall_impl; [|exact H]. cbv beta. unfold is_digit, space. intros. lia. Qed.
Lemma sign_nospace s neg : sign s neg -> Forall (fun c => space c = false) s.
Proof. intros [| |]; repeat constructor. Qed.
Lemma signed_ok s neg r : sign s neg -> (match r with c :: _ => c <> 43 /\ c <> 45 | [] => True end) -> signed (s ++ r) = (neg, r).
Proof.
  intros [| |] H; [|reflexivity|reflexivity]. cbn [app]. destruct r as [|c r]; [reflexivity|]. destruct H as [A B]. unfold signed.
  destruct c as [|q|q]; try reflexivity. repeat (destruct q as [q|q|]; try reflexivity); congruence.
Qed.
Lemma digits_head ds r : digits ds -> ds <> [] -> match ds ++ r with c :: _ => c <> 43 /\ c <> 45 | [] => True end.
Proof. destruct ds as [|d ds]; [congruence|]. intros H _. inv H. unfold is_digit in *. cbn [app]. lia. Qed.
Lemma len_pos {A} (l : list A) : l <> [] -> 0 < len l. Proof. destruct l; [congruence|]. rewrite len_cons. pose proof (len_nonneg l). lia. Qed.
Lemma int_whole t z : whole t z -> int_of t = Some z.
Proof.
  intros (s & neg & ds & SG & NE & HD & -> & ->). unfold int_of. rewrite strip_text by (apply Forall_app; split; [exact (sign_nospace s neg SG)|now apply digits_nospace]).
  pose proof (digits_head ds [] HD NE) as DH. rewrite app_nil_r in DH. rewrite (signed_ok s neg ds SG DH).
  rewrite <- (app_nil_r ds) at 1. rewrite (scan_ok ds 0 0 [] HD I). pose proof (len_pos ds NE). replace (0 <? 0 + len ds) with true by lia. destruct neg; reflexivity.
Qed.
Lemma ten_to_power e : (ten_to e == power10 e)%Q.
Proof.
  unfold ten_to, power10. destruct (0 <=? e) eqn:E.
  - rewrite Zpower_Qpower by lia. reflexivity.
  - assert (P : 0 < 10 ^ (- e)) by (apply Z.pow_pos_nonneg; lia). replace e with (- (- e)) at 2 by lia. rewrite Qpower_opp, <- Zpower_Qpower by lia.
    destruct (10 ^ (- e)) as [|q|q] eqn:X; try lia. reflexivity.
Qed.
Lemma scaled_ok v e : 0 <= v -> let q := (inject_Z v * power10 e)%Q in
  (v = 0 \/ (e <= 400 /\ - 10000 <= e /\ (1 # 2 ^ 1022 <= q)%Q /\ (fl 53 q < inject_Z (2 ^ 1024))%Q)) -> scaled v e = Num (fl 53 q).
Proof.
  intros V q H. unfold scaled. destruct (v =? 0) eqn:E.
  - rewrite fl_0; [reflexivity|]. unfold q. replace v with 0 by lia. unfold inject_Z at 1. ring.
  - destruct H as [H|(A & B & C & D)]; [lia|]. replace ((400 <? e) || (e <? -10000)) with false by lia. cbv zeta.
    assert (Q : (inject_Z v * ten_to e == q)%Q) by (unfold q; now rewrite ten_to_power). rewrite (fl_eq 53 _ _ Q).
    replace (Qle_bool tiny (inject_Z v * ten_to e)) with true by (symmetry; apply Qle_bool_iff; rewrite Q; exact C).
    replace (Qle_bool huge (fl 53 q)) with false; [reflexivity|]. symmetry. apply not_true_iff_false. intros X. apply Qle_bool_iff in X. unfold huge in X. apply Qle_not_lt in X. now apply X.
Qed.
Lemma digits_value_nonneg ds : digits ds -> 0 <= digits_value ds.
Proof.
  unfold digits_value. intros H. enough (G : forall v, 0 <= v -> 0 <= fold_left (fun v c => 10 * v + (c - 48)) ds v) by (apply G; lia).
  induction H as [|d ds D H IH]; intros v V; [exact V|]. cbn [fold_left]. apply IH. unfold is_digit in D. lia.
Qed.
Lemma float_decimal t x : decimal t x -> float_of t = Some (Num x).
Proof.
  intros (s & neg & m & ds & fs & ex & e & SG & (HD & HF & NE & HM) & EX & -> & OKV & ->). cbv zeta in OKV.
  assert (SX : Forall (fun c => space c = false) ex).
  { destruct EX as [(-> & _)|(c & r & C & (s' & neg' & ds' & SG' & NE' & HD' & -> & _) & ->)]; [constructor|]. constructor; [destruct C as [-> | ->]; reflexivity|].
    apply Forall_app. split; [exact (sign_nospace s' neg' SG')|now apply digits_nospace]. }
  assert (SM : Forall (fun c => space c = false) m).
  { destruct HM as [(_ & ->)| ->]; [now apply digits_nospace|]. apply Forall_app. split; [now apply digits_nospace|]. constructor; [reflexivity|now apply digits_nospace]. }
  unfold float_of. rewrite strip_text by (apply Forall_app; split; [exact (sign_nospace s neg SG)|apply Forall_app; split; assumption]).
  assert (HH : exists d l, m = d :: l /\ 46 <= d <= 57).
  { destruct HM as [(-> & ->)| ->].
    - rewrite app_nil_r in NE. destruct ds as [|d ds]; [congruence|]. exists d, ds. split; [reflexivity|]. inv HD. unfold is_digit in *. lia.
    - destruct ds as [|d ds]; [exists 46, fs; split; [reflexivity|lia]|]. exists d, (ds ++ 46 :: fs). split; [reflexivity|]. inv HD. unfold is_digit in *. lia. }
  rewrite (signed_ok s neg (m ++ ex) SG) by (destruct HH as (d & l & -> & ?); cbn [app]; lia).
  replace (special_name (m ++ ex)) with false.
  2:{ destruct HH as (d & l & -> & ?). unfold special_name. cbn [app map]. unfold lower at 1. replace ((65 <=? d) && (d <=? 90)) with false by lia. vm_compute chars. cbn [existsb same].
      replace (d =? 105) with false by lia. replace (d =? 110) with false by lia. reflexivity. }
  assert (X95 : match ex with c :: _ => digit c = false /\ c <> 95 | [] => True end).
  { destruct EX as [(-> & _)|(c & r & C & _ & ->)]; [exact I|]. destruct C as [-> | ->]; (split; [reflexivity|lia]). }
  assert (SC : exists v1 n1 r1, scan_digits (m ++ ex) 0 0 = (v1, n1, r1) /\
    (match r1 with 46 :: f => scan_digits f v1 0 | _ => (v1, 0, r1) end) = (digits_value (ds ++ fs), len fs, ex) /\ 0 < n1 + len fs).
  { destruct HM as [(-> & ->)| ->].
    - rewrite app_nil_r in *. exists (digits_value ds), (len ds), ex. rewrite (scan_ok ds 0 0 ex HD X95). pose proof (len_pos ds NE). change (len (@nil Z)) with 0. split; [reflexivity|split; [|lia]].
      destruct EX as [(-> & _)|(c & r & C & _ & ->)]; [reflexivity|]. destruct C as [-> | ->]; reflexivity.
    - rewrite <- app_assoc. cbn [app]. exists (digits_value ds), (len ds), (46 :: fs ++ ex). rewrite (scan_ok ds 0 0 (46 :: fs ++ ex) HD) by (split; [reflexivity|lia]). repeat split.
      + rewrite (scan_ok fs _ 0 ex HF X95). unfold digits_value. rewrite fold_left_app. reflexivity.
      + pose proof (len_pos (ds ++ fs) NE). rewrite len_app in *. lia. }
  destruct SC as (v1 & n1 & r1 & S1 & S2 & N). rewrite S1, S2. replace (n1 + len fs <=? 0) with false by lia.
  assert (V : 0 <= digits_value (ds ++ fs)) by (apply digits_value_nonneg, Forall_app; now split). pose proof (scaled_ok _ _ V OKV) as K.
  destruct EX as [(-> & ->)|(c & r & C & (s' & neg' & ds' & SG' & NE' & HD' & -> & ->) & ->)].
  - replace (- len fs) with (0 - len fs) by lia. rewrite K. destruct neg; reflexivity.
  - replace ((c =? 101) || (c =? 69)) with true by lia. pose proof (digits_head ds' [] HD' NE') as DH. rewrite app_nil_r in DH. rewrite (signed_ok s' neg' ds' SG' DH).
    rewrite <- (app_nil_r ds') at 1. rewrite (scan_ok ds' 0 0 [] HD' I). pose proof (len_pos ds' NE'). replace (0 <? 0 + len ds') with true by lia.
    fold (digits_value ds'). rewrite K. destruct neg; reflexivity.
Qed.
(** ** The namespace *)
Definition val_of (a : ask) : value := match convert (dst_of a) (args_of a) with Some v => v | None => Flag end.
Definition ns_of (ss : list ask) : list (dst * value) := map (fun a => (dst_of a, val_of a)) ss.
Lemma good_convert a : good a -> convert (dst_of a) (args_of a) = Some (val_of a).
Proof.
  unfold val_of. destruct a; cbn [good]; intros G; unfold args_of; cbn [argument dst_of convert]; try reflexivity;
    try (destruct G as (z & W & R); rewrite (int_whole _ z W); replace ((0 <=? z) && (z <? 16)) with true by lia; reflexivity);
    try (destruct G as (z & W); first [rewrite (int_whole _ z W)|rewrite (float_decimal _ z W)]; reflexivity).
Qed.
Lemma converted_ok ss : Forall good ss -> converted (map act_of ss) = Some (ns_of ss).
Proof. induction 1 as [|a ss G H IH]; [reflexivity|]. cbn [map ns_of]. unfold act_of at 1. cbn [converted]. rewrite (good_convert a G), IH. reflexivity. Qed.
Lemma get_last {A} (pick : ask -> option A) d (f : A -> value) ss :
  (forall a, In a ss -> match pick a with Some t => dst_of a = d /\ val_of a = f t | None => dst_of a <> d end) -> get (ns_of ss) d = option_map f (last_of pick ss).
Proof.
  intros H. unfold get, last_of. change (@None value) with (option_map f None). generalize (@None A). revert H. induction ss as [|a ss IH]; intros H acc; [reflexivity|]. cbn [ns_of map fold_left fst snd].
  specialize (IH (fun b I => H b (or_intror I))). pose proof (H a (or_introl eq_refl)) as Ha. destruct (pick a) as [t|].
  - destruct Ha as [E V]. rewrite (internal_dst_dec_lb _ _ E), V. exact (IH (Some t)).
  - destruct (dst_beq (dst_of a) d) eqn:E; [apply internal_dst_dec_bl in E; congruence|]. exact (IH acc).
Qed.
Lemma last_in {A} (pick : ask -> option A) ss t : last_of pick ss = Some t -> exists a, In a ss /\ pick a = Some t.
Proof.
  unfold last_of. assert (G : forall acc, fold_left (fun acc s => match pick s with Some v => Some v | None => acc end) ss acc = Some t -> acc = Some t \/ exists a, In a ss /\ pick a = Some t).
  { induction ss as [|a ss IH]; intros acc E; [now left|]. cbn [fold_left] in E. destruct (IH _ E) as [X|(b & I & X)].
    - destruct (pick a) as [v|] eqn:P; [|now left]. right. exists a. split; [now left|congruence].
    - right. exists b. split; [now right|exact X]. }
  intros E. destruct (G None E) as [X|X]; [discriminate|exact X].
Qed.
Lemma text_last pick d ss : (forall a, match pick a with Some t => dst_of a = d /\ val_of a = Text t | None => dst_of a <> d end) -> text (ns_of ss) d = last_of pick ss.
Proof. intros H. unfold text. rewrite (get_last pick d Text ss (fun a _ => H a)). destruct (last_of pick ss); reflexivity. Qed.
Definition int_value (t : list Z) : value := match int_of t with Some z => Int z | None => Flag end.
Definition real_value (t : list Z) : value := match float_of t with Some x => Real x | None => Flag end.
Lemma int_last pick d ss default v : (forall a, In a ss -> match pick a with Some t => dst_of a = d /\ val_of a = int_value t | None => dst_of a <> d end) ->
  whole_or (last_of pick ss) default v -> int (ns_of ss) d default = v.
Proof. intros H W. unfold int. rewrite (get_last pick d int_value ss H). destruct (last_of pick ss) as [t|]; cbn [whole_or option_map] in *; [|now symmetry]. unfold int_value. rewrite (int_whole t v W). reflexivity. Qed.
Lemma real_last pick d ss default v : (forall a, match pick a with Some t => dst_of a = d /\ val_of a = real_value t | None => dst_of a <> d end) ->
  decimal_or (last_of pick ss) default v -> real (ns_of ss) d default = Some v.
Proof. intros H W. unfold real. rewrite (get_last pick d real_value ss (fun a _ => H a)). destruct (last_of pick ss) as [t|]; cbn [decimal_or option_map] in *; [|now rewrite W]. unfold real_value. rewrite (float_decimal t v W). reflexivity. Qed.
Lemma real_some pick d ss default : (forall a, match pick a with Some t => dst_of a = d /\ val_of a = real_value t | None => dst_of a <> d end) ->
  (forall a t, In a ss -> pick a = Some t -> exists x, decimal t x) -> exists v, real (ns_of ss) d default = Some v.
Proof.
  intros H G. destruct (last_of pick ss) as [t|] eqn:L.
  - destruct (last_in pick ss t L) as (a & I & P). destruct (G a t I P) as (x & X). exists x. apply (real_last pick d ss default x H). rewrite L. exact X.
  - exists default. apply (real_last pick d ss default default H). rewrite L. reflexivity.
Qed.
Lemma given_asked (f : ask) d ss b : (forall a, dst_of a = d <-> a = f) -> requested f ss b -> given (ns_of ss) d = b.
Proof.
  intros H A. unfold given. assert (G : (exists v, get (ns_of ss) d = Some v) <-> In f ss).
  { unfold get. assert (K : forall acc, (exists v, fold_left (fun acc x => if dst_beq (fst x) d then Some (snd x) else acc) (ns_of ss) acc = Some v) <-> (exists v, acc = Some v) \/ In f ss).
    { clear A. induction ss as [|a ss IH]; intros acc; [cbn; tauto|]. cbn [ns_of map fold_left fst snd]. fold (ns_of ss). rewrite IH. cbn [In].
      destruct (dst_beq (dst_of a) d) eqn:E.
      - apply internal_dst_dec_bl in E. apply H in E. split; [tauto|]. intros _. left. now exists (val_of a).
      - assert (N : a <> f) by (intros X; apply H in X; apply internal_dst_dec_lb in X; congruence). tauto. }
    rewrite K. split; [intros [(v & X)|X]; [discriminate|exact X]|now right]. }
  unfold requested in A. rewrite <- G in A. destruct (get (ns_of ss) d) as [v|]; destruct b; try reflexivity.
  - symmetry. apply A. now exists v.
  - destruct (proj1 A eq_refl) as (v & X). discriminate.
Qed.
Lemma given_not (f : ask) d ss : (forall a, dst_of a = d <-> a = f) -> ~ In f ss -> given (ns_of ss) d = false.
Proof. intros H N. apply (given_asked f d ss false H). split; [discriminate|tauto]. Qed.
Lemma given_never d ss : (forall a, dst_of a <> d) -> given (ns_of ss) d = false.
Proof.
  intros H. unfold given. rewrite (get_last (fun _ => None) d Text ss) by (intros a _; apply H).
  assert (E : last_of (fun _ : ask => @None (list Z)) ss = None) by (unfold last_of; induction ss; [reflexivity|assumption]). rewrite E. reflexivity.
Qed.
Ltac same_dst := let a := fresh in intros a; destruct a; cbn; split; congruence.
Ltac picked := let a := fresh in intros a; destruct a; cbn [order_of initial_of final_of wraps_of skip_epochs_of reference_of target_of sendfiles_of t1files_of first_of skip_of separation_of threshold_of start_of
    step_of stop_of dst_of]; try discriminate; (split; [reflexivity|]); unfold val_of, int_value, real_value, args_of; cbn [argument dst_of convert];
  first [reflexivity|match goal with |- context [int_of ?t] => destruct (int_of t) | |- context [float_of ?t] => destruct (float_of t) end; reflexivity].
Ltac picked_in := let a := fresh in let I := fresh in intros a I; clear I; revert a; picked.
Lemma ended_result r : r <> Err OutOfFuel -> r <> Err Unspecified -> exists code out, ended r = Exit code out /\ result r code out.
Proof. intros A B. destruct r as [l|e]; [exists 0, (l ++ [10]); repeat split|]. exists 1, []. destruct e; try congruence; repeat split. Qed.
Section Run.
Variables (fuel fuel2 : nat) (M : fpu) (p : Z) (repr : Q -> list Z) (args : list (list Z)) (ss : list ask) (fs : filesys) (dirs : list Z -> directory).
Hypothesis W : writes args ss.
Hypothesis G : Forall good ss.
Lemma run_proceed : run fuel fuel2 M p repr args fs dirs = proceed fuel fuel2 M p repr (match args with [] => true | _ => false end) (ns_of ss) fs dirs.
Proof.
  destruct (split_writes args ss W) as [S E]. destruct (parse_spelled _ ss S) as (P & O & N). unfold run. rewrite E. unfold run_words. rewrite O, N, P, (converted_ok ss G). cbn [orb]. now rewrite split_nil.
Qed.
Lemma run_help : args = [] \/ In AHelp ss -> run fuel fuel2 M p repr args fs dirs = Exit 1 [].
Proof.
  intros H. rewrite run_proceed. unfold proceed. replace (given (ns_of ss) Help || _) with true; [reflexivity|]. destruct H as [-> |H]; [now rewrite orb_true_r|].
  rewrite (given_asked AHelp Help ss true); [reflexivity|same_dst|now split].
Qed.
Hypothesis NE : args <> [].
Hypothesis NH : ~ In AHelp ss.
Lemma decimals pick d : (forall a, match pick a with Some t => dst_of a = d /\ val_of a = real_value t | None => dst_of a <> d end) -> (forall a t, pick a = Some t -> good a -> exists x, decimal t x) ->
  forall default, exists v, real (ns_of ss) d default = Some v.
Proof. intros H K default. apply (real_some pick d ss default H). intros a t I E. apply (K a t E). pose proof G as G'. rewrite Forall_forall in G'. now apply G'. Qed.
Lemma outputs a : In a ss -> match output_of a with Some t => dst_of a = Output /\ val_of a = int_value t | None => dst_of a <> Output end.
Proof.
  intros I. pose proof G as G'. rewrite Forall_forall in G'. specialize (G' a I). destruct a; cbn; try discriminate. split; [reflexivity|]. destruct G' as (z & Z1 & Z2).
  unfold val_of, int_value, args_of. cbn [argument dst_of convert]. rewrite (int_whole t z Z1). replace ((0 <=? z) && (z <? 16)) with true by lia. reflexivity.
Qed.
Variable o : options.
Hypothesis SO : search_asked ss o.
Lemma options_ok : options_of (ns_of ss) = Some o.
Proof.
  destruct SO as (O1 & O2 & O3 & O4 & O5 & O6 & O7 & O8 & O9). unfold options_of.
  rewrite (real_last separation_of Separation ss 6 _ ltac:(picked) O5), (real_last threshold_of Threshold ss 6 _ ltac:(picked) O6).
  rewrite (int_last order_of BufferOrder ss 26 _ ltac:(picked_in) O1), (int_last initial_of InitialRes ss 16 _ ltac:(picked_in) O2),
    (int_last final_of FinalRes ss 1 _ ltac:(picked_in) O3), (int_last wraps_of NumWraps ss 1 _ ltac:(picked_in) O4), (int_last output_of Output ss 0 _ outputs O7).
  rewrite (given_asked AFullscan PrecompFullscan ss _ ltac:(same_dst) O8).
  destruct (decimals start_of PrecompStart ltac:(picked) ltac:(intros a t E X; destruct a; try discriminate; injection E as <-; exact X) 0%Q) as (v1 & V1).
  destruct (decimals step_of PrecompStep ltac:(picked) ltac:(intros a t E X; destruct a; try discriminate; injection E as <-; exact X) (fl 53 (1 # 10000000))) as (v2 & V2).
  destruct (decimals stop_of PrecompStop ltac:(picked) ltac:(intros a t E X; destruct a; try discriminate; injection E as <-; exact X) (fl 53 (1 # 100000))) as (v3 & V3).
  rewrite V1, V2, V3. destruct o as [bo ir fr ow sp th pc fu fl0]; cbn [buffer_order initial_res final_res o_wraps separation o_threshold precomp fullscan flag] in *. f_equal. f_equal.
  destruct pc as [[[[start stop] step] ordered]|].
  - destruct O9 as (I & A & B & C & D). rewrite (given_asked APrecomp PrecompEnable ss true ltac:(same_dst) ltac:(now split)), (given_asked AOrdered PrecompOrdered ss ordered ltac:(same_dst) D).
    rewrite (real_last start_of PrecompStart ss _ _ ltac:(picked) A) in V1. rewrite (real_last stop_of PrecompStop ss _ _ ltac:(picked) B) in V3. rewrite (real_last step_of PrecompStep ss _ _ ltac:(picked) C) in V2. congruence.
  - rewrite (given_not APrecomp PrecompEnable ss ltac:(same_dst) O9). reflexivity.
Qed.
Lemma run_search : run fuel fuel2 M p repr args fs dirs =
  match last_of sendfiles_of ss, last_of t1files_of ss, last_of reference_of ss, last_of target_of ss with
  | Some d1, Some d2, _, _ => ended (main_epochs fuel fuel2 M repr o (dirs d1) (dirs d2) (last_of first_of ss) (int (ns_of ss) SkipEpochs 0))
  | _, _, Some a, Some b =>
      match fs a, fs b, real (ns_of ss) SkipDuration 0 with
      | Some x, Some y, Some skip => ended (main_files fuel M p repr o x y (given (ns_of ss) Legacy) skip) | _, _, None => Outside | _, _, _ => Exit 1 [] end
  | _, _, _, _ => Exit 1 []
  end.
Proof.
  rewrite run_proceed. unfold proceed. rewrite (given_not AHelp Help ss ltac:(same_dst) NH). replace (match args with [] => true | _ => false end) with false by (destruct args; congruence).
  rewrite (given_never Logging ss), (given_never Experiment ss) by (intros a; destruct a; discriminate). cbn [orb]. rewrite options_ok.
  rewrite (text_last sendfiles_of Sendfiles ss ltac:(picked)), (text_last t1files_of T1files ss ltac:(picked)), (text_last reference_of Reference ss ltac:(picked)), (text_last target_of Target ss ltac:(picked)),
    (text_last first_of FirstEpoch ss ltac:(picked)). reflexivity.
Qed.
Lemma run_dirs d1 d2 k : last_of sendfiles_of ss = Some d1 -> last_of t1files_of ss = Some d2 -> whole_or (last_of skip_epochs_of ss) 0 k ->
  run fuel fuel2 M p repr args fs dirs = ended (main_epochs fuel fuel2 M repr o (dirs d1) (dirs d2) (last_of first_of ss) k).
Proof. intros A B K. rewrite run_search, A, B, (int_last skip_epochs_of SkipEpochs ss 0 k ltac:(picked_in) K). reflexivity. Qed.
Hypothesis ND : last_of sendfiles_of ss = None \/ last_of t1files_of ss = None.
Lemma run_files a b x y lg skip : last_of reference_of ss = Some a -> last_of target_of ss = Some b -> fs a = Some x -> fs b = Some y -> requested ALegacy ss lg -> decimal_or (last_of skip_of ss) 0 skip ->
  run fuel fuel2 M p repr args fs dirs = ended (main_files fuel M p repr o x y lg skip).
Proof.
  intros A B X Y L S. rewrite run_search, A, B, X, Y, (real_last skip_of SkipDuration ss 0 skip ltac:(picked) S), (given_asked ALegacy Legacy ss lg ltac:(same_dst) L).
  destruct ND as [-> | ->]; [|destruct (last_of sendfiles_of ss)]; reflexivity.
Qed.
Lemma run_nothing : last_of reference_of ss = None \/ last_of target_of ss = None \/ (exists a b, last_of reference_of ss = Some a /\ last_of target_of ss = Some b /\ (fs a = None \/ fs b = None)) ->
  run fuel fuel2 M p repr args fs dirs = Exit 1 [].
Proof.
  intros H. rewrite run_search. destruct (decimals skip_of SkipDuration ltac:(picked) ltac:(intros a t E X; destruct a; try discriminate; injection E as <-; exact X) 0%Q) as (sk & SK). rewrite SK.
  assert (K : match last_of reference_of ss, last_of target_of ss with Some a, Some b => match fs a, fs b with Some _, Some _ => False | _, _ => True end | _, _ => True end).
  { destruct H as [-> |[-> |(a & b & -> & -> & [-> | ->])]]; [exact I|destruct (last_of reference_of ss); exact I|exact I|destruct (fs a); exact I]. }
  destruct (last_of sendfiles_of ss) as [d1|], (last_of t1files_of ss) as [d2|]; destruct ND as [X|X]; try discriminate;
    destruct (last_of reference_of ss) as [a|]; try reflexivity; destruct (last_of target_of ss) as [b|]; try reflexivity; destruct (fs a); try reflexivity; destruct (fs b); try reflexivity; destruct K.
Qed.
End Run.
(** ** Refused *)
Lemma loop_true : forall n i ps ks l b ps', loop table n i ps true ks = (l, Some (b, ps')) -> b = true.
Proof.
  induction n as [|n IH]; intros i ps ks l b ps' H; [discriminate|]. cbn [loop] in H. destruct (existsb _ ks).
  - destruct ks as [|[w k] rest]; [discriminate|]. destruct (is_opt k).
    + destruct (consume_optional table k rest) as [[[l0 x] m]|]; [|discriminate]. cbn [orb] in H. destruct (loop table n i ps true (skipn m rest)) as [ms r] eqn:E. injection H as _ ->. exact (IH _ _ _ _ _ _ E).
    + destruct (0 <? total _)%nat.
      * destruct (loop _ _ _ _ _ _) as [ms r] eqn:E in H. injection H as _ ->. exact (IH _ _ _ _ _ _ E).
      * destruct (loop _ _ _ _ _ _) as [ms r] eqn:E in H. injection H as _ ->. exact (IH _ _ _ _ _ _ E).
  - injection H as _ <- _. reflexivity.
Qed.
Lemma stray_kind w : stray w -> (classify table w = Arg \/ classify table w = Unknown) /\ w <> [45; 45] /\ outside w = false.
Proof.
  intros (_ & A & H). split; [|split].
  - destruct H as [H|[->|(c & r & -> & N & N' & L & D)]].
    + left. destruct w as [|c r]; [reflexivity|]. cbn [classify]. replace (c =? dash) with false; [reflexivity|]. unfold dash. assert (c <> 45) by (intros ->; now apply (H r)). lia.
    + left. reflexivity.
    + assert (E : exactly table (45 :: c :: r) = None /\ candidates table (45 :: c :: r) = []).
      { assert (NN : forall x, In x (all_names table) -> (exists c', In c' all_letters /\ fst x = [45; c']) \/ (exists v, In v words /\ fst x = v /\ exists v', v = 45 :: 45 :: v')).
        { assert (G : forallb (fun x => match fst x with [a; c'] => (a =? 45) && existsb (Z.eqb c') all_letters | a :: b :: _ => (a =? 45) && (b =? 45) && existsb (same (fst x)) words | _ => false end) (all_names table) = true)
            by (vm_compute; reflexivity).
          rewrite forallb_forall in G. intros x I. specialize (G x I). destruct (fst x) as [|a [|b [|d l]]] eqn:F; try discriminate.
          - left. apply andb_true_iff in G as [G1 G2]. apply existsb_exists in G2 as (c' & I' & E). exists c'. split; [exact I'|]. f_equal; [lia|]. f_equal. lia.
          - right. apply andb_true_iff in G as [G1 G2]. apply andb_true_iff in G1 as [G0 G1]. apply existsb_exists in G2 as (v & I' & E). apply same_iff in E. exists v. split; [exact I'|]. split; [exact E|].
            exists (d :: l). rewrite <- E. f_equal; [lia|]. f_equal. lia. }
        split.
        - unfold exactly. destruct (find _ _) as [x|] eqn:F; [|reflexivity]. exfalso. apply find_some in F as [I S]. apply same_iff in S. destruct (NN x I) as [(c' & I' & E)|(v & I' & E & v' & V)].
          + rewrite E in S. injection S as -> _. now apply L.
          + assert (X : c = 45) by congruence. destruct (D X) as [_ D']. apply (D' v [] I'). rewrite app_nil_r. congruence.
        - unfold candidates. destruct (c =? dash) eqn:C.
          + apply Z.eqb_eq in C. destruct (D C) as [_ D']. assert (X : forall l, (forall x, In x l -> In x (all_names table)) -> filter (fun x : list Z * opt dst => starts (fst x) (45 :: c :: r)) l = []).
            { induction l as [|x l IH]; intros HL; [reflexivity|]. cbn [filter]. rewrite IH by (intros y I; apply HL; now right). destruct (starts (fst x) (45 :: c :: r)) eqn:S; [|reflexivity]. exfalso.
              apply starts_iff in S as (q & S). destruct (NN x (HL x (or_introl eq_refl))) as [(c' & I' & E)|(v & I' & E & v' & V)].
              - rewrite E in S. injection S as -> _. now apply L.
              - apply (D' v q I'). now rewrite <- E. }
            rewrite X by tauto. reflexivity.
          + assert (X : forall l, (forall x, In x l -> In x (all_names table)) -> flat_map (fun x : list Z * opt dst => if same (fst x) [dash; c] then [(snd x, Some r)] else if starts (fst x) (45 :: c :: r) then [(snd x, None)] else []) l = []).
            { induction l as [|x l IH]; intros HL; [reflexivity|]. cbn [flat_map]. rewrite IH by (intros y I; apply HL; now right).
              destruct (NN x (HL x (or_introl eq_refl))) as [(c' & I' & E)|(v & I' & E & v' & V)]; rewrite E; (destruct (same _ _) eqn:S1; [apply same_iff in S1|destruct (starts _ _) eqn:S2; [apply starts_iff in S2 as (q & S2)|reflexivity]]); exfalso.
              - injection S1 as ->. now apply L.
              - injection S2 as -> _. now apply L.
              - rewrite V in S1. injection S1 as <- _. unfold dash in C. lia.
              - rewrite V in S2. injection S2 as <- _. unfold dash in C. lia. }
            apply X. tauto. }
      destruct E as [E1 E2]. unfold classify. rewrite E1, E2. change (negb (45 =? dash)) with false. cbn [same]. destruct (negative_number _); [now left|]. destruct (existsb _ _); [now left|now right].
  - intros ->. destruct H as [H|[H|(c & r & E & _ & _ & _ & D)]]; [now apply (H [45])|discriminate|]. injection E as <- <-. now destruct (D eq_refl).
  - apply within; [exact A|]. intros q -> I. destruct H as [H|[H|(c & r & E & N & N' & _)]]; [now apply (H q)|injection H as ->; destruct I|]. injection E as ->. destruct I as [I|I]; [congruence|tauto].
Qed.
Definition word_ok (w : list Z) : Prop := w <> [45; 45] /\ outside w = false /\ (match classify table w with Known o _ | Equals o _ => match dest o with Config | Save => False | _ => True end | _ => True end).
Lemma plain_ok w : plain w -> word_ok w.
Proof. intros (A & B & [C|(a & e & C)]); (split; [exact A|split; [exact B|]]); rewrite C; [exact I|]. destruct a; exact I. Qed.
Lemma stray_ok w : stray w -> word_ok w.
Proof. intros S. destruct (stray_kind w S) as ([C|C] & A & B); (split; [exact A|split; [exact B|]]); rewrite C; exact I. Qed.
Lemma words_ok args : Forall word_ok args -> kinds table args = tagged args /\ existsb outside args = false /\ names_config args = false.
Proof.
  intros P. assert (K : kinds table args = tagged args).
  { induction P as [|w args (N & O & _) H IH]; [reflexivity|]. cbn [kinds tagged map]. destruct (same w [dash; dash]) eqn:S; [exfalso; apply same_iff in S; apply N; exact S|]. rewrite IH, (any_inside table w names_second O). reflexivity. }
  split; [exact K|split].
  - clear K. induction P as [|w args (_ & O & _) P IH]; [reflexivity|]. cbn [existsb]. rewrite O, IH. reflexivity.
  - unfold names_config. rewrite K. clear K. induction P as [|w args (_ & _ & O) P IH]; [reflexivity|]. cbn [tagged map existsb snd]. fold (tagged args). rewrite IH.
    destruct (classify table w) as [| |o e| | |o e]; try reflexivity; (destruct (dest o); try reflexivity; destruct O).
Qed.
(** a run is refused when the loop finds something unrecognised or an error *)
Lemma refused args : Forall word_ok args -> (forall l r, loop table (S (length args)) 0 [] false (tagged args) = (l, Some r) -> fst r = true) ->
  forall fuel fuel2 M p repr fs dirs, run_words fuel fuel2 M p repr args fs dirs = Exit 2 [].
Proof.
  intros P H fuel fuel2 M p repr fs dirs. destruct (words_ok args P) as (K & O1 & N). unfold run_words. rewrite O1, N. cbn [orb]. clear O1 N.
  assert (B : snd (parse table [] args) = true).
  { unfold parse. rewrite K. destruct (existsb _ (tagged args)); [reflexivity|]. replace (length (tagged args)) with (length args) by (symmetry; apply map_length).
    destruct (loop table (S (length args)) 0 [] false (tagged args)) as [l [[ex ps]|]] eqn:E; [|reflexivity]. specialize (H _ _ eq_refl). cbn [fst snd] in *. rewrite H. reflexivity. }
  destruct (parse table [] args) as [acts bad]. cbn [snd] in B. subst bad. destruct (converted acts); reflexivity.
Qed.
Inductive scattered : list (list Z) -> Prop :=
| C_last args ss w args' ss' : spelled args ss -> stray w -> spelled args' ss' -> scattered (args ++ w :: args')
| C_more args ss w args' : spelled args ss -> stray w -> scattered args' -> scattered (args ++ w :: args').
Lemma split_strays args : strays args -> scattered (flat_map split_equals args) /\ existsb (fun w => same w []) args = false.
Proof.
  assert (SW : forall w, stray w -> split_equals w = [w] /\ same w [] = false).
  { intros w S. split; [apply split_inside; exact (proj2 (proj2 (stray_kind w S)))|]. destruct w; [now destruct (proj1 S)|reflexivity]. }
  induction 1 as [args ss w args' ss' W S W'|args ss w args' W S SS [IH IE]]; rewrite flat_map_app, existsb_app; cbn [flat_map existsb]; destruct (SW w S) as [-> ->]; destruct (split_writes _ _ W) as [X XE]; rewrite XE; cbn [app orb].
  - destruct (split_writes _ _ W') as [Y YE]. split; [|exact YE]. now apply C_last with ss ss'.
  - split; [|exact IE]. now apply C_more with ss.
Qed.
Lemma scattered_ok args : scattered args -> Forall word_ok args.
Proof.
  assert (WO : forall args ss, spelled args ss -> Forall word_ok args) by (intros ? ? W; eapply Forall_impl; [exact plain_ok|exact (spelled_plain _ _ W)]).
  induction 1 as [args ss w args' ss' W S W'|args ss w args' W S SS IH]; (apply Forall_app; split; [exact (WO _ _ W)|]; constructor; [now apply stray_ok|]); [exact (WO _ _ W')|exact IH].
Qed.
Lemma stray_step w : stray w -> forall n ex rest l r, loop table (S n) 0 [] ex ((w, classify table w) :: rest) = (l, Some r) -> fst r = true.
Proof.
  intros S n ex rest l [b ps'] H. destruct (stray_kind w S) as ([C|C] & _); rewrite C in H; cbn [loop existsb snd is_opt orb] in H.
  - destruct (existsb _ rest).
    + cbn [length partial total fold_right Nat.ltb Nat.leb skipn place app Nat.add] in H. destruct (loop table n 0 [] true rest) as [ms rr] eqn:E. injection H as _ ->. exact (loop_true _ _ _ _ _ _ _ E).
    + cbn [length partial total fold_right] in H. injection H as _ <- _. cbn [fst]. apply orb_true_r.
  - cbn [consume_optional skipn app] in H. rewrite orb_true_r in H. destruct (loop table n 0 [] true rest) as [ms rr] eqn:E. injection H as _ ->. exact (loop_true _ _ _ _ _ _ _ E).
Qed.
Lemma tagged_app x y : tagged (x ++ y) = tagged x ++ tagged y. Proof. apply map_app. Qed.
Lemma strays_refused args : strays args -> forall fuel fuel2 M p repr fs dirs, run fuel fuel2 M p repr args fs dirs = Exit 2 [].
Proof.
  intros SS0 fuel fuel2 M p repr fs dirs. destruct (split_strays args SS0) as [SS E0]. unfold run. rewrite E0. generalize dependent (flat_map split_equals args). clear args SS0 E0. intros args SS.
  apply (refused args (scattered_ok args SS)). intros l r H. clear fuel fuel2 M p repr fs dirs.
  assert (X : exists args1 ss w rest, spelled args1 ss /\ stray w /\ args = args1 ++ w :: rest) by (destruct SS as [a s w b s' W S W'|a s w b W S S']; now exists a, s, w, b).
  destruct X as (args1 & ss & w & rest & W & S & ->). rewrite tagged_app in H.
  destruct (loop_app args1 ss (tagged (w :: rest)) W (Datatypes.S (length (args1 ++ w :: rest))) false ltac:(rewrite app_length; lia)) as (n' & N & E). rewrite E in H.
  destruct n' as [|n']; [rewrite app_length in N; cbn [length] in N; lia|]. cbn [tagged map] in H. destruct (loop table (Datatypes.S n') 0 [] false _) as [ms rr] eqn:L. injection H as _ ->. exact (stray_step w S _ _ _ _ _ L).
Qed.
(** ** A negative number after its option *)
Lemma negative_own t : ~ In 10 t -> negative_number t = true -> own_word t.
Proof.
  intros N H. unfold negative_number in H. rewrite no_newline_id in H by exact N. destruct t as [|c r]; [discriminate|].
  destruct (Z.eq_dec c 45) as [->|C]; [|exfalso; revert H; destruct c as [|q|q]; try discriminate; repeat (destruct q as [q|q|]; try discriminate); congruence].
  apply andb_true_iff in H as [H1 H2]. assert (SP : forall s, exists ds, digits ds /\ s = ds ++ skip_digits s).
  { induction s as [|d s (ds & D & E)]; [exists []; split; [constructor|reflexivity]|]. cbn [skip_digits]. destruct (digit d) eqn:X.
    - exists (d :: ds). split; [constructor; [now apply digit_iff|exact D]|]. cbn [app]. now rewrite <- E.
    - exists []. split; [constructor|reflexivity]. }
  destruct (SP r) as (ds & D & E). apply orb_true_iff in H2 as [H2|H2].
  - apply same_iff in H2. rewrite H2, app_nil_r in E. subst r. right. right. left. exists ds. split; [intros ->; discriminate|]. split; [exact D|reflexivity].
  - destruct (skip_digits r) as [|c f] eqn:SK; [discriminate|]. destruct (Z.eq_dec c 46) as [->|C]; [|exfalso; revert H2; destruct c as [|q|q]; try discriminate; repeat (destruct q as [q|q|]; try discriminate); congruence].
    apply andb_true_iff in H2 as [H2 H3]. destruct (SP f) as (fs & F & E'). apply same_iff in H3. rewrite H3, app_nil_r in E'. subst f. right. right. right. exists ds, fs.
    split; [intros ->; discriminate|]. split; [exact D|]. split; [exact F|]. now rewrite <- E.
Qed.
Lemma number_text t x : decimal t x -> Forall (fun c => space c = false /\ c <> 61 /\ 0 <= c < 128) t /\ (forall r, t = 45 :: r -> exists d q, r = d :: q /\ 46 <= d <= 57).
Proof.
  intros (s & neg & m & ds & fs & ex & e & SG & (HD & HF & NE & HM) & EX & -> & _).
  assert (DG : forall l, digits l -> Forall (fun c => space c = false /\ c <> 61 /\ 0 <= c < 128) l) by (intros l H; eapply Forall_impl; [|exact H]; cbv beta; unfold is_digit, space; intros; lia).
  assert (SN : forall s neg, sign s neg -> Forall (fun c => space c = false /\ c <> 61 /\ 0 <= c < 128) s) by (intros ? ? [| |]; repeat constructor; lia).
  split.
  - apply Forall_app. split; [exact (SN s neg SG)|]. apply Forall_app. split.
    + destruct HM as [(_ & ->)| ->]; [now apply DG|]. apply Forall_app. split; [now apply DG|]. constructor; [repeat split; lia|now apply DG].
    + destruct EX as [(-> & _)|(c & r & C & (s' & neg' & ds' & SG' & NE' & HD' & -> & _) & ->)]; [constructor|]. constructor; [destruct C as [-> | ->]; repeat split; lia|].
      apply Forall_app. split; [exact (SN s' neg' SG')|now apply DG].
  - assert (HH : exists d l, m = d :: l /\ 46 <= d <= 57).
    { destruct HM as [(-> & ->)| ->].
      - rewrite app_nil_r in NE. destruct ds as [|d ds]; [congruence|]. exists d, ds. split; [reflexivity|]. inv HD. unfold is_digit in *. lia.
      - destruct ds as [|d ds]; [exists 46, fs; split; [reflexivity|lia]|]. exists d, (ds ++ 46 :: fs). split; [reflexivity|]. inv HD. unfold is_digit in *. lia. }
    destruct HH as (d & l & -> & R). intros r E. destruct SG; cbn [app] in E.
    + injection E as -> _. lia.
    + discriminate.
    + injection E as <-. exists d, (l ++ ex). now split.
Qed.
Lemma number_unknown r x : decimal (45 :: r) x -> ~ own_word (45 :: r) -> classify table (45 :: r) = Unknown /\ word_ok (45 :: r).
Proof.
  intros D NO. destruct (number_text _ _ D) as (T & HH). destruct (HH r eq_refl) as (d & q & -> & R). destruct (no_name d q R) as [A B]. rewrite Forall_forall in T.
  assert (C : classify table (45 :: d :: q) = Unknown).
  { unfold classify. rewrite A, B. change (negb (45 =? dash)) with false. cbn [same]. destruct (negative_number (45 :: d :: q)) eqn:N.
    - exfalso. apply NO, negative_own; [|exact N]. intros I. specialize (T 10 I). unfold space in T. lia.
    - destruct (existsb (Z.eqb 32) (45 :: d :: q)) eqn:S; [|reflexivity]. exfalso. apply existsb_exists in S as (z & I & Z). apply Z.eqb_eq in Z. subst z. specialize (T 32 I). unfold space in T. lia. }
  split; [exact C|]. split; [intros E; injection E as -> _; lia|]. split; [|rewrite C; exact I]. apply within.
  - apply Forall_forall. intros c I. now apply T.
  - intros q' E I. injection E as <-. specialize (T 61 (or_intror I)). lia.
Qed.
Lemma option_known p a : option_word p a -> classify table p = Known (opt_of a) None /\ word_ok p.
Proof.
  intros [AB|(c & L & ->)].
  - split; [now apply long_word|apply plain_ok; exact (long_plain p a AB)].
  - split; [now apply short_one|]. apply plain_ok. destruct (not_dash a c L) as (N1 & N2 & N3). apply (short_plain _ _ _ (short_one a c L)); [now exists a|now exists c, []| |].
    + repeat constructor; lia.
    + intros r E. injection E as <-. intros [I|[]]. lia.
Qed.
Lemma number_refused args ss p a t r x args' ss' : spelled args ss -> option_word p a -> argument a = Some t -> decimal t x -> t = 45 :: r -> ~ own_word t -> spelled args' ss' ->
  forall fuel fuel2 M q repr fs dirs, run_words fuel fuel2 M q repr (args ++ p :: t :: args') fs dirs = Exit 2 [].
Proof.
  intros W OW AA D -> NO W'. destruct (number_unknown r x D NO) as [C OK]. destruct (option_known p a OW) as [CP OKP].
  assert (WO : forall args ss, spelled args ss -> Forall word_ok args) by (intros ? ? WW; eapply Forall_impl; [exact plain_ok|exact (spelled_plain _ _ WW)]).
  apply refused.
  - apply Forall_app. split; [exact (WO _ _ W)|]. constructor; [exact OKP|]. constructor; [exact OK|exact (WO _ _ W')].
  - intros l rr H. exfalso. rewrite tagged_app in H.
    destruct (loop_app args ss (tagged (p :: (45 :: r) :: args')) W (S (length (args ++ p :: (45 :: r) :: args'))) false ltac:(rewrite app_length; lia)) as (n' & N & E). rewrite E in H.
    destruct n' as [|n']; [rewrite app_length in N; cbn [length] in N; lia|]. cbn [tagged map] in H. rewrite CP, C in H. cbn [loop existsb snd is_opt orb consume_optional] in H. unfold with_next in H.
    cbn [opt_of arity_of] in H. rewrite AA in H. cbn [run_of_args] in H. discriminate.
Qed.
Lemma writes_app x sx y sy : writes x sx -> writes y sy -> writes (x ++ y) (sx ++ sy).
Proof. induction 1; intros Y; cbn [app]; rewrite <- ?app_assoc; try (econstructor; eauto; fail). exact Y. Qed.
Lemma writes_option p a t : option_word p a -> argument a = Some t -> alone t -> ascii_text t -> writes [p; t] [a].
Proof.
  intros [AB|(c & L & ->)] A O T.
  - apply W_long; auto. constructor.
  - apply (W_detached [] [] a c t [] []); auto; constructor.
Qed.
Lemma proceed_not2 fuel fuel2 M p repr na ns fs dirs : proceed fuel fuel2 M p repr na ns fs dirs <> Exit 2 [].
Proof.
  assert (E : forall r, ended r <> Exit 2 []) by (intros [l|e]; [discriminate|destruct e; discriminate]).
  unfold proceed. destruct (given ns Help || na); [discriminate|]. destruct (given ns Logging || given ns Experiment); [discriminate|]. destruct (options_of ns) as [o|]; [|discriminate].
  destruct (text ns Sendfiles), (text ns T1files), (text ns Reference), (text ns Target); try discriminate; try apply E; match goal with |- context [fs ?x] => destruct (fs x) end; try discriminate; match goal with |- context [fs ?x] => destruct (fs x) | _ => idtac end; destruct (real ns SkipDuration 0); try discriminate; apply E.
Qed.
Lemma number_nonempty t x : decimal t x -> t <> [].
Proof.
  intros (s & neg & m & ds & fs & ex & e & _ & (_ & _ & NE & [(F0 & E0)| E0]) & _ & -> & _) E; apply app_eq_nil in E as [_ E]; apply app_eq_nil in E as [E _]; [subst; now apply NE|]. subst m. destruct ds; discriminate.
Qed.
Lemma c117 fuel fuel2 M q repr fs dirs args ss p a t x args' ss' : writes args ss -> writes args' ss' -> Forall good (ss ++ ss') -> option_word p a -> takes_number a -> argument a = Some t -> decimal t x ->
  (own_word t -> run fuel fuel2 M q repr (args ++ p :: t :: args') fs dirs <> Exit 2 []) /\ (~ own_word t -> run fuel fuel2 M q repr (args ++ p :: t :: args') fs dirs = Exit 2 []).
Proof.
  intros W W' G OW TN AA D. split; intros OO.
  - assert (WW : writes (args ++ [p; t] ++ args') (ss ++ [a] ++ ss')).
    { apply writes_app; [exact W|]. apply writes_app; [|exact W']. apply writes_option; auto; [split; [exact (number_nonempty t x D)|exact OO]|]. destruct (number_text t x D) as [T _]. eapply Forall_impl; [|exact T]. cbv beta. tauto. }
    apply Forall_app in G as [G1 G2]. assert (GG : Forall good (ss ++ [a] ++ ss')).
    { apply Forall_app. split; [exact G1|]. constructor; [|exact G2]. destruct a; cbn [takes_number] in TN; try (destruct TN); injection AA as ->; exists x; exact D. }
    change (args ++ p :: t :: args') with (args ++ [p; t] ++ args'). rewrite (run_proceed fuel fuel2 M q repr _ _ fs dirs WW GG). apply proceed_not2.
  - assert (F : (exists r, t = 45 :: r) \/ forall r, t <> 45 :: r).
    { destruct t as [|c r]; [right; discriminate|]. destruct (Z.eq_dec c 45) as [->|N]; [left; now exists r|right; intros r' E; injection E as -> _; congruence]. }
    destruct F as [(r & E)|F]; [|exfalso; apply OO; now left]. destruct (split_writes _ _ W) as [S1 E1]. destruct (split_writes _ _ W') as [S2 E2]. unfold run. rewrite existsb_app, flat_map_app. cbn [existsb flat_map]. rewrite E1, E2.
    destruct (option_known p a OW) as [_ (_ & OP & _)]. assert (OT : outside t = false) by (subst t; destruct (number_unknown r x D OO) as [_ (_ & X & _)]; exact X). rewrite (split_inside p OP), (split_inside t OT).
    assert (PN : same p [] = false) by (destruct OW as [AB|(c & _ & ->)]; [destruct (long_dash p a AB) as (q' & ->)|]; reflexivity). rewrite PN. rewrite E at 1. cbn [same orb app].
    exact (number_refused _ ss p a t r x _ ss' S1 OW AA D E OO S2 fuel fuel2 M q repr fs dirs).
Qed.
Lemma c113 fuel fuel2 M p repr args ss fs dirs : writes args ss -> Forall good ss ->
  (args = [] \/ In AHelp ss -> run fuel fuel2 M p repr args fs dirs = Exit 1 []) /\
  forall o, args <> [] -> ~ In AHelp ss -> search_asked ss o ->
  (forall d1 d2 k, last_of sendfiles_of ss = Some d1 -> last_of t1files_of ss = Some d2 -> whole_or (last_of skip_epochs_of ss) 0 k ->
     let r := main_epochs fuel fuel2 M repr o (dirs d1) (dirs d2) (last_of first_of ss) k in r <> Err OutOfFuel -> r <> Err Unspecified ->
     exists code out, run fuel fuel2 M p repr args fs dirs = Exit code out /\ result r code out) /\
  (last_of sendfiles_of ss = None \/ last_of t1files_of ss = None ->
   (forall a b x y lg skip, last_of reference_of ss = Some a -> last_of target_of ss = Some b -> fs a = Some x -> fs b = Some y -> requested ALegacy ss lg -> decimal_or (last_of skip_of ss) 0 skip ->
      let r := main_files fuel M p repr o x y lg skip in r <> Err OutOfFuel -> r <> Err Unspecified ->
      exists code out, run fuel fuel2 M p repr args fs dirs = Exit code out /\ result r code out) /\
   (last_of reference_of ss = None \/ last_of target_of ss = None \/ (exists a b, last_of reference_of ss = Some a /\ last_of target_of ss = Some b /\ (fs a = None \/ fs b = None)) ->
      run fuel fuel2 M p repr args fs dirs = Exit 1 [])).
Proof.
  intros W G. split; [exact (run_help fuel fuel2 M p repr args ss fs dirs W G)|]. intros o NE NH SO. split; [|intros ND; split].
  - intros d1 d2 k A B K r R1 R2. rewrite (run_dirs fuel fuel2 M p repr args ss fs dirs W G NE NH o SO d1 d2 k A B K). exact (ended_result _ R1 R2).
  - intros a b x y lg skip A B X Y L S r R1 R2. rewrite (run_files fuel fuel2 M p repr args ss fs dirs W G NE NH o SO ND a b x y lg skip A B X Y L S). exact (ended_result _ R1 R2).
  - exact (run_nothing fuel fuel2 M p repr args ss fs dirs W G NE NH o SO ND).
Qed.
(** An option and its argument in one word, with "=", are the same as in two. *)
Lemma equals_apart fuel fuel2 M q repr fs dirs args p a t args' : option_word p a -> t <> [] -> outside t = false ->
  run fuel fuel2 M q repr (args ++ (p ++ 61 :: t) :: args') fs dirs = run fuel fuel2 M q repr (args ++ p :: t :: args') fs dirs.
Proof.
  intros OW N O. destruct (option_known p a OW) as [_ (_ & OP & _)]. assert (E : exists r, p = 45 :: r) by (destruct OW as [AB|(c & _ & ->)]; [exact (long_dash p a AB)|now eexists]).
  destruct E as (r & ->). unfold run. rewrite !existsb_app, !flat_map_app. cbn [existsb flat_map]. rewrite (split_inside _ OP), (split_inside t O). cbn [app]. rewrite (split_word r t OP). cbn [app same orb].
  destruct t; [congruence|]. reflexivity.
Qed.
Lemma c144 fuel fuel2 M q repr fs dirs args ss p a t x args' ss' : writes args ss -> writes args' ss' -> Forall good (ss ++ ss') -> option_word p a -> takes_number a -> argument a = Some t -> decimal t x ->
  (own_word t -> run fuel fuel2 M q repr (args ++ (p ++ 61 :: t) :: args') fs dirs <> Exit 2 []) /\ (~ own_word t -> run fuel fuel2 M q repr (args ++ (p ++ 61 :: t) :: args') fs dirs = Exit 2 []).
Proof.
  intros W W' G OW TN AA D. destruct (c117 fuel fuel2 M q repr fs dirs args ss p a t x args' ss' W W' G OW TN AA D) as [C1 C2]. pose proof (number_nonempty t x D) as N.
  assert (AT : ascii_text t) by (destruct (number_text t x D) as [T _]; eapply Forall_impl; [|exact T]; cbv beta; tauto).
  split; intros OO.
  - rewrite (equals_apart _ _ _ _ _ _ _ _ p a t _ OW N (proj1 (proj2 (own_plain t OO AT)))). auto.
  - assert (OT : outside t = false).
    { destruct t as [|c r]; [reflexivity|]. destruct (Z.eq_dec c 45) as [->|C]; [|destruct OO; left; intros r' E; now injection E as ->]. destruct (number_unknown r x D OO) as [_ (_ & X & _)]; exact X. }
    rewrite (equals_apart _ _ _ _ _ _ _ _ p a t _ OW N OT). auto.
Qed.
