(** Proofs about values after "=". *)
From Coq Require Import QArith String Lia.
From Coq Require Import ZifyBool.
From Verif Require Import Float Base TimestampsModel ReportModel CdRunModel ArgModel FpCliSpec CliSpec FpCliProofs CliProofs TsCliModel TsCliSpec TsCliProofs TsCliProofs2 EqSpec.
Import ListNotations. Local Open Scope string_scope. Local Open Scope list_scope. Local Open Scope Z_scope.

(** ** Fuel *)
Lemma loop_enough {D} (opts : list (opt D)) : forall m ks n n' i ps ex, (length ks <= m)%nat -> (length ks < n)%nat -> (length ks < n')%nat -> loop opts n i ps ex ks = loop opts n' i ps ex ks.
Proof.
  induction m as [|m IH]; intros ks n n' i ps ex M N N'.
  - destruct ks; [|cbn in M; lia]. destruct n, n'; try (cbn in *; lia). reflexivity.
  - destruct n as [|n]; [lia|]. destruct n' as [|n']; [lia|]. cbn [loop]. destruct (existsb _ ks); [|reflexivity]. destruct ks as [|[w k] rest]; [reflexivity|]. cbn [length] in *.
    assert (R : forall q i ps ex, loop opts n i ps ex (skipn q rest) = loop opts n' i ps ex (skipn q rest)) by (intros; apply IH; rewrite skipn_length; lia).
    destruct (is_opt k).
    + destruct (consume_optional opts k rest) as [[[l x] q]|]; [|reflexivity]. now rewrite R.
    + set (ns := partial _ _ _). destruct (0 <? total ns)%nat eqn:T.
      * destruct (total ns) as [|q] eqn:Q; [discriminate|]. cbn [skipn]. now rewrite R.
      * specialize (R O). cbn [skipn] in R. now rewrite R.
Qed.
(** ** Words *)
Lemma clear_is w : clear_word w -> unclear w = false.
Proof.
  intros [A H]. unfold unclear. rewrite (ascii_clear w A), orb_false_r. destruct w as [|c [|d r]]; try reflexivity. cbn [single_dash]. unfold dash. destruct (c =? 45) eqn:C; [|reflexivity]. destruct (d =? 45) eqn:DD; [reflexivity|].
  apply Z.eqb_eq in C. subst c. cbn [negb andb]. destruct (existsb (Z.eqb 61) (45 :: d :: r)) eqn:E; [|reflexivity]. cbn [existsb] in E. change (61 =? 45) with false in E.
  assert (I : In 61 (d :: r)) by (change (existsb (Z.eqb 61) (d :: r) = true) in E; apply existsb_exists in E as (y & Y & E); apply Z.eqb_eq in E; now subst y).
  destruct (H d r eq_refl ltac:(lia) I) as (N & t & ->). replace (d =? 61) with false by lia. reflexivity.
Qed.
Lemma clear_all l : Forall clear_word l -> existsb unclear l = false.
Proof. induction 1 as [|w l H HF IH]; [reflexivity|]. cbn [existsb]. now rewrite (clear_is w H), IH. Qed.
Lemma intro_known w a : introduces w a -> classify_any ttable w = Known (topt_of a) None /\ w <> [45; 45] /\ unclear w = false.
Proof.
  intros [(c & L & ->)|S].
  - destruct (t_code a c L) as (N & N61 & Rg). split; [|split].
    + rewrite any_plain by (intros [X|[X|[]]]; [discriminate|congruence]). exact (letter_alone tletter ttable topt_of t_one a c L).
    + intros X. injection X as ->. congruence.
    + unfold unclear. rewrite ascii_clear by (repeat constructor; lia). rewrite orb_false_r. cbn [single_dash existsb]. change (61 =? 45) with false. replace (61 =? c) with false by lia. now rewrite andb_false_r.
  - destruct (t_long w a S) as (C & A & N). destruct (long_fine tword twords ttable topt_of t_long w a S) as (D1 & D2 & _). split; [|now split]. now rewrite any_plain.
Qed.
Lemma intro_equals w a t : introduces w a -> ascii_text t -> classify_any ttable (w ++ 61 :: t) = Equals (topt_of a) t /\ w ++ 61 :: t <> [45; 45] /\ unclear (w ++ 61 :: t) = false.
Proof.
  intros [(c & L & ->)|S] AT.
  - destruct (t_code a c L) as (N & N61 & Rg). split; [exact (letter_equals tletter ttable topt_of t_one t_code a c t L)|]. split; [discriminate|]. cbn [app]. unfold unclear. rewrite ascii_clear by (repeat (constructor; [lia|]); exact AT).
    replace (c =? 61) with false by lia. cbn [negb andb]. change (61 =? 61) with true. cbn [negb]. now rewrite andb_false_r.
  - split; [exact (long_equals tword twords ttable topt_of t_long t_dash w a t S)|]. destruct (t_long w a S) as (_ & A & N). pose proof (t_dash w a S) as DD. split.
    + intros X. destruct S as (L & _). apply (f_equal (fun l => len l)) in X. rewrite len_app in X. change (len [45; 45]) with 2 in X. pose proof (len_nonneg (61 :: t)). lia.
    + unfold unclear. rewrite ascii_clear by (apply Forall_app; split; [exact A|constructor; [lia|exact AT]]). rewrite orb_false_r. destruct w as [|c0 [|c1 r]]; try discriminate. cbn [double_dash] in DD. apply andb_true_iff in DD as [D0 D1].
      cbn [app single_dash]. rewrite D0, D1. reflexivity.
Qed.
Lemma kinds_app a1 s1 r : tspells a1 s1 -> kinds ttable (a1 ++ r) = ttag a1 ++ kinds ttable r.
Proof.
  intros W. pose proof (tfine a1 s1 W) as F. clear W. induction F as [|w args (N & _) HF IH]; [reflexivity|]. cbn [app kinds tag map]. destruct (same w [dash; dash]) eqn:S; [exfalso; apply same_iff in S; now apply N|]. now rewrite IH.
Qed.
Lemma kinds_cons w r : w <> [45; 45] -> kinds ttable (w :: r) = (w, classify_any ttable w) :: kinds ttable r.
Proof. intros N. cbn [kinds]. destruct (same w [dash; dash]) eqn:S; [exfalso; apply same_iff in S; now apply N|reflexivity]. Qed.
Lemma spelled_clear a1 s1 : tspells a1 s1 -> existsb unclear a1 = false.
Proof. intros W. exact (proj1 (proj2 (fine_kinds ttable topt_of a1 (tfine a1 s1 W)))). Qed.
Lemma kinds_len ws : length (kinds ttable ws) = length ws.
Proof. induction ws as [|w r IH]; [reflexivity|]. cbn [kinds]. destruct (same _ _); cbn [length]; [now rewrite map_length|now rewrite IH]. Qed.
(** ** The same *)
Lemma own_clear t : own_word t -> clear_word t -> ascii_text t. Proof. intros _ [A _]. exact A. Qed.
Lemma c149_partial : forall lg p path a1 s1 w a t rest fs, tspells a1 s1 -> introduces w a -> targument a = Some t -> own_word t -> ascii_text t -> Forall clear_word rest ->
  trun lg p path (a1 ++ w :: t :: rest) fs = trun lg p path (a1 ++ (w ++ 61 :: t) :: rest) fs.
Proof.
  intros lg p path a1 s1 w a t rest fs W IN AR OW AT CL. destruct (intro_known w a IN) as (K1 & D1 & U1). destruct (intro_equals w a t IN AT) as (K2 & D2 & U2).
  destruct (own_fine ttable topt_of t_number t OW AT) as (DT & UT & _). pose proof (own_is_arg ttable t_number t OW AT) as KT.
  assert (PE : parse ttable tpos (a1 ++ w :: t :: rest) = parse ttable tpos (a1 ++ (w ++ 61 :: t) :: rest)).
  { unfold parse. rewrite !(kinds_app a1 s1) by exact W. rewrite (kinds_cons w), (kinds_cons (w ++ 61 :: t)), (kinds_cons t) by assumption. rewrite K1, K2, KT.
    rewrite !existsb_app. cbn [existsb snd orb]. destruct (_ || _); [reflexivity|].
    set (n1 := length (ttag a1 ++ (w, _) :: _)). set (n2 := length (ttag a1 ++ (w ++ 61 :: t, _) :: _)).
    assert (L1 : n1 = (length a1 + S (S (length rest)))%nat) by (unfold n1, tag; rewrite app_length, map_length; cbn [length]; now rewrite kinds_len).
    assert (L2 : n2 = (length a1 + S (length rest))%nat) by (unfold n2, tag; rewrite app_length, map_length; cbn [length]; now rewrite kinds_len).
    destruct (tloop a1 s1 ((w, Known (topt_of a) None) :: (t, Arg) :: kinds ttable rest) 0 tpos W (S n1) false ltac:(lia)) as (m1 & M1 & ->).
    destruct (tloop a1 s1 ((w ++ 61 :: t, Equals (topt_of a) t) :: kinds ttable rest) 0 tpos W (S n2) false ltac:(lia)) as (m2 & M2 & ->).
    destruct m1 as [|m1]; [lia|]. destruct m2 as [|m2]; [lia|].
    assert (C1 : consume_optional ttable (Known (topt_of a) None) ((t, Arg) :: kinds ttable rest) = Some ([tgiven a], false, 1%nat)) by (cbn [consume_optional]; unfold with_next, given_of; rewrite t_arity, AR; reflexivity).
    assert (C2 : consume_optional ttable (Equals (topt_of a) t) (kinds ttable rest) = Some ([tgiven a], false, 0%nat)) by (cbn [consume_optional]; unfold given_of; rewrite t_arity, AR; reflexivity).
    rewrite (loop_option ttable m1 0 tpos false w (Known (topt_of a) None) ((t, Arg) :: kinds ttable rest) [tgiven a] 1 eq_refl C1).
    rewrite (loop_option ttable m2 0 tpos false (w ++ 61 :: t) (Equals (topt_of a) t) (kinds ttable rest) [tgiven a] 0 eq_refl C2). cbn [skipn].
    rewrite (loop_enough ttable (length rest) (kinds ttable rest) m1 m2 0 tpos false) by (rewrite kinds_len; lia). reflexivity. }
  unfold trun. rewrite PE. rewrite !existsb_app. cbn [existsb]. rewrite U1, U2, UT. cbn [orb]. destruct (a1 ++ w :: t :: rest) eqn:E1; [destruct a1; discriminate|]. destruct (a1 ++ (w ++ 61 :: t) :: rest) eqn:E2; [destruct a1; discriminate|]. reflexivity.
Qed.
(** ** Refused *)
Lemma refused_here lg p path a1 s1 w rest k fs : tspells a1 s1 -> ~ In WHelp s1 -> w <> [45; 45] -> classify_any ttable w = k -> is_opt k = true -> existsb unclear (a1 ++ w :: rest) = false ->
  consume_optional ttable k (kinds ttable rest) = None -> said (trun lg p path (a1 ++ w :: rest) fs) 2 fs [].
Proof.
  intros W H DD K O U C.
  assert (PE : exists l, parse ttable tpos (a1 ++ w :: rest) = (l, true) /\ (l = map tgiven s1 \/ l = [])).
  { unfold parse. rewrite (kinds_app a1 s1 _ W), (kinds_cons w _ DD), K. destruct (existsb _ (ttag a1 ++ _)); [exists []; split; [reflexivity|now right]|].
    set (n1 := length (ttag a1 ++ _)). assert (L1 : n1 = (length a1 + S (length rest))%nat) by (unfold n1, tag; rewrite app_length, map_length; cbn [length]; now rewrite kinds_len).
    destruct (tloop a1 s1 ((w, k) :: kinds ttable rest) 0 tpos W (S n1) false ltac:(lia)) as (m1 & M1 & ->). destruct m1 as [|m1]; [lia|].
    cbn [loop existsb snd]. rewrite O. cbn [orb]. rewrite C. exists (map tgiven s1). rewrite app_nil_r. split; [reflexivity|now left]. }
  destruct PE as (l & PE & L). exists (mkEnd 2 fs []). split; [|repeat split]. unfold trun. rewrite U, PE. destruct (a1 ++ w :: rest) eqn:E; [destruct a1; discriminate|].
  assert (NH : act l nothing <> Helped) by (apply act_no_help; destruct L as [->| ->]; [now apply given_no_help|constructor]).
  destruct (act l nothing); try reflexivity; congruence.
Qed.
Lemma c149_flags : forall lg p path a1 s1 w a t rest fs, tspells a1 s1 -> ~ In WHelp s1 -> introduces w a -> targument a = None -> ascii_text t -> Forall clear_word rest ->
  said (trun lg p path (a1 ++ (w ++ 61 :: t) :: rest) fs) 2 fs [].
Proof.
  intros lg p path a1 s1 w a t rest fs W H IN AR AT CL. destruct (intro_equals w a t IN AT) as (K & D & U).
  apply (refused_here lg p path a1 s1 _ rest (Equals (topt_of a) t) fs W H D K eq_refl).
  - rewrite existsb_app. cbn [existsb]. now rewrite (spelled_clear a1 s1 W), U, (clear_all rest CL).
  - cbn [consume_optional]. now rewrite t_arity, AR.
Qed.
(** ** Values which look like options *)
Lemma skip_split : forall s, exists ds r, digits ds /\ s = ds ++ r /\ skip_digits s = r.
Proof.
  induction s as [|c s (ds & r & A & B & C)]; [exists [], []; repeat split; constructor|]. cbn [skip_digits]. destruct (digit c) eqn:DG; [|exists [], (c :: s); repeat split; constructor].
  exists (c :: ds), r. split; [constructor; [unfold digit in DG; unfold is_digit; lia|exact A]|]. split; [cbn; now rewrite B|exact C].
Qed.
Lemma negative_own t : ~ In 10 t -> negative_number t = true -> own_word t.
Proof.
  intros N H. unfold negative_number in H. rewrite (no_newline_id t N) in H. destruct t as [|c r]; [discriminate|].
  destruct (Z.eq_dec c 45) as [->|NC].
  2:{ exfalso. destruct c as [|q|q]; try discriminate H. do 6 (destruct q as [q|q|]; try discriminate H). congruence. }
  apply andb_true_iff in H as [NE H]. destruct (skip_split r) as (ds & q & A & B & C). rewrite C in H. apply orb_true_iff in H as [H|H].
  - apply same_iff in H. subst q. rewrite app_nil_r in B. subst r. right. right. left. exists ds. split; [|now split]. intros ->. discriminate NE.
  - destruct q as [|c f]; [discriminate H|]. destruct (Z.eq_dec c 46) as [->|NC].
    2:{ exfalso. destruct c as [|z|z]; try discriminate H. do 6 (destruct z as [z|z|]; try discriminate H). congruence. }
    apply andb_true_iff in H as [NF H]. apply same_iff in H. destruct (skip_split f) as (fs & q & A' & B' & C'). rewrite H in C'. subst q. rewrite app_nil_r in B'. subst f.
    right. right. right. exists ds, fs. split; [intros ->; discriminate NF|]. split; [exact A|]. split; [exact A'|]. now rewrite B.
Qed.
Lemma space_no t : ~ In 32 t -> existsb (Z.eqb 32) t = false.
Proof. intros N. destruct (existsb _ t) eqn:E; [|reflexivity]. exfalso. apply existsb_exists in E as (y & Y & E). apply Z.eqb_eq in E. subst y. now apply N. Qed.
Lemma dashed_option t : dashed t -> is_opt (classify_any ttable t) = true.
Proof.
  intros ((r & ->) & ND & NO & NS & NL). assert (NR : r <> []) by (intros ->; apply NO; right; now left).
  assert (CL : is_opt (classify ttable (45 :: r)) = true).
  { unfold classify. change (negb (45 =? dash)) with false. destruct (exactly ttable (45 :: r)); [reflexivity|]. destruct (same r []) eqn:S; [apply same_iff in S; congruence|].
    destruct (candidates ttable (45 :: r)) as [|[o e] [|? ?]]; [|reflexivity|reflexivity]. destruct (negative_number (45 :: r)) eqn:NN; [exfalso; apply NO; now apply negative_own|]. now rewrite (space_no _ NS). }
  unfold classify_any. destruct (split_at (45 :: r)) as [[k v]|]; [|exact CL]. destruct (exactly ttable k); [reflexivity|]. destruct (double_dash (45 :: r)); [|exact CL].
  destruct (filter _ _) as [|x [|? ?]]; [now rewrite (space_no _ NS)|reflexivity|reflexivity].
Qed.
Lemma c149_actual : forall lg p path a1 s1 w a t rest fs, tspells a1 s1 -> ~ In WHelp s1 -> introduces w a -> targument a <> None -> dashed t -> clear_word t -> Forall clear_word rest ->
  said (trun lg p path (a1 ++ w :: t :: rest) fs) 2 fs [].
Proof.
  intros lg p path a1 s1 w a t rest fs W H IN AR DT CT CL. destruct (intro_known w a IN) as (K & D & U). pose proof (dashed_option t DT) as OT.
  apply (refused_here lg p path a1 s1 _ (t :: rest) (Known (topt_of a) None) fs W H D K eq_refl).
  - rewrite existsb_app. cbn [existsb]. now rewrite (spelled_clear a1 s1 W), U, (clear_is t CT), (clear_all rest CL).
  - cbn [consume_optional]. unfold with_next. rewrite t_arity. destruct (targument a); [|congruence]. destruct DT as (_ & ND & _). rewrite (kinds_cons t _ ND).
    destruct (classify_any ttable t); try discriminate OT; reflexivity.
Qed.
