(** The namespace of generate_freqcd_testcase and what follows from it. *)
From Coq Require Import QArith String Lia.
From Coq Require Import ZifyBool.
From Verif Require Import Float Base TimestampsModel TimestampsSpec FpfindModel FpfindSpec MiscModel CdRunModel CdRunProofs ArgModel FpCliSpec CliSpec FpCliProofs CliProofs TsCliModel TsCliSpec TsCliProofs GenCliModel GenCliSpec GenCliProofs.
Import ListNotations. Local Open Scope string_scope. Local Open Scope list_scope. Local Open Scope Z_scope.

Definition gupd (a : gask) (n : gnamed) : gnamed :=
  match a with
  | GHelp => n
  | GLegacy => mkG (g_out n) (g_times n) true (g_in n)
  | GOut t => mkG (Some t) (g_times n) (g_legacy n) (g_in n)
  | GTimes ts => mkG (g_out n) (ints ts) (g_legacy n) (g_in n)
  end.
Lemma ints_whole ts zs : Forall2 whole ts zs -> ints ts = Some zs.
Proof. induction 1 as [|t z ts zs H HF IH]; [reflexivity|]. cbn [ints]. now rewrite (int_whole t z H), IH. Qed.
Lemma whole_values ts : Forall (fun t => exists z, whole t z) ts -> exists zs, Forall2 whole ts zs.
Proof. induction 1 as [|t ts (z & H) HF (zs & IH)]; [exists []; constructor|exists (z :: zs); now constructor]. Qed.
Lemma gact_all ss r n : Forall ggood ss -> ~ In GHelp ss -> gact (map ggiven' ss ++ r) n = gact r (fold_left (fun n a => gupd a n) ss n).
Proof.
  revert n. induction ss as [|a ss IH]; intros n G H; [reflexivity|]. inv G. assert (H' : ~ In GHelp ss) by (intros X; apply H; now right).
  destruct a as [| |t|ts]; [exfalso; apply H; now left| | |]; cbn [map app ggiven' fold_left gupd].
  - unfold given_of. cbn [gargument gopt_of dest gact]. now apply IH.
  - unfold given_of. cbn [gargument gopt_of dest gact one]. now apply IH.
  - cbn [gact]. match goal with X : ggood _ |- _ => destruct (whole_values ts X) as (zs & W) end. rewrite (ints_whole ts zs W). now apply IH.
Qed.
Lemma gact_help ss r n : Forall ggood ss -> In GHelp ss -> gact (map ggiven' ss ++ r) n = GHelped.
Proof.
  revert n. induction ss as [|a ss IH]; intros n G H; [destruct H|]. inv G. destruct a as [| |t|ts]; [reflexivity| | |]; (destruct H as [H|H]; [discriminate|]); cbn [map app ggiven'].
  - unfold given_of. cbn [gargument gopt_of dest gact]. now apply IH.
  - unfold given_of. cbn [gargument gopt_of dest gact one]. now apply IH.
  - cbn [gact]. match goal with X : ggood _ |- _ => destruct (whole_values ts X) as (zs & W) end. rewrite (ints_whole ts zs W). now apply IH.
Qed.
Lemma gfold_pick {A B} (pr : gnamed -> B) (pick : gask -> option A) (g : A -> B) ss n :
  (forall a n, pr (gupd a n) = match pick a with Some t => g t | None => pr n end) ->
  pr (fold_left (fun n a => gupd a n) ss n) = match last_given pick ss with Some t => g t | None => pr n end.
Proof.
  intros H. unfold last_given. assert (G : forall acc n, pr n = match acc with Some t => g t | None => pr n end -> forall m, (acc = None -> pr m = pr n) ->
    pr (fold_left (fun n a => gupd a n) ss n) = match fold_left (fun acc s => match pick s with Some v => Some v | None => acc end) ss acc with Some t => g t | None => pr m end).
  { induction ss as [|a ss IH]; intros acc k E m M; cbn [fold_left].
    - destruct acc; [exact E|]. now rewrite M.
    - apply IH.
      + rewrite H. destruct (pick a); [reflexivity|]. exact E.
      + rewrite H. destruct (pick a); [discriminate|]. exact M. }
  apply (G None n); [reflexivity|reflexivity].
Qed.
Lemma gfold_legacy ss n : g_legacy (fold_left (fun n a => gupd a n) ss n) = true <-> g_legacy n = true \/ In GLegacy ss.
Proof.
  revert n. induction ss as [|a ss IH]; intros n; cbn [fold_left In]; [tauto|]. rewrite IH. destruct a; cbn [gupd g_legacy]; intuition (try discriminate; auto).
Qed.
Lemma gfold_in ss n : g_in (fold_left (fun n a => gupd a n) ss n) = g_in n.
Proof. revert n. induction ss as [|a ss IH]; intros n; cbn [fold_left]; [reflexivity|]. rewrite IH. now destruct a. Qed.
(** the namespace of a command line *)
Definition means (ss : list gask) (input : option (list Z)) (n : gnamed) : Prop :=
  g_out n = last_given gout_of ss /\ g_times n = match last_given gtimes_of ss with Some ts => ints ts | None => None end /\ (g_legacy n = true <-> In GLegacy ss) /\ g_in n = input.
Lemma fold_means ss n : g_out n = None -> g_times n = None -> g_legacy n = false -> means ss (g_in n) (fold_left (fun n a => gupd a n) ss n).
Proof.
  intros A B C. split; [|split; [|split; [|apply gfold_in]]].
  - rewrite (gfold_pick g_out gout_of Some) by (intros [] m; reflexivity). rewrite A. now destruct (last_given gout_of ss).
  - rewrite (gfold_pick g_times gtimes_of ints) by (intros [] m; reflexivity). now rewrite B.
  - rewrite gfold_legacy, C. intuition discriminate.
Qed.
Lemma last_app_given {R A} (pick : R -> option A) s1 s2 : last_given pick (s1 ++ s2) = match last_given pick s2 with Some x => Some x | None => last_given pick s1 end.
Proof.
  unfold last_given. rewrite fold_left_app. generalize (fold_left (fun acc s => match pick s with Some v => Some v | None => acc end) s1 None). intros acc.
  assert (G : forall l a, fold_left (fun acc s => match pick s with Some v => Some v | None => acc end) l a = match fold_left (fun acc s => match pick s with Some v => Some v | None => acc end) l None with Some x => Some x | None => a end).
  { induction l as [|x l IH]; intros a; cbn [fold_left]; [reflexivity|]. rewrite (IH (match pick x with Some v => Some v | None => a end)), (IH (match pick x with Some v => Some v | None => None end)).
    destruct (fold_left _ l None); [reflexivity|]. now destruct (pick x). }
  apply G.
Qed.
Definition of_line (args : list (list Z)) (ss : list gask) (input : option (list Z)) : Prop := match input with Some i => with_input args ss i | None => gcommand args ss end.
Lemma run_means p tmp args ss input fs stdin : of_line args ss input -> Forall ggood ss -> args <> [] ->
  (In GHelp ss -> grun p tmp args fs stdin = Shows_help) /\
  (~ In GHelp ss -> exists n, means ss input n /\ grun p tmp args fs stdin = gproceed p tmp n fs stdin).
Proof.
  intros W G NE. destruct args as [|w args]; [congruence|]. unfold grun. destruct input as [i|]; cbn [of_line] in W.
  - destruct (gparse_input _ _ _ W) as (O & s1 & s2 & -> & P). rewrite O, P. apply Forall_app in G as [G1 G2]. split; intros H.
    + apply in_app_or in H. assert (D : In GHelp s1 \/ ~ In GHelp s1).
      { clear. induction s1 as [|a s1 IH]; [now right|]. destruct a; cbn [In]; [now left; left| | |]; (destruct IH as [IH|IH]; [left; now right|right; intros [X|X]; [discriminate|tauto]]). }
      destruct D as [D|D]; [rewrite gact_help by assumption; reflexivity|]. destruct H as [H|H]; [contradiction|]. rewrite gact_all by assumption. cbn [gact first].
      rewrite <- (app_nil_r (map ggiven' s2)), gact_help by assumption. reflexivity.
    + assert (H1 : ~ In GHelp s1) by (intros X; apply H, in_or_app; now left). assert (H2 : ~ In GHelp s2) by (intros X; apply H, in_or_app; now right).
      rewrite gact_all by assumption. cbn [gact first]. rewrite <- (app_nil_r (map ggiven' s2)), gact_all by assumption. cbn [gact].
      eexists. split; [|reflexivity]. pose proof (fold_means s1 gnothing eq_refl eq_refl eq_refl) as (M1 & M2 & M3 & _). set (m := fold_left (fun n a => gupd a n) s1 gnothing) in *.
      split; [|split; [|split; [|apply gfold_in]]].
      * rewrite (gfold_pick g_out gout_of Some) by (intros [] k; reflexivity). cbn [g_out]. rewrite M1, last_app_given. now destruct (last_given gout_of s2).
      * rewrite (gfold_pick g_times gtimes_of ints) by (intros [] k; reflexivity). cbn [g_times]. rewrite M2, last_app_given. now destruct (last_given gtimes_of s2).
      * rewrite gfold_legacy. cbn [g_legacy]. rewrite M3, in_app_iff. tauto.
  - destruct (gparse _ _ W) as (O & P). rewrite O, P. split; intros H.
    + rewrite gact_help by assumption. reflexivity.
    + rewrite gact_all by assumption. cbn [gact first]. eexists. split; [|reflexivity]. pose proof (fold_means ss gnothing eq_refl eq_refl eq_refl) as (M1 & M2 & M3 & M4).
      split; [exact M1|]. split; [exact M2|]. split; [exact M3|reflexivity].
Qed.
