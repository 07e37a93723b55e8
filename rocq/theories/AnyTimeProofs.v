(** Proof of C201. *)
From Coq Require Import QArith String Lia.
From Coq Require Import ZifyBool.
From Verif Require Import Float Base TimestampsModel TimestampsSpec FpfindModel FpfindSpec FpfindProofs3 MiscModel MiscSpec MiscProofs CdRunModel CdRunProofs ArgModel FpCliSpec CliSpec FpCliProofs CliProofs TsCliModel TsCliSpec TsCliProofs
  GenCliModel GenCliSpec GenCliProofs GenCliProofs2 GenCliProofs3 GenRefuseSpec GenRefuseProofs AnyTimeSpec.
Import ListNotations. Local Open Scope list_scope. Local Open Scope Z_scope.

Lemma ints_words ts zs : Forall2 int_word ts zs -> ints ts = Some zs.
Proof. induction 1 as [|t z ts zs H HF IH]; [reflexivity|]. cbn [ints]. now rewrite (word_int_of t z H), IH. Qed.
Lemma word_values ts : Forall (fun t => exists z, int_word t z) ts -> exists zs, Forall2 int_word ts zs.
Proof. induction 1 as [|t ts (z & H) HF (zs & IH)]; [exists []; constructor|exists (z :: zs); now constructor]. Qed.
Lemma gact_fine ss r n : Forall fine ss -> ~ In GHelp ss -> gact (map ggiven' ss ++ r) n = gact r (fold_left (fun n a => gupd a n) ss n).
Proof.
  revert n. induction ss as [|a ss IH]; intros n G H; [reflexivity|]. inv G. assert (H' : ~ In GHelp ss) by (intros X; apply H; now right).
  destruct a as [| |t|ts]; [exfalso; apply H; now left| | |]; cbn [map app ggiven' fold_left gupd].
  - unfold given_of. cbn [gargument gopt_of dest gact]. now apply IH.
  - unfold given_of. cbn [gargument gopt_of dest gact one]. now apply IH.
  - cbn [gact]. match goal with X : fine _ |- _ => destruct (word_values ts X) as (zs & W) end. rewrite (ints_words ts zs W). now apply IH.
Qed.
Lemma gact_fine_help ss r n : Forall fine ss -> In GHelp ss -> gact (map ggiven' ss ++ r) n = GHelped.
Proof.
  revert n. induction ss as [|a ss IH]; intros n G H; [destruct H|]. inv G. destruct a as [| |t|ts]; [reflexivity| | |]; (destruct H as [H|H]; [discriminate|]); cbn [map app ggiven'].
  - unfold given_of. cbn [gargument gopt_of dest gact]. now apply IH.
  - unfold given_of. cbn [gargument gopt_of dest gact one]. now apply IH.
  - cbn [gact]. match goal with X : fine _ |- _ => destruct (word_values ts X) as (zs & W) end. rewrite (ints_words ts zs W). now apply IH.
Qed.
Lemma command_args args ss ws : gcommand args ss -> last_given gtimes_of ss = Some ws -> args <> [].
Proof. intros C LT ->. pose proof (command_loop [] ss 0 [] C (or_introl eq_refl) 1 false ltac:(cbn; lia)) as X. cbn in X. rewrite app_nil_r in X. injection X as X. destruct ss; [discriminate LT|discriminate X]. Qed.
Lemma c201 p tmp args ss fs stdin ws zs : gcommand args ss -> Forall fine ss -> last_given gtimes_of ss = Some ws -> Forall2 int_word ws zs ->
  (In GHelp ss -> grun p tmp args fs stdin = Shows_help) /\
  (~ In GHelp ss -> Forall (fun t => 0 <= t) zs -> delivers (grun p tmp args fs stdin) 0 fs (out_chosen ss) [] (events_at false zs)) /\
  (~ In GHelp ss -> forall zs1 z zs2, zs = zs1 ++ z :: zs2 -> Forall (fun t => 0 <= t) zs1 -> z < 0 -> delivers (grun p tmp args fs stdin) 1 fs (out_chosen ss) [] (events_at false zs1)).
Proof.
  unfold out_chosen. intros C G LT W. pose proof (command_args args ss ws C LT) as NE. destruct (gparse args ss C) as [U P]. destruct args as [|a args]; [congruence|]. unfold grun. rewrite U, P.
  split; [intros H; rewrite gact_fine_help by assumption; reflexivity|].
  assert (K : ~ In GHelp ss -> exists n, match g_out n with Some [] => None | o => o end = match last_given gout_of ss with Some [] => None | o => o end /\ g_times n = Some zs /\
    gact (map ggiven' ss ++ [Placed 0 []]) gnothing = GParsed n).
  { intros H. rewrite gact_fine by assumption. cbn [gact first]. eexists. split; [|split; [|reflexivity]]; cbn [g_out g_times];
      pose proof (fold_means ss gnothing eq_refl eq_refl eq_refl) as (M1 & M2 & _ & _).
    - rewrite M1. now destruct (last_given gout_of ss).
    - rewrite M2, LT. apply ints_words. exact W. }
  split; intros H; destruct (K H) as (n & MO & MT & ->); unfold gproceed; rewrite MO, MT; unfold generate.
  - intros F. rewrite (write_all_ok false zs F). rewrite <- events_words. pose proof (written_delivers 0 fs (match last_given gout_of ss with Some [] => None | o => o end) [] (events_at false zs)) as D. destruct (last_given gout_of ss) as [[|? ?]|]; exact D.
  - intros zs1 z zs2 -> F N. rewrite (write_until zs1 z zs2 F N). pose proof (written_delivers 1 fs (match last_given gout_of ss with Some [] => None | o => o end) [] (events_at false zs1)) as D. destruct (last_given gout_of ss) as [[|? ?]|]; exact D.
Qed.
Lemma c201_all ws : (exists zs, Forall2 int_word ws zs) \/ exists w, In w ws /\ no_number w.
Proof.
  induction ws as [|w ws IH]; [left; exists []; constructor|]. destruct (int_of w) as [z|] eqn:E.
  - destruct IH as [(zs & H)|(v & I & N)]; [left; exists (z :: zs); constructor; [now apply int_of_word|exact H]|right; exists v; split; [now right|exact N]].
  - right. exists w. split; [now left|]. intros z W. apply word_int_of in W. congruence.
Qed.
Lemma c201_refused p tmp args ss fs stdin : gcommand args ss -> bad_after_fine ss -> said (grun p tmp args fs stdin) 2 fs [].
Proof.
  intros C (s1 & ws & w & s2 & -> & G & H & I & N). destruct (gparse args _ C) as [U P]. unfold grun. destruct args as [|a args].
  - exfalso. remember (@nil (list Z)) as e eqn:E in P. clear - P E. subst e. assert (Q : fst (parse gtable gpos []) = map ggiven' (s1 ++ GTimes ws :: s2) ++ [Placed 0 []]) by now rewrite P.
    rewrite map_app in Q. cbn [map ggiven'] in Q. vm_compute fst in Q. destruct (map ggiven' s1) as [|x [|y r]]; discriminate Q.
  - rewrite U, P, map_app, <- app_assoc, gact_fine by assumption. cbn [map ggiven' app gact]. rewrite (ints_none ws w I (no_number_int w N)).
    eexists. split; [reflexivity|]. cbn [code stdout files]. split; [reflexivity|]. split; [reflexivity|]. reflexivity.
Qed.
