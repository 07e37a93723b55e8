(** Proof of C199. *)
From Coq Require Import String List.
From Verif Require Import Base FreqcdModel FreqcdSpec FreqcdExamples FreqcdProofs FreqcdProofs6 Float FreqcdCli FreqcdCliSpec FreqcdCliStatements FreqcdCliProofs FreqcdCliRefute CdRunModel CdNameSpec.
From Coq Require Import ZifyBool.
Import ListNotations.
Local Open Scope Z_scope.

Lemma not_space c : ~ blank c -> is_space c = false.
Proof. intros N. destruct (is_space c) eqn:E; [|reflexivity]. apply is_space_blank in E. contradiction. Qed.
Lemma span_word : forall n name rest, Forall (fun c => ~ blank c) name -> match rest with c :: _ => blank c | [] => True end ->
  span_nonblank n (name ++ rest) = span_nonblank n name.
Proof.
  induction n as [|n IH]; intros name rest F R; [reflexivity|]. destruct name as [|c name].
  - destruct rest as [|c rest]; [reflexivity|]. cbn [app span_nonblank]. apply is_space_blank in R. now rewrite R.
  - inv F. cbn [app span_nonblank]. rewrite not_space by assumption. f_equal. now apply IH.
Qed.
Lemma sscanf_word w t name : first_word t name -> sscanf_s w t = sscanf_s w name.
Proof.
  intros (bl & rest & -> & B & NE & F & R). unfold sscanf_s. destruct name as [|c name]; [congruence|]. pose proof (Forall_inv F) as NB.
  rewrite skip_spaces_app by (first [assumption|exact NB]). assert (E : skip_spaces (c :: name) = c :: name) by (apply (skip_spaces_app [] (c :: name)); [constructor|exact NB]). rewrite E.
  now rewrite (span_word w (c :: name) rest F R).
Qed.
Lemma apply_cut : forall ss ss', Forall2 cut ss ss' -> forall c, apply_all c ss = apply_all c ss'.
Proof.
  induction 1 as [|s s' ss ss' C _ IH]; intros c; [reflexivity|]. cbn [apply_all].
  assert (E : option_step c (letter s) (argument s) = option_step c (letter s') (argument s')).
  { destruct C as [s|t name W|t name W|t name W]; [reflexivity| | |]; cbn [letter argument]; unfold option_step; cbn [Z.eqb Pos.eqb]; now rewrite (sscanf_word _ _ _ W). }
  rewrite E. destruct (option_step c (letter s') (argument s')) as [[c'|k]|e]; auto.
Qed.
Lemma c199 strict junk ib ob fb prog args args' ss ss' fs stdin : writes args ss -> writes args' ss' -> Forall2 cut ss ss' ->
  freqcd_main strict junk ib ob fb (prog :: args) fs stdin = freqcd_main strict junk ib ob fb (prog :: args') fs stdin.
Proof. intros W W' C. unfold freqcd_main. now rewrite (cli_writes prog _ _ W), (cli_writes prog _ _ W'), (apply_cut _ _ C). Qed.
Lemma sscanf_blank w t : Forall blank t -> sscanf_s w t = None.
Proof. intros B. unfold sscanf_s. rewrite <- (app_nil_r t), skip_spaces_app by (first [assumption|exact I]). destruct w; reflexivity. Qed.
Lemma c199_blank prog args s t : writes args [s] -> argument s = Some t -> Forall blank t ->
  answers (prog :: args) (Stops match s with InName _ => -2 | OutName _ => -8 | FreqName _ => -10 | _ => -4 end).
Proof.
  intros W A B. unfold answers. rewrite (cli_writes prog _ _ W). pose proof (sscanf_blank FNAMEWIDTH t B) as E.
  assert (E2 : sscanf_d t = None). { unfold sscanf_d, strtol. rewrite <- (app_nil_r t), skip_spaces_app by (first [assumption|exact I]). reflexivity. }
  destruct s; try discriminate A; injection A as ->; cbn [apply_all letter argument]; unfold option_step; cbn [Z.eqb Pos.eqb]; rewrite ?E, ?E2; eexists; split; reflexivity.
Qed.
Lemma writes_i t : writes [dash_i; t] [InName t].
Proof. apply (W_detached [] (InName t) t [] []); [constructor|reflexivity|]. constructor. exact I. Qed.
Lemma word_a : first_word (str " a b") (str "a").
Proof. exists [32], (str " b"). split; [reflexivity|]. split; [repeat constructor|]. split; [discriminate|]. split; [constructor; [unfold blank; cbn; lia|constructor]|now left]. Qed.
Lemma C199_refuted_lemma : ~ C199_statement.
Proof.
  intros H. destruct (H (str "freqcd") (str " a b")) as (o & E & O); [discriminate|vm_compute; discriminate|repeat constructor; discriminate|].
  apply (f_equal (fun r => match r with Some (Ok o) => observe o | _ => Stops 0 end)) in E. rewrite O in E. vm_compute in E. discriminate E.
Qed.
