(** Cases of C202. *)
From Coq Require Import QArith String List Lia.
From Verif Require Import Float Base FreqcdExamples CdRunModel ArgModel FpCliModel FpCliSpec FpCliProofs FpCliCase CliSpec TsCliModel TsCliSpec TsCliProofs3 TsCliCase GenRefuseSpec GenRefuseProofs NumRefuseSpec NumRefuseProofs SpellSpec SpellProofs.
From Verif Require PlotCliModel PlotCliSpec PlotCliCase.
Import ListNotations. Local Open Scope string_scope. Local Open Scope list_scope. Local Open Scope Z_scope.

Lemma decimal_micro2 : decimal (codes "-.000001") (- fl 53 (1 # 1000000)).
Proof. exact (decimal_text [45] true [] (codes "000001") [] 0 _ minus_sign eq_refl ltac:(left; split; reflexivity) ltac:(vm_compute; reflexivity) ltac:(vm_compute; reflexivity)). Qed.
Lemma digits_word l v : int_of l = Some v -> Forall is_digit l -> ds_word l.
Proof.
  intros H F. apply int_of_word in H as (b1 & s & ds & b2 & w & -> & F1 & F2 & N & S). apply Forall_app in F as [G1 F]. apply Forall_app in F as [G2 F]. apply Forall_app in F as [_ G3].
  assert (B : forall b, Forall is_blank b -> Forall is_digit b -> b = []) by (intros [|c b] X Y; [reflexivity|]; apply Forall_inv in X; apply Forall_inv in Y; unfold is_blank, is_digit in *; lia).
  rewrite (B b1 F1 G1), (B b2 F2 G3). assert (s = []) as -> by (destruct s as [|c s]; [reflexivity|]; apply Forall_inv in G2; unfold is_digit in G2; destruct S as [[[S|S] _]|[S _]]; [discriminate S| |]; injection S as -> _; lia).
  rewrite app_nil_r. now exists w.
Qed.
Lemma case202 : writes [codes "--precomp-start"; codes " -1e-6"] [AStart (codes " -1e-6")] /\ writes [codes "--precomp-start"; codes "-.000001"] [AStart (codes "-.000001")] /\
  Forall2 alike [AStart (codes " -1e-6")] [AStart (codes "-.000001")].
Proof.
  split; [apply (W_long _ (AStart (codes " -1e-6"))); [reflexivity|eapply (shortened _ _ 15); reflexivity|split; [discriminate|left; discriminate]|ascii|constructor]|].
  split; [apply (W_long _ (AStart (codes "-.000001"))); [reflexivity|eapply (shortened _ _ 15); reflexivity|split; [discriminate|]|ascii|constructor]|].
  { right. right. right. exists [], (codes "000001"). split; [discriminate|]. split; [constructor|]. split; [repeat constructor; cbn; lia|reflexivity]. }
  constructor; [|constructor]. right. exists (codes "-1e-6"), (codes "-.000001"). split; [|split; [|right; exists (- fl 53 (1 # 1000000))%Q; split; [exact decimal_micro|exact decimal_micro2]]].
  - exists [32], [45], (codes "1"), (codes "e-6"), []. split; [reflexivity|]. split; [constructor; [right; lia|constructor]|]. split; [constructor|]. split; [right; now right|]. split; [|reflexivity]. right.
    split; [apply M_whole, (digits_word _ 1); [reflexivity|repeat constructor; cbn; lia]|]. right. exists 101, [45], (codes "6"). split; [now left|]. split; [right; now right|]. split; [apply (digits_word _ 6); [reflexivity|repeat constructor; cbn; lia]|reflexivity].
  - exists [], [45], (codes ".000001"), [], []. split; [reflexivity|]. split; [constructor|]. split; [constructor|]. split; [right; now right|]. split; [|reflexivity]. right.
    split; [apply M_fraction, (digits_word _ 1); [reflexivity|repeat constructor; cbn; lia]|now left].
Qed.
Lemma plot_case202 : PlotCliSpec.writes [codes "--freq"; codes "1_0"] [PlotCliSpec.AFreq (codes "1_0")] /\ PlotCliSpec.writes [codes "--freq"; codes "10"] [PlotCliSpec.AFreq (codes "10")] /\
  Forall2 plot_alike [PlotCliSpec.AFreq (codes "1_0")] [PlotCliSpec.AFreq (codes "10")].
Proof.
  split; [apply (PlotCliSpec.W_long _ (PlotCliSpec.AFreq (codes "1_0"))); [reflexivity|eapply (PlotCliCase.shortened _ _ 6); reflexivity|split; [discriminate|now apply own_simple]|ascii|constructor]|].
  split; [apply (PlotCliSpec.W_long _ (PlotCliSpec.AFreq (codes "10"))); [reflexivity|eapply (PlotCliCase.shortened _ _ 6); reflexivity|split; [discriminate|now apply own_simple]|ascii|constructor]|].
  constructor; [|constructor]. right. exists (codes "10"), (codes "10"). split; [|split; [|now left]].
  - exists [], [], (codes "1_0"), [], []. split; [reflexivity|]. split; [constructor|]. split; [constructor|]. split; [now left|]. split; [|reflexivity]. right. split; [|now left].
    apply M_whole. exists (10 * (49 - 48) + (48 - 48)). apply (N_under [49] (49 - 48) 48); [apply N_digit|]; unfold is_digit; lia.
  - exists [], [], (codes "10"), [], []. split; [reflexivity|]. split; [constructor|]. split; [constructor|]. split; [now left|]. split; [|reflexivity]. right. split; [apply M_whole, (digits_word _ 10); [reflexivity|repeat constructor; cbn; lia]|now left].
Qed.
Lemma timestamps_case202 : let words t := [codes "-A1"] ++ codes "a" :: [codes "b"] ++ [codes "--pfilter-p"; t] in let wants t := [WFrom (codes "1")] ++ [WPattern t] in
  command (words (codes "+0_3 ")) (wants (codes "+0_3 ")) (codes "a") (Some (codes "b")) /\ command (words (codes "3")) (wants (codes "3")) (codes "a") (Some (codes "b")) /\
  Forall2 want_alike (wants (codes "+0_3 ")) (wants (codes "3")).
Proof.
  cbv zeta. assert (K : forall t, own_word t -> ascii_text t -> command ([codes "-A1"] ++ codes "a" :: [codes "b"] ++ [codes "--pfilter-p"; t]) ([WFrom (codes "1")] ++ [WPattern t]) (codes "a") (Some (codes "b"))).
  { intros t OW AT. exists [codes "-A1"], [WFrom (codes "1")], [codes "--pfilter-p"; t], [WPattern t]. split; [|split; [|split; [reflexivity|split; [now apply name_simple|split; [intros o X; injection X as <-; now apply name_simple|reflexivity]]]]].
    - apply (P_attached _ _ _ _ [] [] (WFrom [49]) 65 [49] [] []); [constructor|reflexivity|reflexivity|split; [discriminate|intros [X|[]]; discriminate]|ascii|]. constructor.
    - apply P_long with (a := WPattern t); [reflexivity|eapply (tshortened _ _ _ 11); reflexivity|exact OW|exact AT|]. constructor. }
  split; [apply K; [left; discriminate|ascii]|]. split; [apply K; [left; discriminate|ascii]|]. constructor; [reflexivity|]. constructor; [|constructor]. right. exists 3. split; apply int_of_word; reflexivity.
Qed.
