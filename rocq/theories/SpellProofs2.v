(** Proof of C202 for fpplot. *)
From Coq Require Import QArith String.
From Verif Require Import Float Base CdRunModel ArgModel FpCliSpec PlotCliModel PlotCliSpec PlotCliProofs GenRefuseSpec GenRefuseProofs NumRefuseSpec NumRefuseProofs SpellSpec SpellProofs.
Import ListNotations. Local Open Scope Z_scope.

Lemma plot_alike_act a b : plot_alike a b -> PlotCliProofs.dst_of a = PlotCliProofs.dst_of b /\ PlotCliModel.convert (PlotCliProofs.dst_of a) (PlotCliProofs.args_of a) = PlotCliModel.convert (PlotCliProofs.dst_of b) (PlotCliProofs.args_of b).
Proof.
  intros H. destruct a, b; cbn [plot_alike] in H; try discriminate H; try solve [inversion H; subst; split; reflexivity];
    (destruct H as [->|H]; [split; reflexivity|]; split; [reflexivity|]; unfold PlotCliProofs.args_of; cbn [PlotCliSpec.argument PlotCliProofs.dst_of PlotCliModel.convert]; first [now rewrite (same_int_of _ _ H)|now rewrite (same_float_of _ _ H)]).
Qed.
Lemma plot_alike_converted ss ss' : Forall2 plot_alike ss ss' -> PlotCliModel.converted (map PlotCliProofs.act_of ss) = PlotCliModel.converted (map PlotCliProofs.act_of ss').
Proof.
  induction 1 as [|a b ss ss' H F IH]; [reflexivity|]. destruct (plot_alike_act a b H) as [E C]. cbn [map]. unfold PlotCliProofs.act_of at 1 3. cbn [PlotCliModel.converted]. rewrite E in *. now rewrite C, IH.
Qed.
Lemma c202_plot fuel M p args args' ss ss' fs dirs : PlotCliSpec.writes args ss -> PlotCliSpec.writes args' ss' -> Forall2 plot_alike ss ss' -> PlotCliModel.run fuel M p args fs dirs = PlotCliModel.run fuel M p args' fs dirs.
Proof.
  intros W W' H. destruct (PlotCliProofs.split_writes args ss W) as [S E]. destruct (PlotCliProofs.parse_spelled _ ss S) as (P & O & N). destruct (PlotCliProofs.split_writes args' ss' W') as [S' E']. destruct (PlotCliProofs.parse_spelled _ ss' S') as (P' & O' & N').
  unfold PlotCliModel.run. rewrite E, E'. unfold PlotCliModel.run_words. rewrite O, N, P, O', N', P', (plot_alike_converted ss ss' H). cbn [orb].
  match goal with |- context [PlotCliModel.proceed _ _ _ ?x] => assert (X : x = match flat_map FpCliModel.split_equals args' with [] => true | _ => false end); [|now rewrite X] end.
  assert (Y : forall a s, PlotCliProofs.spelled a s -> match a with [] => true | _ => false end = match s with [] => true | _ => false end); [|rewrite (Y _ _ S), (Y _ _ S'); now destruct H].
  clear. intros a s H. destruct H; try reflexivity; try (destruct fs; [congruence|reflexivity]); destruct fs; reflexivity.
Qed.
