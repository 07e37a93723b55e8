(** Proof of C193 for fpplot. *)
From Coq Require Import QArith String.
From Verif Require Import Float Base CdRunModel ArgModel FpCliSpec PlotCliModel PlotCliSpec PlotCliProofs GenRefuseSpec GenRefuseProofs NumRefuseSpec NumRefuseProofs.
Import ListNotations. Local Open Scope Z_scope.

Lemma bad_plot_convert a : bad_plot_number a -> PlotCliModel.convert (PlotCliProofs.dst_of a) (PlotCliProofs.args_of a) = None.
Proof.
  destruct a; cbn [bad_plot_number]; intros B; try contradiction; unfold PlotCliProofs.args_of; cbn [PlotCliSpec.argument PlotCliProofs.dst_of PlotCliModel.convert]; first [now rewrite (no_number_int t B)|now rewrite (no_float t B)].
Qed.
Lemma plot_converted_none a ss : In a ss -> PlotCliModel.convert (PlotCliProofs.dst_of a) (PlotCliProofs.args_of a) = None -> PlotCliModel.converted (map PlotCliProofs.act_of ss) = None.
Proof.
  intros I N. induction ss as [|b ss IH]; [destruct I|]. cbn [map]. unfold PlotCliProofs.act_of at 1. cbn [PlotCliModel.converted]. destruct I as [->|I]; [now rewrite N|]. rewrite (IH I). now destruct (PlotCliModel.convert (PlotCliProofs.dst_of b) (PlotCliProofs.args_of b)).
Qed.
Lemma c193_plot fuel M p args ss a fs dirs : PlotCliSpec.writes args ss -> In a ss -> bad_plot_number a -> PlotCliModel.run fuel M p args fs dirs = PlotCliModel.Exit 2.
Proof.
  intros W I B. destruct (PlotCliProofs.split_writes args ss W) as [S E]. destruct (PlotCliProofs.parse_spelled _ ss S) as (P & O & N). unfold PlotCliModel.run. rewrite E. unfold PlotCliModel.run_words. rewrite O, N, P. cbn [orb].
  now rewrite (plot_converted_none a ss I (bad_plot_convert a B)).
Qed.
