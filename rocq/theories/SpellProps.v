(** Ways of writing one number: C202. *)
From Coq Require Import QArith String List Lia.
From Verif Require Import Float Base FreqcdExamples CdRunModel ArgModel FpCliModel FpCliSpec FpCliProofs FpCliCase CliSpec TsCliModel TsCliSpec TsCliProofs3 TsCliCase GenRefuseSpec GenRefuseProofs NumRefuseSpec NumRefuseProofs SpellSpec SpellProofs SpellProofs2 SpellCase.
From Verif Require PlotCliModel PlotCliSpec PlotCliCase.
Import ListNotations. Local Open Scope string_scope. Local Open Scope list_scope. Local Open Scope Z_scope.

(** C202 *)
Theorem C202 : forall fuel fuel2 M p repr args args' ss ss' fs dirs, writes args ss -> writes args' ss' -> Forall2 alike ss ss' ->
  FpCliModel.run fuel fuel2 M p repr args fs dirs = FpCliModel.run fuel fuel2 M p repr args' fs dirs.
Proof. exact c202. Qed.
Print Assumptions C202.
(** --precomp-start " -1e-6" is --precomp-start -.000001; "-1e-6" without the blank is refused (C117) *)
Example C202_case : writes [codes "--precomp-start"; codes " -1e-6"] [AStart (codes " -1e-6")] /\ writes [codes "--precomp-start"; codes "-.000001"] [AStart (codes "-.000001")] /\
  Forall2 alike [AStart (codes " -1e-6")] [AStart (codes "-.000001")].
Proof. exact case202. Qed.
Theorem C202_plot : forall fuel M p args args' ss ss' fs dirs, PlotCliSpec.writes args ss -> PlotCliSpec.writes args' ss' -> Forall2 plot_alike ss ss' ->
  PlotCliModel.run fuel M p args fs dirs = PlotCliModel.run fuel M p args' fs dirs.
Proof. exact c202_plot. Qed.
Print Assumptions C202_plot.
(** --freq 1_0 is --freq 10 *)
Example C202_plot_case : PlotCliSpec.writes [codes "--freq"; codes "1_0"] [PlotCliSpec.AFreq (codes "1_0")] /\ PlotCliSpec.writes [codes "--freq"; codes "10"] [PlotCliSpec.AFreq (codes "10")] /\
  Forall2 plot_alike [PlotCliSpec.AFreq (codes "1_0")] [PlotCliSpec.AFreq (codes "10")].
Proof. exact plot_case202. Qed.
Theorem C202_timestamps : forall lg p path args args' ss ss' i o fs, command args ss i o -> command args' ss' i o -> Forall2 want_alike ss ss' -> trun lg p path args fs = trun lg p path args' fs.
Proof. exact c202_timestamps. Qed.
Print Assumptions C202_timestamps.
(** --pfilter-p "+0_3 " is --pfilter-p 3 *)
Example C202_timestamps_case : let words t := [codes "-A1"] ++ codes "a" :: [codes "b"] ++ [codes "--pfilter-p"; t] in let wants t := [WFrom (codes "1")] ++ [WPattern t] in
  command (words (codes "+0_3 ")) (wants (codes "+0_3 ")) (codes "a") (Some (codes "b")) /\ command (words (codes "3")) (wants (codes "3")) (codes "a") (Some (codes "b")) /\
  Forall2 want_alike (wants (codes "+0_3 ")) (wants (codes "3")).
Proof. exact timestamps_case202. Qed.
(** Every whole number and every number has a plain form. *)
Theorem C202_whole : forall t z, int_word t z -> exists u, whole u z /\ same_int t u.
Proof. exact c202_whole. Qed.
Print Assumptions C202_whole.
Theorem C202_plain : forall t, float_word t -> exists u, tidied t u /\ float_word u /\ Forall (fun c => c <> 95 /\ ~ is_blank c) u.
Proof. exact c202_float. Qed.
Print Assumptions C202_plain.
