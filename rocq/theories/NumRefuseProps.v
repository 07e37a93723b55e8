(** Values of options which are no numbers: C193. *)
From Coq Require Import QArith String List Lia.
From Verif Require Import Float Base FreqcdExamples CdRunModel ArgModel FpCliModel FpCliSpec FpCliProofs FpCliCase CliSpec TsCliModel TsCliSpec TsCliProofs3 TsCliCase GenRefuseSpec GenRefuseProofs NumRefuseSpec NumRefuseProofs NumRefuseProofs2.
From Verif Require PlotCliModel PlotCliSpec PlotCliCase.
Import ListNotations. Local Open Scope string_scope. Local Open Scope list_scope. Local Open Scope Z_scope.

(** C193 *)
Theorem C193 : forall fuel fuel2 M p repr args ss a fs dirs, writes args ss -> In a ss -> bad_number a -> FpCliModel.run fuel fuel2 M p repr args fs dirs = Exit 2 [].
Proof. exact c193. Qed.
Print Assumptions C193.
(** fpfind -q 2.5, and --output 16 *)
Example C193_case : writes [codes "-q"; codes "2.5"] [AOrder (codes "2.5")] /\ bad_number (AOrder (codes "2.5")) /\
  writes [codes "--output"; codes "16"] [AOutput (codes "16")] /\ bad_number (AOutput (codes "16")).
Proof.
  split; [|split; [|split]].
  - apply (W_detached [] [] (AOrder (codes "2.5")) 113 (codes "2.5") [] []); [constructor|reflexivity|reflexivity|split; [discriminate|now apply own_simple]|ascii|constructor].
  - apply (letter_no_number _ 46); unfold is_digit, is_blank; cbn; lia.
  - apply (W_long _ (AOutput (codes "16"))); [reflexivity|eapply (shortened _ _ 8); reflexivity|split; [discriminate|now apply own_simple]|ascii|constructor].
  - intros z K. apply word_int_of in K. assert (Z : int_of (codes "16") = Some 16) by reflexivity. rewrite Z in K. injection K as <-. lia.
Qed.
(** fpplot *)
Theorem C193_plot : forall fuel M p args ss a fs dirs, PlotCliSpec.writes args ss -> In a ss -> bad_plot_number a -> PlotCliModel.run fuel M p args fs dirs = PlotCliModel.Exit 2.
Proof. exact c193_plot. Qed.
Print Assumptions C193_plot.
Example C193_plot_case : PlotCliSpec.writes [codes "--freq"; codes "0x10"] [PlotCliSpec.AFreq (codes "0x10")] /\ bad_plot_number (PlotCliSpec.AFreq (codes "0x10")).
Proof.
  split; [|apply x_no_float; right; now left].
  apply (PlotCliSpec.W_long _ (PlotCliSpec.AFreq (codes "0x10"))); [reflexivity|eapply (PlotCliCase.shortened _ _ 6); reflexivity|split; [discriminate|now apply own_simple]|ascii|constructor].
Qed.
(** parse_timestamps *)
Theorem C193_timestamps : forall lg p path args ss i o fs a, command args ss i o -> ~ In WHelp ss -> In a ss -> bad_want a -> said (trun lg p path args fs) 2 fs [].
Proof. exact c193_timestamps. Qed.
Print Assumptions C193_timestamps.
Example C193_timestamps_case : command ([codes "-A1"] ++ codes "a" :: [codes "b"] ++ [codes "--tfilter-s"; codes "0x10"]) ([WFrom (codes "1")] ++ [WStart (codes "0x10")]) (codes "a") (Some (codes "b")) /\
  bad_want (WStart (codes "0x10")).
Proof.
  split; [|apply x_no_float; right; now left]. exists [codes "-A1"], [WFrom (codes "1")], [codes "--tfilter-s"; codes "0x10"], [WStart (codes "0x10")]. split; [|split; [|split; [reflexivity|split; [now apply name_simple|split; [intros o X; injection X as <-; now apply name_simple|reflexivity]]]]].
  - apply (P_attached _ _ _ _ [] [] (WFrom [49]) 65 [49] [] []); [constructor|reflexivity|reflexivity|split; [discriminate|intros [X|[]]; discriminate]|ascii|]. constructor.
  - apply P_long with (a := WStart (codes "0x10")); [reflexivity|eapply (tshortened _ _ _ 11); reflexivity|now apply own_simple|ascii|]. constructor.
Qed.
