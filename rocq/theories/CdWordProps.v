(** Words on freqcd's command line which are no numbers or no options: C197, C198. *)
From Coq Require Import String List.
From Verif Require Import Base FreqcdModel FreqcdSpec FreqcdExamples FreqcdCliSpec FreqcdCliStatements FreqcdCliProofs CdRunModel CdWordSpec CdWordProofs.
Import ListNotations.
Local Open Scope Z_scope.

(** C197.  Full statement: [C197_statement].  It fails for 12abc, which counts as 12. *)
Theorem C197_refuted : ~ C197_statement.
Proof. exact C197_refuted_lemma. Qed.
Print Assumptions C197_refuted.
(** Refused are the words which do not begin with a number; of the others the beginning counts. *)
Theorem C197_actual : forall prog t,
  (forall v, begins t v -> answers [prog; dash_f; t] (run_with (actual false (stored v))) /\ answers [prog; dash_d; dash_f; t] (run_with (actual true (stored v)))) /\
  ((forall v, ~ begins t v) -> answers [prog; dash_f; t] (Stops (-4)) /\ answers [prog; dash_d; dash_f; t] (Stops (-4))).
Proof. exact c197. Qed.
Print Assumptions C197_actual.
(** What counts is determined by the word. *)
Theorem C197_one : forall t v w, begins t v -> begins t w -> stored v = stored w.
Proof. exact begins_stored. Qed.
Print Assumptions C197_one.
Example C197_case : begins (str "12abc") 12 /\ (forall n, ~ denotes (str "12abc") n) /\ (forall v, ~ begins (str "abc") v) /\ stored (2 ^ 32 + 5) = 5 /\ stored (10 ^ 20) = -1.
Proof.
  split; [exact begins_12|]. split; [exact not_12|]. split; [|split; reflexivity].
  intros v Hb. apply begins_strtol in Hb as [rest E]. apply (f_equal (fun r => fst (fst r))) in E. vm_compute in E. discriminate.
Qed.

(** C198.  Full statement: [C198_statement].  It fails for -z. *)
Theorem C198_refuted : ~ C198_statement.
Proof. exact C198_refuted_lemma. Qed.
Print Assumptions C198_refuted.
(** Unknown letters and a last option without its value are ignored, and a dash among letters ends the options: the run is the same without them. *)
Theorem C198_actual : forall strict junk ib ob fb prog args args' ss fs stdin, loosely args ss -> writes args' ss ->
  freqcd_main strict junk ib ob fb (prog :: args) fs stdin = freqcd_main strict junk ib ob fb (prog :: args') fs stdin.
Proof. exact c198. Qed.
Print Assumptions C198_actual.
(** This is about every command line. *)
Theorem C198_all : forall args, exists ss args', loosely args ss /\ writes args' ss.
Proof. exact c198_all. Qed.
Print Assumptions C198_all.
(** -z -f12 -yxi means -f 12 -x *)
Example C198_case : loosely [str "-z"; str "-f12"; str "-yxi"] [Corr (str "12"); Legacy] /\ writes [str "-f"; str "12"; str "-x"] [Corr (str "12"); Legacy].
Proof.
  split.
  - apply (L_flags [122] []); [apply K_unknown; [exact unknown_z|constructor]|discriminate|]. apply (L_attached [] [] (Corr (str "12")) (str "12")); [constructor|reflexivity|discriminate|].
    apply (L_missing [121; 120] [Legacy] (InName []) []); [|reflexivity]. apply K_unknown; [split; [discriminate|intros []; discriminate]|]. apply (K_flag Legacy); [reflexivity|constructor].
  - apply (W_detached [] (Corr (str "12")) (str "12") [str "-x"] [Legacy]); [constructor|reflexivity|]. apply (W_flags [Legacy] [] []); [repeat constructor|discriminate|]. constructor. exact I.
Qed.
