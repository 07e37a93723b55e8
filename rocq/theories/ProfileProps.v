(** Property theorems about the decorator profile. *)
From Coq Require Import QArith String.
From Verif Require Import Base Float ReportModel FreqcdExamples ProfileModel ProfileSpec ProfileProofs.
Import ListNotations.
Local Open Scope Z_scope.

(** C183 *)
Theorem C183 : forall V E clock (p : prog V E) s, 0 <= level s ->
  exists n rs, run clock p s = (mkState (level s) n (records s ++ rs), snd (plain p)) /\ own rs = fst (plain p) /\
    nested clock (level s) (ticks s) n rs.
Proof. intros V E. exact c183. Qed.
Print Assumptions C183.
(** fpfind calling time_freq, which raises 7; the caller catches it and returns 1, then the same exception again, not caught *)
Definition prog183 : prog Z Z :=
  let tf := Call (str "time_freq") (Say (str "no peak") (End (Raised 7))) in
  Call (str "fpfind") (tf (fun o => match o with Raised _ => End (Returned 1) | Returned v => End (Returned v) end))
    (fun _ => Call (str "fpfind") (tf End) End).
Example C183_case : run (fun i => inject_Z (i * i)) prog183 (mkState 0 0 []) = (mkState 0 8
  [Start (str "fpfind") (str "START PROFILING"); Start (str "time_freq") (str "  START PROFILING"); Line (str "no peak");
   Stop (str "time_freq") (str "  END PROFILING: ") 3; Stop (str "fpfind") (str "END PROFILING: ") 9;
   Start (str "fpfind") (str "START PROFILING"); Start (str "time_freq") (str "  START PROFILING"); Line (str "no peak");
   Stop (str "time_freq") (str "  END PROFILING: ") 11; Stop (str "fpfind") (str "END PROFILING: ") 33], Raised 7).
Proof. vm_compute. reflexivity. Qed.
