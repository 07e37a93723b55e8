(** Specification: an iteration that finds clearly more than ten times what is known. *)
From Coq Require Import QArith Qabs Qminmax.
From Verif Require Import FpfindModel.
Local Open Scope Q_scope.
(** One of the delays is more than 10.01 times the delay found so far, which counts as 1 ns at least, or the frequency offset they give more than 10.01 times the one found so far, which counts as 10^-9 at least. *)
Definition far_off (P : params) (s : fstate) (d1 d2 : Q) : Prop :=
  let limit x least := (1001 # 100) * Qmax (Qabs x) least in
  limit (dt s) 1 < Qabs d1 \/ limit (dt s) 1 < Qabs d2 \/ limit (f s - 1) (1 # 1000000000) < Qabs ((d2 - d1) / separation_duration P).
