(** fpfind and freqcd in sequence. *)
From Coq Require Import QArith Qabs.
From Verif Require Import Float Base FpfindSpec.
Local Open Scope Z_scope.

(** [t'] is, from [t0] on, in step with the time [t] corrected for the clock ratio [F]: off by at most [e] of the time
    elapsed and 3/2 unit for each of [n] batches.  Corrected times of fpfind, (t - dt) / (1 + F), differ by as much as
    these, whatever dt. *)
Definition in_step (e F : Q) (t0 : Z) (n : Z) (t t' : Z) : Prop :=
  forall dt, (Qabs (inject_Z (t' - t0) - (corrected (dt, F) (inject_Z t) - corrected (dt, F) (inject_Z t0)))
              <= e * Qabs (inject_Z (t - t0)) + (3 # 2) * inject_Z n)%Q.
