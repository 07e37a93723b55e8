(** Specification for fpplot. *)
From Coq Require Import QArith Qabs.
From Verif Require Import Float Base TimestampsModel TimestampsSpec MainSpec2.
Local Open Scope Z_scope.

(** Times below [d] ns, all without a limit. *)
Definition within (d : option Q) (ts : list Q) : list Q :=
  match d with None => ts | Some d => filter (fun t => negb (Qle_bool d t)) ts end.
(** [y] is [t] less the delay [time], at the rate of a clock [freq] ppm slower, but for the fraction [eps] *)
Definition compensated (eps freq time t y : Q) : Prop :=
  (Qabs (y - (t - time) / (1 + freq / 1000000)) <= eps * Qabs (t - time))%Q.
