(** Specification: when fpfind must find the clock relation, for any part of two recordings. *)
From Coq Require Import QArith Qabs.
From Verif Require Import Float Base TimestampsModel TimestampsSpec UtilsModel UtilsSpec FpfindModel FpfindSpec MainModel MainSpec2 AccuracySpec PairSpec SignalSpec RoundedSpec WholeSpec SwapSpec ExistSpec.
Import ListNotations. Local Open Scope Z_scope.

(** float64, and times of [p] bits; the correlations of histograms of these recordings within [e] *)
Definition computes (e : Q) (o : options) (evA evB : list event) (M : fpu) (p : Z) : Prop :=
  rt M = fl p /\ rs M = fl 53 /\ accurate_to e (2 ^ buffer_order o) (len evA) (len evB) M /\ (0 <= e)%Q /\ 54 <= p /\ good_xc M /\ good_zs M.
(** Two recordings, and the time from which on they are used when [skip] s are left out: [k] is [skip] in 1/256 ns. *)
Definition recordings (evA evB : list event) (skip : Q) (k : Z) : Prop :=
  Forall event_ok evA /\ Forall event_ok evB /\ evA <> [] /\ evB <> [] /\ (fl 53 (skip * 1000000000) == inject_Z k / 256)%Q /\ 0 <= k /\ common_start evA evB + k < 2 ^ 54.
(** Common events of the times [A] and [B], those of [B] at D + (1 + F) times the reference's, to within [j], stand out in all that the search asked for looks at, are significant
    and within its reach. *)
Definition must_find (e : Q) (M : fpu) (o : options) (A B : list Q) (D F j W : Q) : Prop :=
  let P := told_search o in let res := inject_Z (initial_res o) in
  ends_surely M P res /\ stand_out_singly e M P A B res D F j W /\ within_reach M P A B res D F j W /\ significant M P A B res.
(** [dt] and [df] are D and F, up to the errors of the search *)
Definition finds_relation (M : fpu) (o : options) (A B : list Q) (D F j W : Q) (ws : list Q) (dt df : Q) : Prop :=
  let P := told_search o in
  cells_of M P A B (inject_Z (initial_res o)) ws /\ (Qabs (df - F) <= freq_off P F j W ws)%Q /\ (Qabs (dt - D) <= time_off P D F j W ws dt)%Q.
(** The target's time [t'] belongs to the reference's time [t]. *)
Definition belongs (D F j t t' : Q) : Prop := (Qabs (t' - (D + (1 + F) * t)) <= j)%Q.
(** How far from each other such times are at most when the first is shown at [y], with [n] for the delay and errors [E] of the delay and [G] of the frequency *)
Definition shown_near (E G j n : Q) (t t' y : Q) : Prop :=
  (Qabs (y - t) <= (1 # 2 ^ 51) * Qabs (t' - n) + (1003 # 1000) * (E + j + Qabs t * G))%Q.
