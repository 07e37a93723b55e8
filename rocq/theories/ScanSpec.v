(** Specification: when a search over several frequencies must find something. *)
From Coq Require Import QArith Qabs.
From Verif Require Import Float Base TimestampsModel TimestampsSpec UtilsModel UtilsSpec FpfindModel FpfindSpec MainModel MainSpec2 AccuracySpec PairSpec SignalSpec RoundedSpec WholeSpec SwapSpec ExistSpec PrecompSpec.
Import ListNotations.
Local Open Scope Z_scope.

(** what the search goes through *)
Inductive reached (M : fpu) (P : params) (ats : list Q) (e d : Q) (s0 : fstate) : fstate -> Prop :=
| reached_0 : reached M P ats e d s0 s0
| reached_S s s' : reached M P ats e d s0 s -> iteration M P ats e d s = Ok (Again s') -> reached M P ats e d s0 s'.
(** Both recordings have events later than the separation, the target's also after the corrections made on the way. *)
Definition long_enough (M : fpu) (P : params) (A B : list Q) (res : Q) : Prop :=
  exists a b, getitem A (-1) = Ok a /\ getitem B (-1) = Ok b /\ (exists t, In t A /\ (separation_duration P <= t)%Q) /\
  let dur := rs M (rs M (inject_Z (num_wraps P) * res) * inject_Z (num_bins P))%Q in
  forall s, reached M P A (qmin a b) dur (mkS B res 0 1 true) s -> exists t, In t (bts s) /\ (separation_duration P <= t)%Q.
(** The coincidences stand out for one of the frequencies tried, [df0], and so clearly that the search is bound to find them; the recordings are long enough for the frequencies before it. *)
Definition bound_to_find (e : Q) (M : fpu) (p : Z) (o : options) (evA evB : list event) (before : list Q) (df0 D F j W : Q) : Prop :=
  let A := since (common_start evA evB) evA in let B := since (common_start evA evB) evB in let P := told_search o in let res := inject_Z (initial_res o) in
  any_search o /\ 0 < buffer_order o /\ moderate (tried (fl 53) o) /\ overlapping evA evB /\ (0 <= W)%Q /\ (0 <= j)%Q /\ ends_surely M P res /\
  (exists after, tried (fl 53) o = before ++ df0 :: after) /\ (forall d, In d before -> long_enough M P A (precompensated p d B) res) /\
  common_after e M p o evA evB df0 D F j W /\ within_reach M P A (precompensated p df0 B) res (D_left df0 D) (F_left df0 F) j W /\ significant M P A (precompensated p df0 B) res.
