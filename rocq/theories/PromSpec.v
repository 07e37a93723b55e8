(** Specification: a peak that is significant, from the recordings alone. *)
From Coq Require Import QArith Qabs Qround Qminmax.
From Verif Require Import Float Base UtilsModel UtilsSpec FpfindModel AccuracySpec RoundedSpec WholeSpec GroundSpec.
Import ListNotations. Local Open Scope Z_scope.

(** The standard score is computed to one part in a thousand, apart from the rounding to three decimals, from backgrounds of at most [n] values whose deviation is not too small compared with their mean. *)
Definition fair_zs (n : Z) (M : fpu) : Prop := forall m bg mean var s, bg <> [] -> len bg <= n -> is_mean bg mean -> is_variance bg var -> (0 < var)%Q -> (mean * mean <= 16 * inject_Z (len bg) * var)%Q ->
  (mean <= m)%Q -> (0 <= s)%Q -> (((1001 # 1000) * s + (1 # 1000)) * ((1001 # 1000) * s + (1 # 1000)) * var <= (m - mean) * (m - mean))%Q -> (s <= zs M m bg)%Q.
(** the events in the window of length [w] from 0, widened by [m] on both sides *)
Definition present (A : list Q) (w m : Q) : Z := len (filter (time_in 0 w m) A).
(** A pair of events, surely in that window, with a delay from [lo] to [hi] up to whole turns *)
Definition pair_between (A B : list Q) (w m C lo hi : Q) : Prop :=
  exists a b, In a A /\ In b B /\ time_in 0 w (- m) a = true /\ time_in 0 w (- m) b = true /\ (lo <= turn C (b - a) <= hi)%Q.
(** In the first window there are fewer pairs of events than half the bins, some of them at positive and some at negative delays longer than those that can be the common one, and the common events are
    1 + threshold^2 times as many as the pairs in an average bin, for each of the bins they can be spread over. *)
Definition prominent (e : Q) (M : fpu) (P : params) (A B : list Q) (res D F j0 j W T : Q) : Prop :=
  exists a b, getitem A (-1) = Ok a /\ getitem B (-1) = Ok b /\
  let w := used_duration M P (qmin a b) (span P res) res in let n := inject_Z (num_bins P) in let C := (n * res)%Q in
  let m := off_by P D F j W [] in let d := blur P D F j W [] in let x := (m + 3 * res + 3 * j)%Q in
  let t := ((1001 # 1000) * Qmax (threshold P) (1 # 1000) + (1 # 1000))%Q in
  let N := inject_Z (present A w (rounding T D) * present B w (rounding T D)) in
  (e <= 1 # 4)%Q /\ (2 * N < n)%Q /\
  (inject_Z (Qfloor (2 * d / res) + 3) * ((1 + t * t) * (2 * N / n + 2 * e)) <= inject_Z (commons A B D F j0 0 w m))%Q /\
  pair_between A B w (rounding T D) C x (C / 2 - 2 * res - j) /\ pair_between A B w (rounding T D) C (C / 2 + 2 * res + j) (C - x).
