(** Specification: coincidences that stand out in what the search sees, with rounded times and scalars. *)
From Coq Require Import QArith Qabs.
From Verif Require Import Float Base TimestampsModel UtilsModel FpfindModel FpfindSpec AccuracySpec PairSpec SignalSpec.
Local Open Scope Z_scope.

(** the events of the window of length [w] from [s], counted from [s] with the rounding [rt] of the times *)
Definition seen (rt : Q -> Q) (s w : Q) (ts : list Q) : list Q := filter (fun t => Qle_bool 0 t && negb (Qle_bool w t)) (map (fun t => rt (t - s)%Q) ts).
(** Some group of lags has more pairs than every group without a coincidence, by more than the counting error [e] per lag and
    the relative error [c] - 1 of the sums. *)
Definition stands (c e : Q) (n : Z) (res : Q) (m : Z) (A B : list Q) (T : Q -> Q -> Prop) : Prop :=
  exists g0, 0 <= g0 < n / m /\ forall g, 0 <= g < n / m -> (forall a b, In a A -> In b B -> T a b -> lag n res a b / m <> g) ->
    (c * (inject_Z (pairs n res m A B g) + e * inject_Z m) < (2 - c) * inject_Z (pairs n res m A B g0) - c * (e * inject_Z m))%Q.
(** In both windows of length [w], with the offset, factor and target times of [s] and 2^k cells to a group, and with the delays left
    within the range of the correlation. *)
Definition clear_state (u e : Q) (rt : Q -> Q) (P : params) (A : list Q) (D F j W w : Q) (s : fstate) (k : Z) : Prop :=
  let n := num_bins P in let sep := separation_duration P in let q := resolution s in let r := (q * inject_Z (2 ^ k))%Q in
  (forall tau, (0 <= tau <= W)%Q \/ (sep <= tau <= sep + W)%Q -> (Qabs (remaining D F (dt s) (f s) tau) + (r + (2049 # 2048) * j) <= inject_Z n * q / 2)%Q) /\
  (w <= W)%Q /\
  stands (qpower (1 + u) (Z.to_nat k)) e n q (2 ^ k) (seen rt 0 w A) (seen rt 0 w (bts s)) (coincident D F j (dt s) (f s) 0) /\
  stands 1 e n r 1 (seen rt sep w A) (seen rt sep w (bts s)) (coincident D F j (dt s) (f s) sep).
(** the widths with the rounding of the delays and the jitter *)
Definition wider (u : Q) (n : Z) (j : Q) (r : Q) : Q := (r * (1 + u * inject_Z n) + (2049 # 2048) * j)%Q.
(** [x] and its doubles are numbers of the scalars' precision *)
Definition representable (M : fpu) (x : Q) : Prop := forall k, 0 <= k -> (rs M (x * inject_Z (2 ^ k)) == x * inject_Z (2 ^ k))%Q.
(** rounding depends on the value only *)
Definition by_value (M : fpu) : Prop := forall x y, (x == y)%Q -> (rs M x == rs M y)%Q.
