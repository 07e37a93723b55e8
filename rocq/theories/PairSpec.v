(** Specification of the search by differences of pairs of events: no histogram, correlation or merging. *)
From Coq Require Import QArith Qabs Qround Qminmax.
From Verif Require Import Float Base TimestampsModel TimestampsSpec UtilsModel UtilsSpec FpfindModel FpfindSpec.
Local Open Scope Z_scope.

(** the events of the window of length [w] from [s], counted from [s] *)
Definition view (s w : Q) (ts : list Q) : list Q := map (fun t => t - s)%Q (window s w ts).
(** the number of cells of width [res] from [a] to [b], around a circle of [n] cells *)
Definition lag (n : Z) (res a b : Q) : Z := (Qfloor (b / res) - Qfloor (a / res)) mod n.
(** how many of all pairs of events have their lag in the group number [g] of [m] lags *)
Definition pairs (n : Z) (res : Q) (m : Z) (A B : list Q) (g : Z) : Z :=
  len (filter (fun c => lag n res (fst c) (snd c) / m =? g) (list_prod A B)).
(** [d] is the first of the most frequent differences of time, taken around 0, up to a counting error [e] per lag *)
Definition frequent (e : Q) (n : Z) (res : Q) (m : Z) (A B : list Q) (d : Q) : Prop :=
  exists g, 0 <= g < n / m /\
    (forall h, 0 <= h < n / m -> (inject_Z (pairs n res m A B h) <= inject_Z (pairs n res m A B g) + 2 * e * inject_Z m)%Q) /\
    (forall h, 0 <= h < g -> (inject_Z (pairs n res m A B h) < inject_Z (pairs n res m A B g) + 2 * e * inject_Z m)%Q) /\
    (d == inject_Z (centered (n / m) g * m) * res)%Q.
(** the length of the windows: whole turns of the circle, as many as come nearest to [dur] and fit before [last] *)
Definition window_length (n : Z) (res dur last w : Q) : Prop :=
  exists k q, nearest (dur / (res * inject_Z n)) k /\ quotient last (res * inject_Z n) q /\ (w == inject_Z (Z.min k q) * (res * inject_Z n))%Q.
(** What one iteration measures: [d1] in the window at 0, with 2^k lags to a group (only at first), and [d2] in the
    window at the separation, in cells 2^k times as wide. *)
Definition measured (e : Q) (P : params) (A : list Q) (dur last : Q) (first : bool) (res : Q) (B : list Q) (r d1 d2 : Q) : Prop :=
  exists w k, window_length (num_bins P) res dur last w /\ 0 <= k /\ (first = false -> k = 0) /\ (k = 0 \/ (r <= 10000)%Q) /\
    (r == res * inject_Z (2 ^ k))%Q /\ num_bins P mod 2 ^ k = 0 /\
    frequent e (num_bins P) res (2 ^ k) (view 0 w A) (view 0 w B) d1 /\ (Qabs d1 <= 100000000)%Q /\
    frequent e (num_bins P) r 1 (view (separation_duration P) w A) (view (separation_duration P) w B) d2.
(** more than ten times what was found so far *)
Definition implausible (P : params) (dt f d1 d2 : Q) : Prop :=
  let big x := (10 * Qmax (Qabs dt) 1 < Qabs x)%Q in
  big d1 \/ big d2 \/ (10 * Qmax (Qabs (f - 1)) (1 # 1000000000) < Qabs ((d2 - d1) / separation_duration P))%Q.
(** The search, from an accumulated offset [dt] and factor [f], with the target times [B] corrected by them. *)
Inductive search (e : Q) (P : params) (A : list Q) (dur last : Q) : bool -> Q -> Q -> Q -> list Q -> Q * Q -> Prop :=
| search_interrupted res dt f B r d1 d2 dt' df : measured e P A dur last false res B r d1 d2 -> implausible P dt f d1 d2 ->
    (dt' == dt)%Q -> (df == f - 1)%Q -> search e P A dur last false res dt f B (dt', df)
| search_done first res dt f B r d1 d2 dt' df : measured e P A dur last first res B r d1 d2 -> (first = false -> ~ implausible P dt f d1 d2) ->
    (dt' == dt + f * d1)%Q -> (df == f * (1 + (d2 - d1) / separation_duration P) - 1)%Q -> (Qabs df < 1 # 8192)%Q -> (r == target_resolution P)%Q ->
    search e P A dur last first res dt f B (dt', df)
| search_again first res dt f B r d1 d2 dt' f' res' B' out : measured e P A dur last first res B r d1 d2 -> (first = false -> ~ implausible P dt f d1 d2) ->
    (dt' == dt + f * d1)%Q -> (f' == f * (1 + (d2 - d1) / separation_duration P))%Q -> (Qabs (f' - 1) < 1 # 8192)%Q -> ~ (r == target_resolution P)%Q ->
    (res' == Qmax (r / (separation_duration P / dur / RES_REFINE_FACTOR)) (target_resolution P))%Q ->
    same_values B' (map (corrected (d1, (d2 - d1) / separation_duration P)%Q) B) ->
    search e P A dur last false res' dt' f' B' out -> search e P A dur last first res dt f B out.
(** the transforms compute the correlation of histograms of [n] bins with at most [a] and [b] events with an error of at most [e] *)
Definition accurate_to (e : Q) (n a b : Z) (M : fpu) : Prop := forall h k, histogram_of n a h -> histogram_of n b k ->
  length (xc M h k) = length h /\ forall i, (i < length h)%nat -> (Qabs (nth i (xc M h k) 0 - inject_Z (correlation h k i)) <= e)%Q.
(** the smaller of the last times of the two sides *)
Definition last_common (A B : list Q) (z : Q) : Prop := exists A' a B' b, A = A' ++ [a] /\ B = B' ++ [b] /\ (z == Qmin a b)%Q.

(** A delay of [q] groups of [m] lags stands out from all others among the pairs. *)
Definition stands_out (n : Z) (res : Q) (m : Z) (A B : list Q) (q : Z) : Prop :=
  forall g, 0 <= g < n / m -> g <> q mod (n / m) -> pairs n res m A B g < pairs n res m A B (q mod (n / m)).
(** The same delay, [q] cells of width [r] = 2^k res, stands out in both windows. *)
Definition constant_delay (P : params) (A B : list Q) (res r : Q) (k q : Z) : Prop :=
  (r == res * inject_Z (2 ^ k))%Q /\ 0 <= k /\ - num_bins P <= 2 * q < num_bins P /\
  forall last w, last_common A B last -> window_length (num_bins P) res (inject_Z (num_wraps P) * res * inject_Z (num_bins P)) last w ->
    stands_out (num_bins P) res (2 ^ k) (view 0 w A) (view 0 w B) q /\
    stands_out (num_bins P) r 1 (view (separation_duration P) w A) (view (separation_duration P) w B) q.
(** what one would expect *)
Definition C96_full : Prop := forall M P A B res k q dt df, exact_fpu M -> accurate_to 0 (num_bins P) (len A) (len B) M -> (0 < res)%Q ->
  constant_delay P A B res (target_resolution P) k q -> time_freq 1 M P A B res = Ok (dt, df) ->
  (dt == inject_Z q * target_resolution P)%Q /\ (df == 0)%Q.
