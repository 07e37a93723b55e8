(** PeakStatistics.significance (src/fpfind/lib/utils.py 67-89) in floating point.  [rd] is the rounding of numpy's float64 (no overflow or underflow).
    Simplification: numpy's reductions may add in any order, the order being left open up to the number of additions one after the other. *)
From Coq Require Import QArith Qabs Permutation.
From Verif Require Import Float Base UtilsModel FpfindModel FpfindSpec.
Import ListNotations. Local Open Scope Z_scope.

(** np.add.reduce: [x] is a sum of the values with at most [k] rounded additions on the way of each *)
Inductive sums (rd : Q -> Q) : Z -> list Q -> Q -> Prop :=
| sums_one k x : 0 <= k -> sums rd k [x] x
| sums_add k a b x y : sums rd k a x -> sums rd k b y -> sums rd (k + 1) (a ++ b) (rd (x + y)%Q)
| sums_perm k a b x : Permutation a b -> sums rd k a x -> sums rd k b x.
(** 67-71, np.mean *)
Definition mean_of (rd : Q -> Q) (k : Z) (l : list Q) (m : Q) : Prop := exists s, sums rd k l s /\ m = rd (s / inject_Z (len l))%Q.
(** np.sqrt, to one part in 2^53 *)
Definition root_of (v r : Q) : Prop := (0 <= r)%Q /\ (Qabs (r * r - v) <= (3 # 9007199254740992) * v)%Q.
(** 73-77, np.std *)
Definition stdev_of (rd : Q -> Q) (k : Z) (l : list Q) (r : Q) : Prop :=
  exists m v, mean_of rd k l m /\ mean_of rd k (map (fun x => let d := rd (x - m)%Q in rd (d * d)%Q) l) v /\ root_of v r.
(** 85-89; round(_, 3) of a numpy float64 is np.round, by multiplying, np.rint and dividing.  np.rint may break ties in any way. *)
Definition score_of (rd : Q -> Q) (k : Z) (m : Q) (bg : list Q) (v : Q) : Prop :=
  exists mean sd, mean_of rd k bg mean /\ stdev_of rd k bg sd /\
    if Qeq_bool sd 0 then v = 0%Q
    else exists i, nearest (rd (rd (rd (m - mean) / sd) * 1000)%Q) i /\ v = rd (inject_Z i / 1000)%Q.
(** The computation of fpfind is in doubles.  Simplifications: at most 1024 additions one after the other for at most 2^32 values (numpy's pairwise sums have fewer than 64); the values, from np.histogram or
    the inverse of the transform, are doubles, and what would be computed from others is left exact. *)
Definition double (x : Q) : Prop := (fl 53 x == x)%Q.
Definition in_doubles (M : fpu) : Prop := forall m bg, bg <> [] -> len bg <= 4294967296 ->
  (Forall double bg -> score_of (fl 53) 1024 m bg (zs M m bg)) /\ (~ Forall double bg -> zs M m bg = exact_zs m bg).
