(** Specification of the numerical functions of lib/utils.py. *)
From Coq Require Import QArith Qabs Qround.
From Verif Require Import Float Base TimestampsModel TimestampsSpec.
Local Open Scope Z_scope.

(** [m] is the largest element of [l] *)
Definition largest (m : Q) (l : list Q) : Prop := In m l /\ forall x, In x l -> (x <= m)%Q.
Definition from (s : Q) (ts : list Q) : list Q := filter (fun t => Qle_bool s t) ts.
(** s <= t < s + d *)
Definition window (s d : Q) (ts : list Q) : list Q := filter (fun t => Qle_bool s t && negb (Qle_bool (s + d) t)) ts.
(** A whole number of 4 ps units below 2^b, in ns. *)
Definition device_time (b : Z) (t : Q) : Prop := exists k, t == inject_Z k / inject_Z 256 /\ 0 <= k < 2 ^ b.

(** The event at [t] belongs to bin [k] of [n] bins of width [res]. *)
Definition in_bin (n : Z) (res : Q) (k : Z) (t : Q) : Prop :=
  exists q, (inject_Z (q * n + k) * res <= t)%Q /\ (t < inject_Z (q * n + k + 1) * res)%Q.
(** [c] is the number of elements of [l] satisfying [P] *)
Inductive counts {A} (P : A -> Prop) : list A -> Z -> Prop :=
| counts_nil : counts P [] 0
| counts_yes x l c : P x -> counts P l c -> counts P (x :: l) (c + 1)
| counts_no x l c : ~ P x -> counts P l c -> counts P (x :: l) c.

(** The correlation at lag [k] of two histograms of [n] bins. *)
Fixpoint sum_below (n : nat) (g : nat -> Z) : Z :=
  match n with O => 0 | S k => sum_below k g + g k end.
Definition correlation (a b : list Z) (k : nat) : Z :=
  sum_below (length a) (fun i => nth i a 0 * nth ((i + k) mod length a) b 0).
(** [b] is [a] moved by [s] bins around the circle *)
Definition shifted (a b : list Z) (s : nat) : Prop :=
  length b = length a /\ forall i, (i < length a)%nat -> nth ((i + s) mod length a) b 0 = nth i a 0.
Definition aperiodic (a : list Z) : Prop := forall k, (0 < k < length a)%nat ->
  exists i, (i < length a)%nat /\ nth ((i + k) mod length a) a 0 <> nth i a 0.
(** computed with an error below one half per bin *)
Definition near_correlation (a b : list Z) (ys : list Q) : Prop :=
  length ys = length a /\ forall k, (k < length a)%nat -> (Qabs (nth k ys 0 - inject_Z (correlation a b k)) < 1 # 2)%Q.
(** The position of the first maximum. *)
Definition first_peak (ys : list Q) (p : Z) : Prop :=
  0 <= p < len ys /\ (forall j, 0 <= j < len ys -> (nth (Z.to_nat j) ys 0 <= nth (Z.to_nat p) ys 0)%Q) /\
  (forall j, 0 <= j < p -> (nth (Z.to_nat j) ys 0 < nth (Z.to_nat p) ys 0)%Q).
(** evenly spaced times from 0 *)
Definition even_axis (res : Q) (xs : list Q) : Prop :=
  forall i, (i < length xs)%nat -> (nth i xs 0 == inject_Z (Z.of_nat i) * res)%Q.
(** the lag [s] of [n] bins taken in the half-open interval around 0, the negative one at equal distance *)
Definition centered (n s : Z) : Z := if 2 * s <? n then s else s - n.
(** values at the given positions *)
Definition at_positions (l : list Q) (ps : list Z) : list Q := map (fun i => nth (Z.to_nat i) l 0%Q) ps.
(** The split of a histogram made by get_statistics: positions of the signal and of the background. *)
Definition splits (hist sg bg : list Q) (S B : list Z) : Prop :=
  sg = at_positions hist S /\ bg = at_positions hist B /\ NoDup (S ++ B) /\ Forall (fun i => 0 <= i < len hist) (S ++ B).
(** [n] is sqrt(x) rounded to an integer *)
Definition near_sqrt (x : Q) (n : Z) : Prop :=
  0 <= n /\ (x <= (inject_Z n + (1 # 2)) * (inject_Z n + (1 # 2)))%Q /\
  (n = 0 \/ ((inject_Z n - (1 # 2)) * (inject_Z n - (1 # 2)) <= x)%Q).
(** mean and variance of a list *)
Definition is_mean (l : list Q) (m : Q) : Prop := (inject_Z (len l) * m == fold_right Qplus 0 l)%Q.
Definition is_variance (l : list Q) (v : Q) : Prop :=
  exists m, is_mean l m /\ is_mean (map (fun x => (x - m) * (x - m))%Q l) v.
(** Possible results of np.argpartition(hist, -k)[-k:]: the positions of [k] largest values. *)
Definition top_positions (hist : list Q) (k : Z) (part : list Z) : Prop :=
  len part = k /\ NoDup part /\ Forall (fun i => 0 <= i < len hist) part /\
  forall i j, In i part -> 0 <= j < len hist -> ~ In j part -> (nth (Z.to_nat j) hist 0 <= nth (Z.to_nat i) hist 0)%Q.
Definition descending (l : list Q) : Prop := forall i j, (i < j < length l)%nat -> (nth j l 0 <= nth i l 0)%Q.
