(** Specification of the offset search. *)
From Coq Require Import QArith Qabs Qround.
From Verif Require Import Float Base TimestampsModel TimestampsSpec UtilsModel FpfindModel.
Local Open Scope Z_scope.

(** The correction of a time by an offset (dt, df), and by several in turn. *)
Definition corrected (c : Q * Q) (t : Q) : Q := ((t - fst c) / (1 + snd c))%Q.
Definition corrected_all (cs : list (Q * Q)) (t : Q) : Q := fold_left (fun t c => corrected c t) cs t.
(** arithmetic without rounding *)
Definition exact_fpu (M : fpu) : Prop := (forall x, rt M x == x)%Q /\ (forall x, rs M x == x)%Q.

(** Repeated pairwise sums. *)
Inductive merged (M : fpu) : list Q -> list Q -> Prop :=
| merged_0 ys : merged M ys ys
| merged_S ys ys1 ys2 : merge M ys = Ok ys1 -> merged M ys1 ys2 -> merged M ys ys2.
(** The correction found in state [s]: the delay of the first part of the data (in the first iteration possibly of
    merged bins) and the drift to the delay after the separation. *)
Definition found (M : fpu) (P : params) (ats : list Q) (s : fstate) (c : Q * Q) : Prop :=
  exists w res ys ys1 ys2 d2,
    correlate M P ats (bts s) 0 w (resolution s) = Ok ys /\ merged M ys ys1 /\ delay_of M (len ys1) ys1 res = Ok (fst c) /\
    correlate M P ats (bts s) (separation_duration P) w res = Ok ys2 /\ delay_of M (num_bins P) ys2 res = Ok d2 /\
    (snd c == (d2 - fst c) / separation_duration P)%Q.
(** The refinements made: each state's correction is found from its target times and applied to them. *)
Inductive steps (M : fpu) (P : params) (ats : list Q) : fstate -> list (Q * Q) -> fstate -> Prop :=
| steps_0 s : steps M P ats s [] s
| steps_S s c s1 cs s2 : found M P ats s c -> same_values (bts s1) (map (corrected c) (bts s)) ->
    steps M P ats s1 cs s2 -> steps M P ats s (c :: cs) s2.

(** the correlation has as many values as the histograms, if that is an even number *)
Definition good_xc (M : fpu) : Prop := forall h k, length h = length k -> Z.odd (len h) = false -> length (xc M h k) = length h.
(** [h] is a histogram of [n] bins with at most [a] events *)
Definition histogram_of (n a : Z) (h : list Z) : Prop := len h = n /\ Forall (fun v => 0 <= v) h /\ fold_right Z.add 0 h <= a.
(** the exceptions that may be raised *)
Definition errs {A} (es : list exn) (m : pyres A) : Prop := forall e, m = Err e -> In e es.
(** Standard deviation 0 of a single value. *)
Definition good_zs (M : fpu) : Prop := forall m b, (zs M m [b] == 0)%Q.
Fixpoint qpow (c : Q) (n : nat) : Q := match n with O => 1%Q | S k => (c * qpow c k)%Q end.
(** A step divides the resolution at least by 1 / c. *)
Definition shrinks (M : fpu) (sep d c : Q) : Prop :=
  (0 <= c)%Q /\ (c < 1)%Q /\ forall x, (0 < x)%Q -> (rs M (x / rs M (rs M (sep / d) / RES_REFINE_FACTOR)) <= c * x)%Q.

(** the target times tried with a precompensation *)
Definition attempt (rt rs : Q -> Q) (df0 : Q) (bob : list Q) : list Q := map (fun t => rt (rt (t - 0) / rs (1 + df0))%Q) bob.
(** 0, 1, -1, ..., m, -m *)
Definition zigzag (m : nat) : list Z := 0 :: flat_map (fun k => [Z.of_nat k; - Z.of_nat k]) (seq 1 m).
(** [m] is the integer part of x / y *)
Definition quotient (x y : Q) (m : Z) : Prop := (inject_Z m * y <= x)%Q /\ (x < inject_Z (m + 1) * y)%Q.

(** [s] are the decimal digits of [n]. *)
Definition digit (c : Z) : Prop := 48 <= c <= 57.
Definition value (s : list Z) : Z := fold_left (fun v c => 10 * v + (c - 48)) s 0.
Definition decimal (s : list Z) (n : Z) : Prop :=
  exists ds, s = (if n <? 0 then [45] else []) ++ ds /\ ds <> [] /\ Forall digit ds /\ value ds = Z.abs n /\ (n <> 0 -> hd 0 ds <> 48) /\ (n = 0 -> ds = [48]).
(** an integer nearest to [x] *)
Definition nearest (x : Q) (n : Z) : Prop := (Qabs (inject_Z n - x) <= 1 # 2)%Q.
(** a field is not empty and does not end in a blank *)
Definition field_ok (s : list Z) : Prop := exists r c, s = r ++ [c] /\ is_blank c = false.
(** the offsets of the exchanged sides as printed with bit 0 *)
Definition inverted (rs : Q -> Q) (c : Q * Q) : Q * Q :=
  (rs (rs (- fst c) * rs (1 + snd c))%Q, rs (rs (1 / rs (1 + snd c)) - 1)%Q).
