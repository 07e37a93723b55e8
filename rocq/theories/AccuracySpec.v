(** Accuracy of the offset search over several iterations. *)
From Coq Require Import QArith Qabs Qminmax.
From Verif Require Import Float Base UtilsModel FpfindModel FpfindSpec.
Local Open Scope Q_scope.

(** The target shows D + (1 + F) * tau when the reference shows tau.  What is left of the delay at tau after the
    corrections accumulated in [s]. *)
Definition delay_left (D F : Q) (s : fstate) (tau : Q) : Q := corrected (dt s, f s - 1) (D + (1 + F) * tau) - tau.

(** The delays [d1] at the start and [d2] after the separation that the search finds in state [s], with bins of width [r]. *)
Definition finds (M : fpu) (P : params) (ats : list Q) (e d : Q) (s : fstate) (r d1 d2 : Q) : Prop :=
  let w := used_duration M P e d (resolution s) in
  exists ys dt1 sig ys2,
    correlate M P ats (bts s) 0 w (resolution s) = Ok ys /\ delay_of M (num_bins P) ys (resolution s) = Ok dt1 /\
    sig_of M ys (resolution s) = Ok sig /\
    (if is_first s then confirm (S (length ys)) M P ys (resolution s) dt1 sig else Ok (resolution s, dt1)) = Ok (r, d1) /\
    correlate M P ats (bts s) (separation_duration P) w r = Ok ys2 /\ delay_of M (num_bins P) ys2 r = Ok d2.
(** [s] is a state the search goes through; [ws] are the bin widths used until then, the last one first. *)
Inductive history (M : fpu) (P : params) (ats : list Q) (e d : Q) (s0 : fstate) : fstate -> list Q -> Prop :=
| history_0 : history M P ats e d s0 s0 []
| history_S s ws r d1 d2 s' : history M P ats e d s0 s ws -> finds M P ats e d s r d1 d2 ->
    iteration M P ats e d s = Ok (Again s') -> history M P ats e d s0 s' (r :: ws).
(** One of the delays is more than ten times the delay found so far, which counts as 1 ns at least, or the frequency offset they give more than ten times
    the one found so far, which counts as 10^-9 at least; ten up to rounding. *)
Definition spurious (P : params) (s : fstate) (d1 d2 : Q) : Prop :=
  let limit x least := (999 # 100) * Qmax (Qabs x) least in
  limit (dt s) 1 < Qabs d1 \/ limit (dt s) 1 < Qabs d2 \/ limit (f s - 1) (1 # 1000000000) < Qabs ((d2 - d1) / separation_duration P).
(** [ws] are the bin widths behind the value returned: the last one is the target resolution, or the search gave up in an
    iteration, which is not the first one and does not count, because what it found there seemed spurious. *)
Definition ended (M : fpu) (P : params) (ats : list Q) (e d : Q) (s0 : fstate) (ws : list Q) : Prop :=
  exists s v df, iteration M P ats e d s = Ok (Return v df) /\
  ((history M P ats e d s0 s ws /\ ws <> [] /\ exists r d1 d2, finds M P ats e d s r d1 d2 /\ spurious P s d1 d2) \/
   exists r d1 d2 ws', ws = r :: ws' /\ history M P ats e d s0 s ws' /\ finds M P ats e d s r d1 d2 /\ r == target_resolution P).
(** Both are true delays, to one bin width, at some time of their windows, which are not longer than [W]. *)
Definition genuine (D F sep W : Q) (s : fstate) (r d1 d2 : Q) : Prop :=
  exists w1 w2, 0 <= w1 <= W /\ 0 <= w2 <= W /\ 0 <= r /\
    Qabs (d1 - delay_left D F s w1) <= r /\ Qabs (d2 - delay_left D F s (sep + w2)) <= r.
(** Scalars are rounded with relative error [u]: 0 for exact arithmetic, 2^-53 for float64. *)
Definition rounds (u : Q) (M : fpu) : Prop := forall x, Qabs (rs M x - x) <= u * Qabs x.
(** more than the largest clock ratio allowed *)
Definition RATIO : Q := 4097 # 4096.
(** The frequency error after iterations with bins of the widths [ws], the last one first: it shrinks by W / sep each
    time, down to the drift of two bins over the separation and three roundings. *)
Fixpoint freq_error (u F sep W : Q) (ws : list Q) : Q :=
  match ws with
  | [] => Qabs F
  | r :: rest => (freq_error u F sep W rest * W + 2 * RATIO * r) / sep + 3 * u
  end.
Definition time_error (u F sep W : Q) (ws : list Q) (D : Q) : Q :=
  match ws with
  | [] => Qabs D
  | r :: rest => freq_error u F sep W rest * W + RATIO * r
  end.
Fixpoint qpower (x : Q) (k : nat) : Q := match k with O => 1 | S k => x * qpower x k end.
