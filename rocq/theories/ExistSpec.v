(** Specification: when the search must find something. *)
From Coq Require Import QArith Qabs.
From Verif Require Import Float Base UtilsModel UtilsSpec FpfindModel FpfindSpec AccuracySpec SignalSpec RoundedSpec WholeSpec SwapSpec.
Local Open Scope Z_scope.

(** In all that the search goes through the delay left is below 100 ms and the frequency, with the error after the iteration, below 2^-13. *)
Definition within_reach (M : fpu) (P : params) (A B : list Q) (res D F j W : Q) : Prop :=
  exists a b, getitem A (-1) = Ok a /\ getitem B (-1) = Ok b /\
  let last := qmin a b in let dur := rs M (rs M (inject_Z (num_wraps P) * res) * inject_Z (num_bins P))%Q in
  forall s ws, history M P A last dur (mkS B res 0 1 true) s ws ->
    (forall tau, (0 <= tau <= W)%Q -> (Qabs (remaining D F (dt s) (f s) tau) + wider U53 (num_bins P) j (resolution s) <= 100000000)%Q) /\
    (Qabs F + freq_error U53 F (separation_duration P) W (map (wider U53 (num_bins P) j) (resolution s :: ws)) + U53 < 1 # 8192)%Q.
(** The peak of the first correlation, at the initial resolution, is significant. *)
Definition significant (M : fpu) (P : params) (A B : list Q) (res : Q) : Prop :=
  exists a b, getitem A (-1) = Ok a /\ getitem B (-1) = Ok b /\
  let dur := rs M (rs M (inject_Z (num_wraps P) * res) * inject_Z (num_bins P))%Q in
  forall ys sig, correlate M P A B 0 (used_duration M P (qmin a b) dur res) res = Ok ys -> sig_of M ys res = Ok sig -> (0 < sig)%Q /\ (threshold P <= sig)%Q.
(** As [stand_out], in groups of one cell only: a significant peak needs no wider groups. *)
Definition stand_out_singly (e : Q) (M : fpu) (P : params) (A B : list Q) (res D F j W : Q) : Prop :=
  exists a b, getitem A (-1) = Ok a /\ getitem B (-1) = Ok b /\
  let last := qmin a b in let dur := rs M (rs M (inject_Z (num_wraps P) * res) * inject_Z (num_bins P))%Q in
  forall s ws, history M P A last dur (mkS B res 0 1 true) s ws -> clear_state U53 e (rt M) P A D F j W (used_duration M P last dur (resolution s)) s 0.
(** The duration of the data looked at, and that the separation is longer by more than the factor of the refinement of the resolution, so that each
    iteration refines it. *)
Definition asked (M : fpu) (P : params) (res : Q) : Q := rs M (rs M (inject_Z (num_wraps P) * res) * inject_Z (num_bins P)).
Definition ends_surely (M : fpu) (P : params) (res : Q) : Prop := (0 < asked M P res)%Q /\ (asked M P res * RES_REFINE_FACTOR * (1 + (1 # 2 ^ 49)) <= separation_duration P)%Q.
