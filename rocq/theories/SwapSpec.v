(** Specification: the search with the reference and the target exchanged, as in tests/test_fpfind_timestamp.py and tests/test_fpfind_epoch.py. *)
From Coq Require Import QArith Qabs.
From Verif Require Import Float Base UtilsModel UtilsSpec FpfindModel FpfindSpec AccuracySpec SignalSpec RoundedSpec WholeSpec.
Local Open Scope Z_scope.

(** Events common to [A] and [B] (those of [B] at D + (1 + F) times the time of [A], to within [j]) stand out in all that the search looks at. *)
Definition stand_out (e : Q) (M : fpu) (P : params) (A B : list Q) (res D F j W : Q) : Prop :=
  exists a b, getitem A (-1) = Ok a /\ getitem B (-1) = Ok b /\
  let last := qmin a b in let dur := rs M (rs M (inject_Z (num_wraps P) * res) * inject_Z (num_bins P))%Q in
  forall s ws k, history M P A last dur (mkS B res 0 1 true) s ws -> doublings P ws (resolution s) k ->
    clear_state U53 e (rt M) P A D F j W (used_duration M P last dur (resolution s)) s k.
(** the widths of the cells used by the search *)
Definition cells_of (M : fpu) (P : params) (A B : list Q) (res : Q) (ws : list Q) : Prop :=
  exists a b, getitem A (-1) = Ok a /\ getitem B (-1) = Ok b /\
  ended M P A (qmin a b) (rs M (rs M (inject_Z (num_wraps P) * res) * inject_Z (num_bins P))%Q) (mkS B res 0 1 true) ws.
(** the errors of the search, and of the last roundings *)
Definition freq_off (P : params) (F j W : Q) (ws : list Q) : Q :=
  let E := freq_error U53 F (separation_duration P) W (map (wider U53 (num_bins P) j) ws) in (E + (1 # 2 ^ 50) * (1 + Qabs F + E))%Q.
Definition time_off (P : params) (D F j W : Q) (ws : list Q) (dt : Q) : Q :=
  (time_error U53 F (separation_duration P) W (map (wider U53 (num_bins P) j) ws) D + (1 # 2 ^ 50) * (Qabs dt + 100000000))%Q.
(** the clock relation seen from the other side *)
Definition other_D (D F : Q) : Q := (- D / (1 + F))%Q.
Definition other_F (F : Q) : Q := (1 / (1 + F) - 1)%Q.
(** what the tests compute *)
Definition freq_invariance (df1 df2 : Q) : Q := ((df1 + 1) * (df2 + 1))%Q.
Definition time_invariance (dt1 df1 dt2 : Q) : Q := (dt1 * (1 + df1) + dt2)%Q.
