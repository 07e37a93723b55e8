(** Specification: coincidences that stand out in the data, and what the search then returns. *)
From Coq Require Import QArith Qabs Qround Qminmax.
From Verif Require Import Float Base TimestampsModel TimestampsSpec UtilsModel UtilsSpec FpfindModel FpfindSpec AccuracySpec PairSpec.
Local Open Scope Z_scope.

(** The target shows D + (1 + F) tau when the reference shows tau: the delay left at tau, and the target times left,
    after the correction by [dt] and the factor [f]. *)
Definition remaining (D F dt f tau : Q) : Q := ((D + (1 + F) * tau - dt) / f - tau)%Q.
Definition shown (dt f : Q) (B : list Q) : list Q := map (fun t => (t - dt) / f)%Q B.
(** [a] and [b], counted from [s], are times of the same event on the two sides, up to a jitter of [j] *)
Definition coincident (D F j dt f s a b : Q) : Prop := (Qabs (dt + f * (s + b) - (D + (1 + F) * (s + a))) <= j)%Q.
(** Some group of lags has more pairs than every group without a coincidence, by more than the counting error. *)
Definition signal (e : Q) (n : Z) (res : Q) (m : Z) (A B : list Q) (T : Q -> Q -> Prop) : Prop :=
  exists g0, 0 <= g0 < n / m /\ forall g, 0 <= g < n / m -> (forall a b, In a A -> In b B -> T a b -> lag n res a b / m <> g) ->
    (inject_Z (pairs n res m A B g) + 2 * e * inject_Z m < inject_Z (pairs n res m A B g0))%Q.
(** In both windows, which are not longer than [W], and with the delays left within the range of the correlation. *)
Definition clear (e : Q) (P : params) (A B : list Q) (D F j dur last W res dt f : Q) (k : Z) : Prop :=
  let n := num_bins P in let sep := separation_duration P in let r := (res * inject_Z (2 ^ k))%Q in
  (forall tau, (0 <= tau <= W)%Q \/ (sep <= tau <= sep + W)%Q -> (Qabs (remaining D F dt f tau) + (r + RATIO * j) <= inject_Z n * res / 2)%Q) /\
  forall w, window_length n res dur last w -> (w <= W)%Q /\
    signal e n res (2 ^ k) (view 0 w A) (view 0 w (shown dt f B)) (coincident D F j dt f 0) /\
    signal e n r 1 (view sep w A) (view sep w (shown dt f B)) (coincident D F j dt f sep).
Definition no_width (ws : list Q) : bool := match ws with [] => true | _ => false end.
(** The offset [dt], factor [f] and resolution [q] after iterations with cells of the widths [ws], the last one first. *)
Inductive stage (e : Q) (P : params) (A B : list Q) (dur last res : Q) : list Q -> Q -> Q -> Q -> Prop :=
| stage_0 : stage e P A B dur last res [] res 0 1
| stage_S ws q dt f r d1 d2 dt' f' q' : stage e P A B dur last res ws q dt f ->
    measured e P A dur last (no_width ws) q (shown dt f B) r d1 d2 -> (ws <> [] -> ~ implausible P dt f d1 d2) -> ~ (r == target_resolution P)%Q ->
    (dt' == dt + f * d1)%Q -> (f' == f * (1 + (d2 - d1) / separation_duration P))%Q -> (Qabs (f' - 1) < 1 # 8192)%Q ->
    (q' == Qmax (r / (separation_duration P / dur / RES_REFINE_FACTOR)) (target_resolution P))%Q ->
    stage e P A B dur last res (r :: ws) q' dt' f'.
(** The widths behind a result: ending with the target resolution, or interrupted after at least one iteration. *)
Definition widths_used (e : Q) (P : params) (A B : list Q) (dur last res : Q) (ws : list Q) : Prop :=
  exists ws' q dt f r d1 d2, stage e P A B dur last res ws' q dt f /\ measured e P A dur last (no_width ws') q (shown dt f B) r d1 d2 /\
    ((ws = ws' /\ ws <> [] /\ implausible P dt f d1 d2) \/
     (ws = r :: ws' /\ (ws' <> [] -> ~ implausible P dt f d1 d2) /\ (r == target_resolution P)%Q)).
(** the number of doublings of the cells that are possible in a stage *)
Definition doublings (P : params) (ws : list Q) (q : Q) (k : Z) : Prop :=
  0 <= k /\ (ws <> [] -> k = 0) /\ num_bins P mod 2 ^ k = 0 /\ (k = 0 \/ (q * inject_Z (2 ^ k) <= 10000)%Q).
(** the widths with the jitter *)
Definition widened (j : Q) (ws : list Q) : list Q := map (fun r => r + RATIO * j)%Q ws.
(** the condition on the events, in every iteration *)
Definition always_clear (e : Q) (P : params) (A B : list Q) (res D F j W : Q) : Prop := forall last dur ws q dt f k,
  last_common A B last -> (dur == inject_Z (num_wraps P) * res * inject_Z (num_bins P))%Q ->
  stage e P A B dur last res ws q dt f -> doublings P ws q k -> clear e P A B D F j dur last W q dt f k.
(** [x] and [y] differ from [D] and [F] by at most the errors of the widths used, times [c] *)
Definition found_within (c e : Q) (P : params) (A B : list Q) (res D F j W : Q) (x y : Q) : Prop := exists last dur ws,
  last_common A B last /\ (dur == inject_Z (num_wraps P) * res * inject_Z (num_bins P))%Q /\ widths_used e P A B dur last res ws /\
  (Qabs y <= c * freq_error 0 F (separation_duration P) W (widened j ws))%Q /\ (Qabs x <= c * time_error 0 F (separation_duration P) W (widened j ws) D)%Q.
