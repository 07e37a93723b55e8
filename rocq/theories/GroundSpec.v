(** Specification: two recordings whose common events outnumber the accidental coincidences.  Nothing here refers to what the search finds on its way. *)
From Coq Require Import QArith Qabs Qround Qminmax.
From Verif Require Import Float Base UtilsModel FpfindModel AccuracySpec RoundedSpec WholeSpec.
Import ListNotations. Local Open Scope Z_scope.

(** ** The widths of the bins, which depend on the parameters only *)
Definition span (P : params) (res : Q) : Q := fl 53 (fl 53 (inject_Z (num_wraps P) * res) * inject_Z (num_bins P)).
Definition finer (P : params) (res q : Q) : Q := qmax (fl 53 (q / fl 53 (fl 53 (separation_duration P / span P res) / RES_REFINE_FACTOR))) (target_resolution P).
(** [q] is the width of an iteration after those with the widths [ws], the last one first *)
Inductive widths (P : params) (res : Q) : list Q -> Q -> Prop :=
| widths_0 : widths P res [] res
| widths_S ws q : widths P res ws q -> ~ (q == target_resolution P)%Q -> widths P res (q :: ws) (finer P res q).

(** ** How well the clock relation is known after these iterations *)
Section Known.
Variables (P : params) (D F j W : Q) (ws : list Q).
Definition freq_known : Q := freq_error U53 F (separation_duration P) W (map (wider U53 (num_bins P) j) ws).
Definition time_known : Q := (1 + (1 # 2 ^ 50)) * (time_error U53 F (separation_duration P) W (map (wider U53 (num_bins P) j) ws) D + (1 # 2 ^ 52) * (Qabs D + 100000000)).
(** by how much a corrected time can be off, and by how much the delays of common events can differ within a window *)
Definition off_by : Q := (1001 # 1000) * (time_known + freq_known * (separation_duration P + W) + j).
Definition blur : Q := (1001 # 1000) * (freq_known * (W + off_by) + j).
End Known.

(** ** Counting pairs of events *)
(** what the reference shows when the target shows [b] *)
Definition star (D F b : Q) : Q := ((b - D) / (1 + F))%Q.
Definition common (D F j0 : Q) (c : Q * Q) : bool := Qle_bool (Qabs (snd c - (D + (1 + F) * fst c))) j0.
(** in the window of length [w] from [s], widened by [m] on both sides *)
Definition time_in (s w m t : Q) : bool := Qle_bool (s - m) t && Qle_bool t (s + w + m).
Definition both_in (D F s w m : Q) (c : Q * Q) : bool := time_in s w m (fst c) && time_in s w m (star D F (snd c)).
(** what is left of [x] after whole turns of length [C] *)
Definition turn (C x : Q) : Q := (x - C * inject_Z (Qfloor (x / C)))%Q.
Definition commons (A B : list Q) (D F j0 s w m : Q) : Z :=
  len (filter (fun c => both_in D F s w (- m) c && common D F j0 c) (list_prod A B)).
(** the pairs of different events that have the delay [v], or up to [l] more, up to whole turns *)
Definition accidentals (A B : list Q) (D F j0 s w m C l v : Q) : Z :=
  len (filter (fun c => both_in D F s w m c && negb (common D F j0 c) && Qle_bool (turn C (star D F (snd c) - fst c - v)) l) (list_prod A B)).
(** At every delay there are fewer accidental coincidences than common events for each of the bins these can be spread over. *)
Definition outnumbered (e : Q) (P : params) (A B : list Q) (D F j0 j W : Q) (ws : list Q) (q w s : Q) : Prop :=
  let m := off_by P D F j W ws in let d := blur P D F j W ws in forall v,
  (inject_Z (Qfloor (2 * d / q) + 3) * (inject_Z (accidentals A B D F j0 s w m (inject_Z (num_bins P) * q) (2 * q + 2 * d) v) + 2 * e) < inject_Z (commons A B D F j0 s w m))%Q.
(** the rounding of the times in an iteration, for times up to [T] *)
Definition rounding (T D : Q) : Q := (1 # 2 ^ 50) * (T + Qabs D + 400000000).
(** Both windows, in every iteration: the delays left are within the range of the correlation and of the search. *)
Definition recorded_well (e : Q) (M : fpu) (P : params) (A B : list Q) (res D F j0 j W T : Q) : Prop :=
  (0 <= j0)%Q /\ (0 <= W)%Q /\ (separation_duration P <= T)%Q /\ (forall t, In t A \/ In t B -> Qabs t <= T)%Q /\
  exists a b, getitem A (-1) = Ok a /\ getitem B (-1) = Ok b /\ forall ws q, widths P res ws q ->
    let w := used_duration M P (qmin a b) (span P res) q in
    (w <= W)%Q /\ (j0 + inject_Z (len ws + 1) * rounding T D <= j)%Q /\
    (off_by P D F j W ws + q + (2049 # 2048) * j <= inject_Z (num_bins P) * q / 2)%Q /\ (off_by P D F j W ws + wider U53 (num_bins P) j q <= 100000000)%Q /\
    (Qabs F + freq_known P F j W (q :: ws) + U53 < 1 # 8192)%Q /\
    outnumbered e P A B D F j0 j W ws q w 0 /\ outnumbered e P A B D F j0 j W ws q w (separation_duration P).
(** The widths of all iterations that count: the last one is the target resolution, or the search gave up in a later iteration, which does not count. *)
Definition to_the_end (P : params) (res : Q) (ws : list Q) : Prop := exists ws' q, ws = q :: ws' /\ widths P res ws' q /\ (q == target_resolution P)%Q.
Definition reached (P : params) (res : Q) (ws : list Q) : Prop := (ws <> [] /\ exists q, widths P res ws q) \/ to_the_end P res ws.
(** After the first iteration what can be left of delay and frequency offset is not ten times as much as has been found by then, or below 10 ns and 10^-8. *)
Definition steady (P : params) (res D F j W : Q) : Prop := forall ws q, widths P res ws q -> ws <> [] ->
  (off_by P D F j W ws + wider U53 (num_bins P) j q <= (999 # 100) * Qmax (Qabs D - time_known P D F j W ws) 1)%Q /\
  (((1001 # 1000) * freq_known P F j W ws * (separation_duration P + W) + 2 * wider U53 (num_bins P) j q) / separation_duration P <=
    (999 # 100) * Qmax (Qabs F - freq_known P F j W ws) (1 # 1000000000))%Q.
