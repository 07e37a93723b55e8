(** Specification for searches with precompensation. *)
From Coq Require Import QArith Qabs.
From Verif Require Import Float Base TimestampsModel TimestampsSpec UtilsModel FpfindModel FpfindSpec MainModel MainSpec2 AccuracySpec PairSpec SignalSpec RoundedSpec WholeSpec.
Local Open Scope Z_scope.

(** Options of a search over the frequencies given with -P (or the single one 0), ending with the first one that is found. *)
Definition any_search (o : options) : Prop :=
  0 < initial_res o /\ 0 < final_res o /\ 0 <= buffer_order o /\ 0 < o_wraps o /\ acquisition o < 2 ^ 53 /\ fullscan o = false /\ (0 < sep_ns o)%Q.
(** the frequencies tried; at most half of the nominal one *)
Definition tried (rs : Q -> Q) (o : options) : list Q :=
  match precomp o with None => [0%Q] | Some (start, stop, step, ordered) => generate_precompensations rs start stop step ordered end.
Definition moderate (l : list Q) : Prop := forall x, In x l -> (Qabs x <= 1 # 2)%Q.
(** the clock ratio 1 + df0 as the program has it, and the times of the target divided by it *)
Definition clock (df0 : Q) : Q := fl 53 (1 + df0).
Definition precompensated (p : Z) (df0 : Q) (B : list Q) : list Q := map (fun t => fl p (t / clock df0))%Q B.
(** What is left of the relation D, F. *)
Definition D_left (df0 D : Q) : Q := (D / clock df0)%Q.
Definition F_left (df0 F : Q) : Q := ((1 + F) / clock df0 - 1)%Q.
(** [common_events] and [widths_of], for the precompensated target *)
Definition common_after (e : Q) (M : fpu) (p : Z) (o : options) (evA evB : list event) (df0 D F j W : Q) : Prop :=
  let A := since (common_start evA evB) evA in let B := precompensated p df0 (since (common_start evA evB) evB) in
  exists a b, getitem A (-1) = Ok a /\ getitem B (-1) = Ok b /\
  let last := qmin a b in let dur := asked_duration M o in
  forall s ws k, history M (told_search o) A last dur (mkS B (inject_Z (initial_res o)) 0 1 true) s ws -> doublings (told_search o) ws (resolution s) k ->
    clear_state U53 e (rt M) (told_search o) A (D_left df0 D) (F_left df0 F) j W (used_duration M (told_search o) last dur (resolution s)) s k.
Definition widths_after (M : fpu) (p : Z) (o : options) (evA evB : list event) (df0 : Q) (ws : list Q) : Prop :=
  let A := since (common_start evA evB) evA in let B := precompensated p df0 (since (common_start evA evB) evB) in
  exists a b, getitem A (-1) = Ok a /\ getitem B (-1) = Ok b /\ ended M (told_search o) A (qmin a b) (asked_duration M o) (mkS B (inject_Z (initial_res o)) 0 1 true) ws.
(** Recordings that have something in common. *)
Definition overlapping (evA evB : list event) : Prop :=
  Forall event_ok evA /\ Forall event_ok evB /\ evA <> [] /\ evB <> [] /\ since (common_start evA evB) evA <> [] /\ since (common_start evA evB) evB <> [].
