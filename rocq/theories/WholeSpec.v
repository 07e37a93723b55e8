(** Specification for whole runs of fpfind and freqcd on files whose coincidences stand out. *)
From Coq Require Import QArith Qabs.
From Verif Require Import Float Base TimestampsModel TimestampsSpec UtilsModel FpfindModel FpfindSpec MainModel MainSpec2 FreqcdSpec FreqcdCliSpec AccuracySpec PairSpec SignalSpec RoundedSpec CdRunSpec.
Local Open Scope Z_scope.

(** half a unit in the last place of 1, for float64 *)
Definition U53 : Q := 1 # 2 ^ 53.
(** Options of a search without precompensation, with any number of iterations. *)
Definition plain_search (o : options) : Prop :=
  0 < initial_res o /\ 0 < final_res o /\ 0 <= buffer_order o /\ 0 < o_wraps o /\ acquisition o < 2 ^ 53 /\ precomp o = None /\ fullscan o = false /\ (0 < sep_ns o)%Q.
(** What the search is told. *)
Definition told_search (o : options) : params := mkP (o_wraps o) (2 ^ buffer_order o) (inject_Z (final_res o)) (o_threshold o) (sep_ns o).
(** the duration of the data it looks at, before it knows how long they are *)
Definition asked_duration (M : fpu) (o : options) : Q := rs M (rs M (inject_Z (o_wraps o) * inject_Z (initial_res o)) * inject_Z (2 ^ buffer_order o)).
(** The bin widths [ws] are those of the iterations of the search on two recordings. *)
Definition widths_of (M : fpu) (o : options) (evA evB : list event) (ws : list Q) : Prop :=
  let A := since (common_start evA evB) evA in let B := since (common_start evA evB) evB in
  exists a b, getitem A (-1) = Ok a /\ getitem B (-1) = Ok b /\ ended M (told_search o) A (qmin a b) (asked_duration M o) (mkS B (inject_Z (initial_res o)) 0 1 true) ws.
(** The two recordings have events in common (the target's at D + (1 + F) times the reference's time, to within [j]), and these stand out in all that
    the search looks at. *)
Definition common_events (e : Q) (M : fpu) (o : options) (evA evB : list event) (D F j W : Q) : Prop :=
  let A := since (common_start evA evB) evA in let B := since (common_start evA evB) evB in
  Forall event_ok evA /\ Forall event_ok evB /\ evA <> [] /\ evB <> [] /\
  exists a b, getitem A (-1) = Ok a /\ getitem B (-1) = Ok b /\
  let last := qmin a b in let dur := asked_duration M o in
  forall s ws k, history M (told_search o) A last dur (mkS B (inject_Z (initial_res o)) 0 1 true) s ws -> doublings (told_search o) ws (resolution s) k ->
    clear_state U53 e (rt M) (told_search o) A D F j W (used_duration M (told_search o) last dur (resolution s)) s k.
(** the errors of the search, after bins of the widths [ws] *)
Definition search_freq_error (o : options) (F j W : Q) (ws : list Q) : Q := freq_error U53 F (sep_ns o) W (map (wider U53 (2 ^ buffer_order o) j) ws).
Definition search_time_error (o : options) (D F j W : Q) (ws : list Q) : Q := time_error U53 F (sep_ns o) W (map (wider U53 (2 ^ buffer_order o) j) ws) D.
(** A command line of freqcd with the correction [line], reading a file of events and not overwriting it. *)
Definition corrects_with (args : list (list Z)) (ss : list setting) (line : list Z) : Prop :=
  writes args ss /\ Forall good ss /\ ~ In Help ss /\ last_of corr_of ss = Some line /\ decimal_of ss = false /\ last_of freq_of ss = None /\ separate (last_of in_of ss) (last_of out_of ss).
(** Two events, with times [t] and [u] in the target and [a] and [b] in the reference, all in 1/256 ns, and corrected to [t'] and [u']: they are as far apart as in
    the reference, up to the jitter [j], the error [e] of the frequency over the time since the first event [t0], and 3/2 unit for each of the [n] and [m] batches. *)
Definition as_apart (e j : Q) (t0 n m t u t' u' : Z) (a b : Q) : Prop :=
  (Qabs (inject_Z (t' - u') - (a - b)) <= e * (Qabs (inject_Z (t - t0)) + Qabs (inject_Z (u - t0))) + (3 # 2) * inject_Z (n + m) + 2 * (2049 # 2048) * j)%Q.
