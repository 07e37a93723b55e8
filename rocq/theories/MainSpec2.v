(** Specification for fpfind run on two timestamp files. *)
From Coq Require Import QArith.
From Coq Require Import Qabs.
From Verif Require Import Float Base TimestampsModel TimestampsSpec UtilsModel UtilsSpec FpfindModel FpfindSpec MainModel MainProofs3.
Local Open Scope Z_scope.

(** Times in ns since device time [S] (in 1/256 ns) of the events from then on. *)
Definition since (S : Z) (evs : list event) : list Q := map (fun e => inject_Z (fst e - S) / 256)%Q (filter (fun e => S <=? fst e) evs).
(** The first time at which both devices have started. *)
Definition common_start (evA evB : list event) : Z := Z.max (fst (hd (0, 0) evA)) (fst (hd (0, 0) evB)).
(** The line shows the offsets [dt] and [df], exchanged and in the units asked for by [flag]. *)
Definition shows_offsets (repr : Q -> list Z) (flag : Z) (dt df : Q) (line : list Z) : Prop :=
  let c := if Z.testbit flag 0 then inverted (fl 53) (dt, df) else (dt, df) in
  exists freq time n, line = freq ++ (if Z.testbit flag 2 then [] else 9 :: time) /\
    (if Z.testbit flag 1 then exists k, decimal freq k /\ nearest (fl 53 (snd c * inject_Z (2 ^ 34))%Q) k else freq = repr (snd c)) /\
    decimal time n /\ nearest (if Z.testbit flag 3 then fl 53 (fst c * 8)%Q else fst c) n.
(** The window the search uses (2^q bins of the resolution, times the wraps) and the separation, in ns. *)
Definition acquisition (o : options) : Z := initial_res o * 2 ^ buffer_order o * o_wraps o.
Definition sep_ns (o : options) : Q := fl 53 (separation o * inject_Z (acquisition o)).
(** Options of a search that ends in its first iteration, without precompensation. *)
Definition one_iteration (o : options) : Prop :=
  0 < initial_res o /\ final_res o = initial_res o /\ 1 <= buffer_order o /\ 0 < o_wraps o /\ acquisition o < 2 ^ 53 /\
  precomp o = None /\ fullscan o = false /\ device_time 54 (sep_ns o) /\ (0 < sep_ns o)%Q.
(** In the window at the start and in the one after the separation, both lasting to the end, the target recorded the events
    of the reference, [s1] and [s2] bins later (and whole turns), in any order; these events have no period and the peak
    they give is significant. *)
Definition same_events (M : fpu) (o : options) (evA evB : list event) (s1 s2 : Z) : Prop :=
  let n := 2 ^ buffer_order o in let W := inject_Z (acquisition o) in let res := inject_Z (initial_res o) in
  let A := since (common_start evA evB) evA in let B := since (common_start evA evB) evB in
  Forall event_ok evA /\ Forall event_ok evB /\ evA <> [] /\ evB <> [] /\ 0 <= s1 < n /\ 0 <= s2 < n /\
  (exists a b, getitem A (-1) = Ok a /\ getitem B (-1) = Ok b /\ (W <= a)%Q /\ (W <= b)%Q) /\
  (forall s k, (s = 0%Q /\ k = s1) \/ (s = sep_ns o /\ k = s2) -> window s W A <> [] /\ moved n res k (window s W A) (window s W B) /\
     forall h, histogram (map (fun t => t - s)%Q (window s W A)) n res = Ok h -> aperiodic h) /\
  (forall ys, correlate M (mkP (o_wraps o) n res (o_threshold o) (sep_ns o)) A B 0 W res = Ok ys ->
     exists sig, sig_of M ys res = Ok sig /\ (o_threshold o <= sig)%Q /\ ~ (sig == 0)%Q).
(** The delay in ns of a shift by [s] bins. *)
Definition delay_ns (o : options) (s : Z) : Z := centered (2 ^ buffer_order o) s * initial_res o.
(** The clock ratio behind two such delays. *)
Definition ratio (o : options) (s1 s2 : Z) : Q := (inject_Z (delay_ns o s2 - delay_ns o s1) / sep_ns o)%Q.
