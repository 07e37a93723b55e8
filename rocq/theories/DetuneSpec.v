(** Specification for generate_freqdetuneg2. *)
From Coq Require Import QArith Qabs.
From Verif Require Import Float Base TimestampsModel TimestampsSpec PipeSpec.
Local Open Scope Z_scope.

Definition channel (c : Z) (evs : list event) : list event := filter (fun e => snd e =? c) evs.
(** [t'] is the reading, at [t], of a clock that agreed at [t0] and is fast by [R]; in 4 ps units, cut to whole ones *)
Definition fast (R : Q) (t0 t t' : Z) : Prop :=
  (Qabs (inject_Z t' - (inject_Z t0 + inject_Z (t - t0) * (1 + R))) <= (257 # 256) + (1 # 2 ^ 52) * inject_Z (t - t0))%Q.
(** ratios of the files c4e10.dat ... c4e3.dat, read off their names *)
Definition names : list Z := [10; 9; 8; 7; 6; 5; 4; 3].
Definition file_ratio (n : Z) : Q := (1 / inject_Z (10 ^ n))%Q.
(** the file of [evs]' channel 8, fast by [R] *)
Definition fast_file (t0 : Z) (evs : list event) (n : Z) (file : list Z) : Prop :=
  exists out, file = encode (A1 true) (map word_of out) /\ Forall event_ok out /\
    Forall2 (fun e e' => snd e' = 8 /\ fast (file_ratio n) t0 (fst e) (fst e')) (channel 8 evs) out /\
    (nondecr (map fst (channel 8 evs)) -> nondecr (map fst out)).
(** [t'], from [t1] on, is as long after [t1] as [t] is after [t2], where [t0] is the first time of the recording and freqcd read
    its input in [n] pieces *)
Definition restored (t0 t1 t2 n t t' : Z) : Prop :=
  (Qabs (inject_Z (t' - t1) - inject_Z (t - t2)) <= (1 # 2 ^ 34) * inject_Z (t - t0) + 3 + (3 # 2) * inject_Z n)%Q.
