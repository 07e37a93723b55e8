(** Specification for fpfind run on epoch directories. *)
From Coq Require Import List.
From Verif Require Import Base TimestampsModel TimestampsSpec EpochsModel EpochsSpec EpochsStatements.
Import ListNotations. Local Open Scope Z_scope.

(** [d] has, for each of the epochs from [f] on, a T2 file of these entries *)
Definition t2_dir (d : directory) (f : Z) (epochs : list (list entry)) : Prop :=
  forall i xs, nth_error epochs i = Some xs -> exists file timeorder basebits,
    open_file d (int2epoch (f + Z.of_nat i)) = Ok file /\ 1 <= timeorder <= 32 /\ 0 <= basebits <= 32 /\ f + Z.of_nat i < 2 ^ 32 /\
    t2_encodes file (f + Z.of_nat i) timeorder basebits xs /\ t2_bounded (f + Z.of_nat i) xs.
(** ... a T1 file of these events *)
Definition t1_dir (d : directory) (f : Z) (epochs : list (list event)) : Prop :=
  forall i evs, nth_error epochs i = Some evs ->
    open_file d (int2epoch (f + Z.of_nat i)) = Ok (t1_file (f + Z.of_nat i) evs) /\
    Forall (t1_ok (f + Z.of_nat i)) evs /\ Forall (fun ev => t1_word (f + Z.of_nat i) ev <> 0) evs /\ len evs < 2 ^ 32.
(** Their events as a timestamp device records them: the time in 1/256 ns (32 to the 125 ps of a T2 file) from the start of
    the block of 2^17 epochs, and the detectors. *)
Fixpoint t2_events (f : Z) (epochs : list (list entry)) : list event :=
  match epochs with [] => [] | xs :: r => combine (map (Z.mul 32) (t2_times f xs)) (map e_base xs) ++ t2_events (f + 1) r end.
Fixpoint t1_events (f : Z) (epochs : list (list event)) : list event :=
  match epochs with [] => [] | evs :: r => map (fun ev => (lsb_time f (fst ev), snd ev)) evs ++ t1_events (f + 1) r end.
(** [m] is the first epoch, from the one given on, that both directories have *)
Definition first_common (d1 d2 : directory) (first : option (list Z)) (m : Z) : Prop :=
  let common v := has_epoch d1 v /\ has_epoch d2 v /\
    match first with None => True | Some s => exists w, epoch2int s = Ok w /\ w <= v end in
  common m /\ forall v, common v -> m <= v.
