(** Full statements of the epoch-file properties that the code does not satisfy. *)
From Coq Require Import QArith.
From Verif Require Import Float Base TimestampsModel TimestampsSpec EpochsModel EpochsSpec.
Local Open Scope Z_scope.

(** any cut inside the events or the terminator is reported *)
Definition C34_statement : Prop := forall e evs m full r fr, Forall (t1_ok e) evs -> Forall (fun ev => t1_word e ev <> 0) evs ->
  0 < len evs < 2 ^ 32 -> 20 <= m < 20 + 8 * len evs ->
  read_T1 (take m (t1_file e evs)) full r fr = Err ValueError.

Definition C37_statement : Prop := forall file,
  (exists fuel, forall full r fr, read_T2 fuel file full r fr <> Err OutOfFuel) /\
  (exists fuel, read_T4 fuel file <> Err OutOfFuel).

(** a time in units of 125 ps expressed in units of [r] *)
Definition in_units125 (r : TSRES) (t : Z) : Q := (inject_Z (t * rvalue r) / inject_Z 8)%Q.
Definition floor125 (r : TSRES) (t : Z) : Z := t * rvalue r / 8.
Definition t2_result (file : list Z) (e : Z) (xs : list entry) (full : bool) (r : TSRES) (fr : bool) : Prop :=
  exists T, (forall fuel, (length xs < fuel)%nat -> read_T2 fuel file full r fr = Ok (T, map e_base xs)) /\
    same_values (evalues T)
      (map (fun t => if fr then in_units125 r t else inject_Z (floor125 r t))
         (if full then t2_full_times e xs else t2_times e xs)).
(** The times of the file stay below 2^53 units, 13 days, as float64 holds them exactly. *)
Definition t2_bounded (e : Z) (xs : list entry) : Prop := Forall (fun t => t < 2 ^ 53) (t2_times e xs).
Definition C38_statement : Prop := forall file e timeorder basebits xs full r fr,
  1 <= timeorder <= 32 -> 0 <= basebits <= 32 -> 0 <= e < 2 ^ 32 -> t2_encodes file e timeorder basebits xs ->
  Forall (fun t => t < 2 ^ 64) (t2_full_times e xs) -> t2_bounded e xs ->
  t2_result file e xs full r fr.

Definition C42_statement : Prop := forall s, 0 <= s -> epoch_of_second s < 2 ^ 32 ->
  exists name, date2epoch s = name /\ epoch2int name = Ok (epoch_of_second s) /\ (8 <= length name)%nat.

(** Directories of T1 files written by write_T1, consecutive epochs: the times returned never decrease. *)
Definition sorted_times (l : list Q) : Prop := forall i j, (i < j < length l)%nat -> (nth i l 0 <= nth j l 0)%Q.
(** [d] has, for each of the [n] epochs from [f] on, the file write_T1 makes of events in time order *)
Definition ordered_dir (d : directory) (f : Z) (epochs : list (list event)) : Prop :=
  forall i evs, nth_error epochs i = Some evs ->
    open_file d (int2epoch (f + Z.of_nat i)) = Ok (t1_file (f + Z.of_nat i) evs) /\
    Forall (t1_ok (f + Z.of_nat i)) evs /\ Forall (fun ev => t1_word (f + Z.of_nat i) ev <> 0) evs /\
    len evs < 2 ^ 32 /\ nondecr (map fst evs).
Definition C44_statement : Prop := forall fuel d f epochs, 0 <= f -> f + len epochs <= 2 ^ 32 -> ordered_dir d f epochs ->
  exists ts, get_timestamp fuel d true (int2epoch f) 0 (len epochs) = Ok ts /\ sorted_times ts.

(** write_T1 makes the same file of Python ints and of numpy integer arrays *)
Definition C67_statement : Prop := forall e evs, Forall (t1_ok e) evs -> len evs < 2 ^ 32 ->
  forall kind, kind = WPy (map fst evs) \/ kind = WI64 (map fst evs) \/ kind = WU64 (map fst evs) ->
  write_T1 e kind (DSeq (map snd evs)) = Ok (int2epoch (e mod 2 ^ 32), t1_file e evs, None).
