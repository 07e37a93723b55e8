(** Specification: a recording and the epoch files cut from it (tests/parse_epochs). *)
From Coq Require Import QArith Qabs Qround.
From Verif Require Import Float Base TimestampsModel TimestampsSpec EpochsModel EpochsSpec.
Import ListNotations. Local Open Scope Z_scope.

(** The recording's clock counts 4 ps up to 2^54, that is 2^17 epochs; the computer's time tells the rest of the epoch number. *)
Definition in_epoch (e : Z) (ev : event) : Prop := event_ok ev /\ fst ev / 2 ^ 37 = e mod 2 ^ 17.
(** the events of the epochs [e], [e + 1], ... *)
Fixpoint cut_at (e : Z) (evss : list (list event)) : Prop :=
  match evss with [] => True | evs :: r => Forall (in_epoch e) evs /\ 0 <= e < 2 ^ 32 /\ len evs < 2 ^ 32 /\ cut_at (e + 1) r end.
(** the T1 file of the events of epoch [e] *)
Definition epoch_file (e : Z) (evs : list event) : list Z := t1_file e (map (fun ev => (fst ev mod 2 ^ 37, snd ev)) evs).
Fixpoint epoch_files (e : Z) (evss : list (list event)) : list (list Z) :=
  match evss with [] => [] | evs :: r => epoch_file e evs :: epoch_files (e + 1) r end.
(** What is read from the files one after another: all times and all patterns. *)
Inductive read_all (full : bool) (r : TSRES) (fr : bool) : list (list Z) -> list Q -> list Z -> Prop :=
| ReadNone : read_all full r fr [] [] []
| ReadNext f fs t p ts ps : read_T1 f full r fr = Ok (t, p) -> read_all full r fr fs ts ps -> read_all full r fr (f :: fs) (evalues t ++ ts) (p ++ ps).
(** an all-zero event ends a T1 file *)
Definition visible (ev : event) : Prop := ev <> (0, 0).
(** the % operator *)
Definition qmod (x m : Q) : Q := (x - inject_Z (Qfloor (x / m)) * m)%Q.
(** test_readT1epoch_4ps_fullepoch and test_readT1epoch_1ns_fullepoch: with the full epoch number the times differ from the recording's by whole turns of its clock, and by up to an eighth ns
    in ns *)
Definition agree_full (p : Z) (lg : bool) (e : Z) (evss : list (list event)) (rest : list event) : Prop :=
  (exists T tp ts, read_a1 p (encode (A1 lg) (map word_of (concat evss ++ rest))) lg PS4 false = Ok (T, tp) /\
     read_all true PS4 false (epoch_files e evss) ts (firstn (length (concat evss)) tp) /\
     Forall2 (fun et tt => qmod et (2 ^ 54) == tt)%Q ts (firstn (length (concat evss)) (tvalues T))) /\
  (exists T tp ts, read_a1 p (encode (A1 lg) (map word_of (concat evss ++ rest))) lg NS1 true = Ok (T, tp) /\
     read_all true NS1 true (epoch_files e evss) ts (firstn (length (concat evss)) tp) /\
     Forall2 (fun et tt => Qabs (qmod et (2 ^ 46) - tt) <= 1 # 8)%Q ts (firstn (length (concat evss)) (tvalues T))).
Definition recorded (e : Z) (evss : list (list event)) (rest : list event) : Prop := cut_at e evss /\ Forall event_ok rest /\ Forall visible (concat evss).
Definition C127_statement : Prop := forall p lg e evss rest, 54 <= p -> recorded e evss rest -> agree_full p lg e evss rest.
