(** Specification of freqcd used in a chain: after the test generator, before its decoder, and twice in a row. *)
From Verif Require Import Base FreqcdSpec FreqcdCliSpec TimestampsModel TimestampsSpec CdRunSpec.
Local Open Scope Z_scope.

(** what a run left in its output file or on standard output *)
Definition output_of (fs' : list Z -> option (list Z)) (out : list Z) (ss : list setting) : option (list Z) :=
  match last_of out_of ss with Some t => fs' t | None => Some out end.
(** the events [evs] with other times, cut to 54 bits *)
Fixpoint at_times (evs : list event) (ts : list Z) : list event :=
  match evs, ts with
  | e :: evs', t :: ts' => (t mod 2 ^ 54, snd e) :: at_times evs' ts'
  | _, _ => []
  end.
Definition recording (evs : list event) : Prop := Forall event_ok evs /\ nondecr (map fst evs).
(** The settings read and write events in the order [lg], with no frequency file and without overwriting the input. *)
Definition static (lg : bool) (ss : list setting) : Prop := legacy_of ss = lg /\ last_of freq_of ss = None /\ separate (last_of in_of ss) (last_of out_of ss).
(** less than 2^53 units (9.7 hours), fewer than 2^60 events *)
Definition no_rollover (evs : list event) : Prop := Forall (fun e => fst e < 2 ^ 53) evs /\ len evs < 2 ^ 60.
(** [t'] is t0 + (1 + f / 2^34) (1 + g / 2^34) (t - t0) up to 3n (1 + 2^-14) units *)
Definition accurate2 (f g t0 n t t' : Z) : Prop :=
  2 ^ 14 * Z.abs (2 ^ 68 * (t' - t0) - (2 ^ 34 + f) * (2 ^ 34 + g) * (t - t0)) < 3 * n * 2 ^ 68 * (2 ^ 14 + 1).
(** [g] is the number nearest to the inverse of [f]: 1 + g / 2^34 = 1 / (1 + f / 2^34) up to half a unit *)
Definition inverse_units (f g : Z) : Prop := 2 * Z.abs ((2 ^ 34 + f) * (2 ^ 34 + g) - 2 ^ 68) <= 2 ^ 34 + f.
(** [t'] is [t] up to a relative error of 2^-35 (1 + 2^-13) since [t0] and 3n (1 + 2^-14) units *)
Definition restored (t0 n t t' : Z) : Prop :=
  2 ^ 48 * Z.abs (t' - t) < (2 ^ 13 + 1) * (t - t0) + 3 * n * 2 ^ 34 * (2 ^ 14 + 1).
