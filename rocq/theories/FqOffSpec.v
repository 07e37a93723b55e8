(** Switching the correction off while freqcd runs. *)
From Verif Require Import Base FreqcdModel FreqcdSpec.
Import ListNotations.
Local Open Scope Z_scope.

(** a run in which the correction is 0 from [A] on, where every read brings complete events *)
Definition off_after (lg : bool) (ts : list tick) (s' : fstate) (A B : list obs) : Prop :=
  Forall tick_ok ts /\ every_read_completes [] (chunks (A ++ B)) /\ Forall (fun o => rx_freq o = []) B /\ fcorr s' = 0 /\ groups (received A) <> [].
(** the events received are written with [times] for those of [A] and with [later] of the time for the others *)
Definition written_with (lg : bool) (A B : list obs) (times : list Z) (later : Z -> Z) : Prop :=
  length times = length (groups (received A)) /\
  written (A ++ B) = concat (retime lg (groups (received (A ++ B))) (times ++ map later (skipn (length times) (map (ev_time lg) (groups (received (A ++ B))))))).
(** C187: they pass unchanged ("Expected output: No change", tests/freqcd/test_freqcd_update.py) *)
Definition C187_statement : Prop := forall lg junk ib ob fb f ts s' A B, alloc_ok ib ob fb ->
  freqcd true lg junk ib ob fb true f ts = Ok (s', A ++ B, Running) -> off_after lg ts s' A B -> exists times, written_with lg A B times (fun t => t).
