(** Concrete timestamp files used beside the theorems. *)
From Coq Require Import QArith Sorted.
From Verif Require Import Float Base TimestampsModel TimestampsSpec.
Local Open Scope Z_scope.

(** three events: 5/256 ns on detector 1, a coincidence at 1 ms, the largest even time on detector 8 *)
Definition evs3 : list event := [(5, 1); (256000000, 6); (2 ^ 54 - 2, 8)].
Definition evs_low : list event := [(5, 1); (256000000, 6); (2 ^ 53 - 1, 8)].
Definition ts3 : tarr := TLD (times_in NS1 evs3).
Definition words3 : list Z := map word_of evs3.
Definition words_low : list Z := map word_of evs_low.
Definition batches3 : list (tarr * list Z) := [(TU64 [5; 256000000], [1; 6]); (TU64 [], []); (TU64 [2 ^ 54 - 2], [8])].
Lemma evs3_ok : Forall event_ok evs3.
Proof. repeat (constructor; [split; cbn [fst snd]; lia|]); constructor. Qed.
Lemma evs_low_ok : Forall event_ok evs_low.
Proof. repeat (constructor; [split; cbn [fst snd]; lia|]); constructor. Qed.
Lemma words3_ok : Forall word_ok words3.
Proof. unfold words3. repeat (constructor; [unfold word_ok, word_of; cbn [fst snd]; lia|]); constructor. Qed.
Lemma words_low_ok : Forall word_ok words_low.
Proof. unfold words_low. repeat (constructor; [unfold word_ok, word_of; cbn [fst snd]; lia|]); constructor. Qed.
(** keep events of detectors 1 and 2 after 1 us *)
Definition some_filter : filters := mkF (Some 3) true false (Some (1 # 1048576)) None.
