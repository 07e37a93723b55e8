(** freqcd in a chain with the test generator and with itself: C108, C109. *)
From Coq Require Import String List.
From Verif Require Import Base FreqcdModel FreqcdSpec FreqcdCliSpec FreqcdExamples FpfindModel MiscModel CdRunModel CdRunSpec TimestampsModel TimestampsSpec ChainSpec ChainProofs ChainCase.
Import ListNotations.
Local Open Scope Z_scope.

(** C108 *)
Theorem C108 : forall p x junk ib ob fb prog args ss f fs ts, alloc_ok ib ob fb -> asks args ss f -> static false ss -> last_of in_of ss = None ->
  54 <= p -> Forall (fun t => 0 <= t < 2 ^ 54) ts -> nondecr ts ->
  exists X e Y times, generate x ts = (X, None) /\ freqcd_main true junk ib ob fb (prog :: args) fs X = Some (Ok e) /\ code e = 0 /\
    output_of (files e) (stdout e) ss = Some Y /\ snd (decode_file p false None Y) = Ok (map (fun t => t mod 2 ^ 54) times) /\ length times = length ts /\ nondecr times /\
    forall i t0 t t', nth_error ts 0 = Some t0 -> nth_error ts i = Some t -> nth_error times i = Some t' -> accurate f t0 (Z.of_nat i / 1024 + 1) t t'.
Proof. exact c108. Qed.
Print Assumptions C108.
(** tests/freqcd/test_freqcd.py *)
Example C108_case : asks (args_f 1000000) (ss_f 1000000) 1000000 /\ static false (ss_f 1000000) /\ nondecr [0; 1000000000; 2000000000] /\
  snd (decode_file 64 false None (piped 1000000 (fst (generate false [0; 1000000000; 2000000000])))) = Ok [0; 1000058207; 2000116415].
Proof. split; [apply asks_f; reflexivity || discriminate|]. split; [apply static_f|]. split; [vm_compute; repeat split; discriminate|]. vm_compute. reflexivity. Qed.

(** C109 *)
Theorem C109 : forall lg junk1 ib1 ob1 fb1 prog1 args1 ss1 f fs1 in1 junk2 ib2 ob2 fb2 prog2 args2 ss2 g evs,
  alloc_ok ib1 ob1 fb1 -> asks args1 ss1 f -> static lg ss1 -> alloc_ok ib2 ob2 fb2 -> asks args2 ss2 g -> static lg ss2 ->
  recording evs -> no_rollover evs -> input_of fs1 in1 ss1 = Some (encode (A1 lg) (map word_of evs)) ->
  exists e1, freqcd_main true junk1 ib1 ob1 fb1 (prog1 :: args1) fs1 in1 = Some (Ok e1) /\ code e1 = 0 /\
  forall fs2 in2, input_of fs2 in2 ss2 = output_of (files e1) (stdout e1) ss1 ->
  exists e2 times, freqcd_main true junk2 ib2 ob2 fb2 (prog2 :: args2) fs2 in2 = Some (Ok e2) /\ code e2 = 0 /\ length times = length evs /\ nondecr times /\
    output_of (files e2) (stdout e2) ss2 = Some (encode (A1 lg) (map word_of (at_times evs times))) /\
    forall i ev0 ev t', nth_error evs 0 = Some ev0 -> nth_error evs i = Some ev -> nth_error times i = Some t' ->
      accurate2 f g (fst ev0) (Z.of_nat i / 1024 + 1) (fst ev) t' /\ (inverse_units f g -> restored (fst ev0) (Z.of_nat i / 1024 + 1) (fst ev) t').
Proof. exact c109. Qed.
Print Assumptions C109.
(** 1000000 and its inverse: over 2^50 units of time (73 minutes) the times come back 13389 units early, within 2^50 * 2^-35 = 32768. *)
Example C109_case : asks (args_f 1000000) (ss_f 1000000) 1000000 /\ asks (args_f (-999942)) (ss_f (-999942)) (-999942) /\ recording evs109 /\ no_rollover evs109 /\
  inverse_units 1000000 (-999942) /\
  piped (-999942) (piped 1000000 (encode (A1 false) (map word_of evs109))) = encode (A1 false) (map word_of (at_times evs109 [5; 999999999; 1999999999; 2 ^ 50 - 13389])).
Proof.
  split; [apply asks_f; reflexivity || discriminate|]. split; [apply asks_f; reflexivity || discriminate|]. split; [apply rec109|]. split; [apply rec109|]. split; [vm_compute; discriminate|]. vm_compute. reflexivity.
Qed.
