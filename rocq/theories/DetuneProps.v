(** generate_freqdetuneg2, and freqcd on its files: C92, C94. *)
From Coq Require Import QArith Qabs List Lia.
From Verif Require Import Float Base FreqcdModel FreqcdSpec FreqcdExamples FreqcdCliSpec TimestampsModel TimestampsSpec FpfindModel FpfindSpec FpfindProofs3 FpfindPipe
  DetuneModel DetuneSpec DetuneProofs DetuneProofs2.
Import ListNotations. Local Open Scope Z_scope.

(** C92 *)
Theorem C92 : forall p e0 evs, 64 <= p -> Forall event_ok (e0 :: evs) ->
  Forall (fun e => fst e0 <= fst e /\ (inject_Z (fst e0) + inject_Z (fst e - fst e0) * (1001 # 1000) <= inject_Z (2 ^ 54 - 8))%Q) (e0 :: evs) ->
  exists files, detune_script p (encode (A1 true) (map word_of (e0 :: evs))) = Ok (encode A2 (map word_of (channel 1 (e0 :: evs))), files) /\
    Forall2 (fast_file (fst e0) (e0 :: evs)) names files.
Proof. exact c92. Qed.
Print Assumptions C92.
(** C94 *)
Theorem C94 : forall prog repr dt n, In n [10; 9; 8; 7; 6; 5; 4] -> (forall x, field_ok (repr x)) ->
  exists f, accepted prog (printed true (fl 53) repr dt (fl 53 (file_ratio n))) f /\
  forall t0 evs file c0 cs junk ib ob fb ts s' os st, fast_file t0 evs n file -> channel 8 evs = c0 :: cs -> nondecr (map fst (channel 8 evs)) -> t0 <= fst c0 ->
    alloc_ok ib ob fb -> Forall tick_ok ts -> freqcd true true junk ib ob fb false f ts = Ok (s', os, st) -> every_read_completes [] (chunks os) -> received os = file ->
    exists t1 ws, prefix (written os) (encode (A1 true) ws) /\ (st = Running -> written os = encode (A1 true) ws) /\
      Forall2 (fun e w => exists t, w = t mod 2 ^ 54 * 2 ^ 10 + 8 /\ restored t0 t1 (fst c0) (len (chunks os)) (fst e) t) (channel 8 evs) ws.
Proof. exact c94. Qed.
Print Assumptions C94.
(** Two events of either channel over 2^41 units (8.6 s).  freqcd with -1717815, for 1e-4, brings the last file but one back to 2^40
    units between the events, within 9 units. *)
Definition evs4 : list (Z * Z) := [(1000, 1); (1000 + 2 ^ 40, 8); (1000 + 3 * 2 ^ 39, 1); (1000 + 2 ^ 41, 8)].
Definition late (l : list Z) : list Z := encode (A1 true) (map (fun t => word_of (1000 + t, 8)) l).
Example C92_case : Forall event_ok evs4 /\
  Forall (fun e => 1000 <= fst e /\ (inject_Z 1000 + inject_Z (fst e - 1000) * (1001 # 1000) <= inject_Z (2 ^ 54 - 8))%Q) evs4 /\
  detune_script 64 (encode (A1 true) (map word_of evs4)) = Ok (encode A2 (map word_of [(1000, 1); (1000 + 3 * 2 ^ 39, 1)]), map late
    [[2 ^ 40 + 109; 2 ^ 41 + 219]; [2 ^ 40 + 1099; 2 ^ 41 + 2199]; [2 ^ 40 + 10995; 2 ^ 41 + 21990]; [2 ^ 40 + 109951; 2 ^ 41 + 219902];
     [2 ^ 40 + 1099511; 2 ^ 41 + 2199023]; [2 ^ 40 + 10995116; 2 ^ 41 + 21990232]; [2 ^ 40 + 109951162; 2 ^ 41 + 219902325]; [2 ^ 40 + 1099511627; 2 ^ 41 + 2199023255]]).
Proof. split; [|split; [|vm_compute; reflexivity]]; repeat constructor; cbn; try lia; vm_compute; discriminate. Qed.
Example C94_case : let file := late [2 ^ 40 + 109951162; 2 ^ 41 + 219902325] in
  accepted [102] (printed true (fl 53) (fun _ => [48]) 0 (fl 53 (file_ratio 4))) (-1717815) /\
  let ts := [rdin file] in Forall tick_ok ts /\
  outcome2 (freqcd true true None IB IB FB false (-1717815) ts) = Ok ([file], [], late [2 ^ 40 + 109951162; 2 ^ 41 + 109951162 + 9], -1717815, Running).
Proof.
  cbv zeta. split; [eexists; split; vm_compute; reflexivity|]. split; [apply ticks_okb; vm_compute; reflexivity|demo1].
Qed.
