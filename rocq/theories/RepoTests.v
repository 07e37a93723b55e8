(** The project's own tests (/repo/tests), run on the model.  They check the model against results the authors expect of
    the programs.  Tests on recorded data (data/ is not in the repository) cannot be reproduced. *)
From Coq Require Import QArith.
From Verif Require Import Float Base FreqcdModel FreqcdSpec FreqcdExamples FreqcdCli TimestampsModel EpochsModel FpfindModel MiscModel.
From Coq Require Import String.
Import List ListNotations.
Local Open Scope Z_scope.

(** tests/freqcd/test_freqcd.py: generate_freqcd_testcase -t ... | freqcd -f N | generate_freqcd_testcase - *)
Definition starts (argv : list (list Z)) : option Z :=
  match cli argv with Some (Ok (Start c)) => Some (c_fcorr c) | _ => None end.
Definition through (f : Z) (ts : list Z) : option (list Z) :=
  match starts [str "freqcd"; str "-f"; dec f] with
  | None => None
  | Some f => match FreqcdExamples.outcome (run0 f [rdin (fst (generate false ts)); timeout]) with
              | Ok (out, _, _) => match snd (decode_file 64 false None out) with Ok l => Some l | Err _ => None end
              | Err _ => None
              end
  end.
Example test_freqcd_onepass : through 1000000 [0; 1000000000; 2000000000] = Some [0; 1000058207; 2000116415].
Proof. vm_compute. reflexivity. Qed.

(** tests/freqcd/test_freqcd_overflow.py, testcase 1: the table of edge cases *)
Example test_freqcd_overflow : through 1 [0; 18014398508433408; 18014398508433409; 18014398508433410] =
  Some [0; 18014398509481983; 0; 1].
Proof. vm_compute. reflexivity. Qed.

(** tests/freqcd/test_freqcd_update.py, testcase 1: 0, 1000, ..., 34000 arriving in pieces, one of them broken *)
Definition thousands : list Z := concat (map (fun i => dec (1000 * Z.of_nat i) ++ [10]) (seq 0 35)).
Example test_freqcd_update1 : FreqcdExamples.outcome (runF 12300 [rdfq (take 99 thousands); rdfq (take 95 (drop 99 thousands)); rdfq (drop 194 thousands)]) =
  Ok ([], 34000, Running).
Proof. vm_compute. reflexivity. Qed.
(** testcase 2, the update sent to the frequency pipe: the shift is kept and does not grow *)
Example test_freqcd_update2 :
  match FreqcdExamples.outcome (runF 1000000 [rdin (fst (generate false [0; 1000000000; 2000000000])); timeout; rdfq (line "0");
                               rdin (fst (generate false [3000000000; 4000000000])); timeout]) with
  | Ok (out, f, _) => (f, snd (decode_file 64 false None out))
  | Err _ => (0, Err Unspecified)
  end = (0, Ok [0; 1000058207; 2000116415; 3000116415; 4000116415]).
Proof. vm_compute. reflexivity. Qed.

(** tests/parse_epochs/test_limits.py *)
Definition TIMESTAMPS : list Z := 0 :: map (fun i => 2 ^ Z.of_nat i) (seq 0 18) ++ [Z.shiftl 4294967295 5 + 31].
Definition epochfile : list Z :=
  match write_T1 (2 ^ 32 - 1) (WPy TIMESTAMPS) (DScalar 1) with Ok (_, c, None) => c | _ => [] end.
Definition distinct (index : nat) (t : earr) : bool := negb (Qeq_bool (nth 0 (evalues t) 0%Q) (nth index (evalues t) 0%Q)).
(** the array type is as expected, event [index] is distinguishable *)
Definition limit (full : bool) (r : TSRES) (fr : bool) (index : nat) (same_type : earr -> bool) : bool :=
  match read_T1 epochfile full r fr with Ok (t, _) => same_type t && distinct index t | Err _ => false end.
Definition is_ld (t : earr) : bool := match t with ELD _ => true | _ => false end.
Definition is_u64 (t : earr) : bool := match t with EU64 _ => true | _ => false end.
Definition is_obj (t : earr) : bool := match t with EObj _ => true | _ => false end.
Example test_readT1_accuracy :
  limit false PS4 true 1 is_ld && limit false PS125 true 1 is_ld && limit true PS4 true 6 is_ld &&
  limit false PS4 false 1 is_u64 && limit true PS4 false 1 is_obj && limit true PS125 false 6 is_u64 && limit true NS1 false 9 is_u64 = true.
Proof. vm_compute. reflexivity. Qed.
(** the lower bounds, commented out in the test: the event before is not distinguishable *)
Definition indistinct (full : bool) (r : TSRES) (fr : bool) (index : nat) : bool :=
  match read_T1 epochfile full r fr with Ok (t, _) => negb (distinct index t) | Err _ => false end.
Example test_readT1_sharp : indistinct true PS4 true 5 && indistinct true PS125 false 5 && indistinct true NS1 false 8 = true.
Proof. vm_compute. reflexivity. Qed.

(** tests/parse_timestamps/test_output_type.py, on a small file *)
Definition small_file : list Z := fst (write_all true [5; 300]).
Example test_reada1_types :
  (exists l, read_a1 64 small_file true NS1 false = Ok (TU64 l, [1; 1])) /\ (exists l, read_a1 64 small_file true NS1 true = Ok (TLD l, [1; 1])) /\
  (exists l, read_a1 64 small_file true PS4 false = Ok (TU64 l, [1; 1])) /\ (exists l, read_a1 64 small_file true PS4 true = Ok (TLD l, [1; 1])).
Proof. repeat split; eexists; vm_compute; reflexivity. Qed.

(** tests/parse_epochs/test_readT1_outputs.py and test_basic_usage.py, on generated files: a raw file and the epoch file
    of the same events agree in every setting *)
Definition evs_raw : list Z := [Z.shiftl 13158 37 + 5; Z.shiftl 13158 37 + 300; Z.shiftl 13158 37 + 2 ^ 37 - 1].
Definition raw_file : list Z := fst (write_all true evs_raw).
Definition t1_file_ : list Z :=
  match write_T1 (Z.shiftl 28437 17 + 13158) (WPy (map (fun t => t - Z.shiftl 13158 37) evs_raw)) (DScalar 1) with Ok (_, c, None) => c | _ => [] end.
Definition agree (full : bool) (r : TSRES) (fr : bool) (m : Q) : bool :=
  match read_a1 64 raw_file true r fr, read_T1 t1_file_ full r fr with
  | Ok (t, p), Ok (e, q) =>
      (len (tvalues t) =? 3) && (len (evalues e) =? 3) &&
      forallb (fun x => Qeq_bool (fst x) (snd x) || Qeq_bool (fst x) (snd x - inject_Z (Qround.Qfloor (snd x / m)) * m)) (combine (tvalues t) (evalues e)) &&
      forallb (fun x => fst x =? snd x) (combine p q)
  | _, _ => false
  end.
Example test_readT1_outputs : agree false NS1 true (2 ^ 46) && agree false PS4 false (2 ^ 54) && agree true PS4 false (2 ^ 54) = true.
Proof. vm_compute. reflexivity. Qed.
