(** freqcd on timestamp files: C93. *)
From Coq Require Import QArith Qabs List.
From Verif Require Import Float Base FreqcdModel FreqcdSpec FreqcdExamples FreqcdCliSpec TimestampsModel TimestampsSpec FpfindModel FpfindSpec FpfindProofs3 FpfindPipe PipeSpec CdFileSpec CdFileProofs.
Import ListNotations. Local Open Scope Z_scope.

(** C93 *)
Theorem C93 : forall strict lg junk ib ob fb fg fc ts s' os st vs, alloc_ok ib ob fb -> Forall tick_ok ts ->
  freqcd strict lg junk ib ob fb fg fc ts = Ok (s', os, st) -> Forall word_ok vs -> received os = encode (A1 lg) vs ->
  exists ws, retimed (fun _ _ => True) vs ws /\ prefix (written os) (encode (A1 lg) ws) /\
    (st = Running -> written os = encode (A1 lg) ws /\ forall p r fr, exists t t' ps,
       read_a1 p (received os) lg r fr = Ok (t, ps) /\ read_a1 p (written os) lg r fr = Ok (t', ps) /\ tlen t' = tlen t).
Proof. exact cd_file. Qed.
Print Assumptions C93.
(** C93: the times, for one frequency *)
Theorem C93_accurate : forall lg junk ib ob fb f ts s' os st vs t0, alloc_ok ib ob fb -> Forall tick_ok ts -> small f ->
  freqcd true lg junk ib ob fb false f ts = Ok (s', os, st) -> every_read_completes [] (chunks os) ->
  Forall word_ok vs -> received os = encode (A1 lg) vs -> nondecr (map time_of vs) -> hd_error (map time_of vs) = Some t0 ->
  exists ws, retimed (accurate f t0 (len (chunks os))) vs ws /\ prefix (written os) (encode (A1 lg) ws) /\ (st = Running -> written os = encode (A1 lg) ws).
Proof. exact cd_file_accurate. Qed.
Print Assumptions C93_accurate.
(** C93: with a frequency offset found by fpfind *)
Theorem C93_fpfind : forall prog repr dt df, (forall x, field_ok (repr x)) -> (Qabs df <= (1 # 2 ^ 13) - (1 # 2 ^ 25))%Q ->
  exists f, accepted prog (printed true (fl 53) repr dt df) f /\
  forall F lg junk ib ob fb ts s' os st vs t0, (Qabs (df - F) <= 1 # 2 ^ 51)%Q -> alloc_ok ib ob fb -> Forall tick_ok ts ->
    freqcd true lg junk ib ob fb false f ts = Ok (s', os, st) -> every_read_completes [] (chunks os) ->
    Forall word_ok vs -> received os = encode (A1 lg) vs -> nondecr (map time_of vs) -> hd_error (map time_of vs) = Some t0 ->
    exists ws, retimed (in_step ((1 # 2 ^ 35) + (1 # 2 ^ 49)) F t0 (len (chunks os))) vs ws /\ prefix (written os) (encode (A1 lg) ws) /\
      (st = Running -> written os = encode (A1 lg) ws).
Proof. exact cd_file_pipe. Qed.
Print Assumptions C93_fpfind.
(** A legacy file of three events in two reads, corrected by 1 in 16384. *)
Definition in3 : list Z := encode (A1 true) (map word_of [(5000, 1); (21384, 8); (37768, 4)]).
Example C93_case :
  let ts := [rdin (take 17 in3); rdin (drop 17 in3)] in
  alloc_ok IB IB FB /\ Forall tick_ok ts /\
  outcome2 (freqcd true true None IB IB FB false (2 ^ 20) ts) =
    Ok ([take 17 in3; drop 17 in3], [], encode (A1 true) (map word_of [(5000, 1); (21385, 8); (37770, 4)]), 2 ^ 20, Running).
Proof. demo. Qed.
