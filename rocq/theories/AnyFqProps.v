(** The exact result of a run of freqcd with a frequency file of any content: C192. *)
From Coq Require Import String List.
From Verif Require FreqcdProofs8.
From Verif Require Import Base FreqcdModel FreqcdSpec FreqcdExamples FreqcdCliSpec CdRunModel CdRunSpec CdRunStatements FreqcdRefute CdRunRefute FqPipeProps CdExactSpec FqExactSpec LongFqProofs3 AnyFqSpec AnyFqProofs.
Import ListNotations.
Local Open Scope Z_scope.

(** C192 *)
Theorem C192 : forall junk ib ob fb prog args ss f fs stdin X t Zf, alloc_ok ib ob fb -> asks args ss f -> input_of fs stdin ss = Some X -> event_file (legacy_of ss) X ->
  last_of freq_of ss = Some t -> fs t = Some Zf -> bytes_ok Zf -> (forall k, Forall plain_line (lines (seen [] Zf k))) ->
  separate (last_of in_of ss) (last_of out_of ss) -> separate (last_of freq_of ss) (last_of out_of ss) ->
  let ts := map (ev_time (legacy_of ss)) (groups X) in
  exists e F, seen_value f Zf F /\ freqcd_main true junk ib ob fb (prog :: args) fs stdin = Some (Ok e) /\ code e = 0 /\
    retimed_file fs (files e) (stdout e) ss X (map (exact_time_by F ts) (seq 0 (length ts))).
Proof. exact c192. Qed.
Print Assumptions C192.
(** 1026 events and a frequency file whose last line is not finished: it has no effect *)
Definition open192 : list Z := line "12" ++ str "34".
Definition disk192 : filesys := fun m => if same_name m (str "c") then Some open192 else disk3 m.
Example C192_case : asks argsF ssF 0 /\ input_of disk192 [] ssF = Some many /\ event_file (legacy_of ssF) many /\ last_of freq_of ssF = Some (str "c") /\ disk192 (str "c") = Some open192 /\
  bytes_ok open192 /\ (forall k, Forall plain_line (lines (seen [] open192 k))) /\
  separate (last_of in_of ssF) (last_of out_of ssF) /\ separate (last_of freq_of ssF) (last_of out_of ssF) /\ lines (seen [] open192 1) = [str "12"].
Proof.
  split; [exact asksF|]. split; [reflexivity|]. split; [split; [apply bytes_okb; vm_compute; reflexivity|split; [vm_compute; reflexivity|vm_compute; repeat split; discriminate]]|].
  split; [reflexivity|]. split; [reflexivity|]. split; [apply bytes_okb; vm_compute; reflexivity|].
  split; [intros [|k]; [constructor|rewrite seen_once by (vm_compute; discriminate); apply plain_byb; vm_compute; reflexivity]|].
  split; [exact sepF1|]. split; [exact sepF2|]. vm_compute. reflexivity.
Qed.
(** of a line of 99 characters freqcd sees the newline only, and the line after it is read as usual *)
Example C192_long : map (fun k => lines (seen [] (long186 ++ line "5") k)) [1%nat; 2%nat; 3%nat] = [[]; [[]; str "5"]; [[]; str "5"]].
Proof. vm_compute. reflexivity. Qed.

(** C195 *)
Theorem C195 : forall junk ib ob fb prog args ss f fs stdin X t Zf, alloc_ok ib ob fb -> asks args ss f -> input_of fs stdin ss = Some X -> event_file (legacy_of ss) X ->
  last_of freq_of ss = Some t -> fs t = Some Zf -> bytes_ok Zf -> no_extreme Zf ->
  separate (last_of in_of ss) (last_of out_of ss) -> separate (last_of freq_of ss) (last_of out_of ss) ->
  let ts := map (ev_time (legacy_of ss)) (groups X) in
  exists e F, seen_value_actual f Zf F /\ freqcd_main true junk ib ob fb (prog :: args) fs stdin = Some (Ok e) /\ code e = 0 /\
    retimed_file fs (files e) (stdout e) ss X (map (exact_time_by F ts) (seq 0 (length ts))).
Proof. exact c195. Qed.
Print Assumptions C195.
(** the values are determined by the file *)
Theorem C195_one : forall f Zf F G, seen_value_actual f Zf F -> seen_value_actual f Zf G -> forall k, F k = G k.
Proof. exact seen_value_actual_fun. Qed.
Print Assumptions C195_one.
(** 1026 events and a frequency file with a NUL in a line and a number that fits no int: 2^32 + 5 counts as 5 *)
Definition odd195 : list Z := str "12" ++ [0; 7; newline] ++ line "4294967301".
Definition disk195 : filesys := fun m => if same_name m (str "c") then Some odd195 else disk3 m.
Example C195_case : asks argsF ssF 0 /\ input_of disk195 [] ssF = Some many /\ event_file (legacy_of ssF) many /\ last_of freq_of ssF = Some (str "c") /\ disk195 (str "c") = Some odd195 /\
  bytes_ok odd195 /\ no_extreme odd195 /\ separate (last_of in_of ssF) (last_of out_of ssF) /\ separate (last_of freq_of ssF) (last_of out_of ssF) /\
  (forall F, seen_value_actual 0 odd195 F -> F 0%nat = 0 /\ F 1%nat = 5).
Proof.
  split; [exact asksF|]. split; [reflexivity|]. split; [split; [apply bytes_okb; vm_compute; reflexivity|split; [vm_compute; reflexivity|vm_compute; repeat split; discriminate]]|].
  split; [reflexivity|]. split; [reflexivity|]. split; [apply bytes_okb; vm_compute; reflexivity|].
  split; [intros [|k]; [constructor|rewrite seen_once by (vm_compute; discriminate); apply mild_byb; vm_compute; reflexivity]|].
  split; [exact sepF1|]. split; [exact sepF2|]. intros F V. split.
  - rewrite (after_lines_actual_fun _ _ _ (V 0%nat) _ (FreqcdProofs8.after_lines_actual_fold _ _)). reflexivity.
  - rewrite (after_lines_actual_fun _ _ _ (V 1%nat) _ (FreqcdProofs8.after_lines_actual_fold _ _)). vm_compute. reflexivity.
Qed.
