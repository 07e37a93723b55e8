(** The search does not follow what is clearly out of proportion: C143. *)
From Coq Require Import QArith Qabs List.
From Verif Require Import Float Base TimestampsModel UtilsModel FpfindModel FpfindSpec AccuracySpec AccuracyProofs GroundCase SteadyCase GuardSpec GuardProofs.
Import ListNotations. Local Open Scope Q_scope.

(** C143.  [s] is the state after at least one iteration. *)
Theorem C143 : forall M P A B res a b s ws r d1 d2, rs M = fl 53 -> 0 < separation_duration P -> getitem A (-1) = Ok a -> getitem B (-1) = Ok b ->
  let d := rs M (rs M (inject_Z (num_wraps P) * res) * inject_Z (num_bins P)) in
  history M P A (qmin a b) d (mkS B res 0 1 true) s ws -> ws <> [] -> finds M P A (qmin a b) d s r d1 d2 -> Qabs d1 <= NTP_MAXDELAY_NS -> far_off P s d1 d2 ->
  forall m, (length ws < m)%nat -> time_freq m M P A B res = Ok (dt s, rs M (f s - 1)).
Proof. exact c143. Qed.
Print Assumptions C143.
(** Equal delays of 20480 ns in the first iteration, -512 ns and -320 ns in the second, which is a frequency offset of 9 * 10^-6 after none. *)
Definition s_up : fstate := mkS (map (fun t => fl 64 (fl 64 (t - 20480) / 1)) B_up) 64 20480 1 false.
Example C143_case : let e := qmin (8589934592 # 256) (8589934592 # 256) in let d := rs M139 (rs M139 (inject_Z (num_wraps P139) * 1024) * inject_Z (num_bins P139)) in
  getitem A_up (-1) = Ok (8589934592 # 256) /\ getitem B_up (-1) = Ok (8589934592 # 256) /\
  history M139 P139 A_up e d (mkS B_up 1024 0 1 true) s_up [1024] /\ finds M139 P139 A_up e d s_up 64 (-512) (-320) /\ far_off P139 s_up (-512) (-320).
Proof.
  cbv zeta. split; [vm_compute; reflexivity|]. split; [vm_compute; reflexivity|]. split; [|split].
  - apply history_S with (s := mkS B_up 1024 0 1 true) (d1 := 20480) (d2 := 20480); [constructor|apply find_finds; vm_compute; reflexivity|vm_compute; reflexivity].
  - apply find_finds. vm_compute. reflexivity.
  - right. right. vm_compute. reflexivity.
Qed.
