(** Accuracy of the offset search over several iterations: C87. *)
From Coq Require Import QArith Qabs List.
From Verif Require Import Float Base TimestampsModel UtilsModel FpfindModel FpfindSpec FpfindRefute AccuracySpec AccuracyProofs.
Import ListNotations. Local Open Scope Q_scope.

(** C87.  [e] and [d] are the end of the data and the duration the search computes. *)
Theorem C87 : forall u fuel M P ats bts res D F W x y a b, rounds u M -> 0 <= u -> u <= 1 # 2 ^ 50 -> 0 < separation_duration P -> 0 <= W ->
  getitem ats (-1) = Ok a -> getitem bts (-1) = Ok b ->
  let e := qmin a b in let d := rs M (rs M (inject_Z (num_wraps P) * res) * inject_Z (num_bins P)) in let s0 := mkS bts res 0 1 true in
  (forall s ws r d1 d2, history M P ats e d s0 s ws -> finds M P ats e d s r d1 d2 -> genuine D F (separation_duration P) W s r d1 d2) ->
  time_freq fuel M P ats bts res = Ok (x, y) ->
  exists ws, ended M P ats e d s0 ws /\ Qabs (y - F) <= freq_error u F (separation_duration P) W ws + u /\
    Qabs (x - D) <= time_error u F (separation_duration P) W ws D + 2 * u * (Qabs x + 100000000).
Proof. exact accuracy. Qed.
Print Assumptions C87.
(** float64 and exact arithmetic are two cases of [u] *)
Theorem C87_rounding : forall M, ((forall x, rs M x = fl 53 x) -> rounds (1 # 2 ^ 53) M) /\ (exact_fpu M -> rounds 0 M).
Proof. exact (fun M => conj (rounds_float M) (rounds_exact M)). Qed.
Print Assumptions C87_rounding.
(** the error in closed form, for bins not wider than [R] *)
Theorem C87_limit : forall u F sep W R ws, 0 <= u -> 0 <= W -> W < sep -> Forall (fun r => r <= R) ws -> 0 <= R ->
  freq_error u F sep W ws <= qpower (W / sep) (length ws) * Qabs F + (2 * RATIO * R + 3 * u * sep) / (sep - W).
Proof. exact freq_error_limit. Qed.
Print Assumptions C87_limit.
(** The run of C53: a delay of 3 ns growing by 2^-16; two iterations, with bins of 2 and 1 ns. *)
Example C87_case : let e := qmin 1000000000 1000000000 in let d := rs MF (rs MF (inject_Z (num_wraps P1) * 2) * inject_Z (num_bins P1)) in
  let s0 := mkS bob1 2 0 1 true in
  getitem alice1 (-1) = Ok 1000000000 /\ getitem bob1 (-1) = Ok 1000000000 /\
  (forall s ws r d1 d2, history MF P1 alice1 e d s0 s ws -> finds MF P1 alice1 e d s r d1 d2 -> genuine 3 (1 # 65536) 131072 16 s r d1 d2) /\
  time_freq 2 MF P1 alice1 bob1 2 = Ok (196609 # 65536, 1 # 65536) /\ ended MF P1 alice1 e d s0 [1; 2].
Proof.
  cbv zeta. set (e := qmin _ _). set (d := rs MF _). set (s0 := mkS bob1 2 0 1 true).
  destruct (iteration MF P1 alice1 e d s0) as [[|s1]|] eqn:I0; [vm_compute in I0; discriminate| |vm_compute in I0; discriminate].
  assert (S1 : forall s, iteration MF P1 alice1 e d s0 = Ok (Again s) -> s = s1) by (intros s H; rewrite I0 in H; congruence).
  vm_compute in I0. injection I0 as I0.
  destruct (iteration MF P1 alice1 e d s1) as [[v df|]|] eqn:I1; [|rewrite <- I0 in I1; vm_compute in I1; discriminate|rewrite <- I0 in I1; vm_compute in I1; discriminate].
  assert (H1 : forall s ws, history MF P1 alice1 e d s0 s ws -> s = s0 \/ s = s1).
  { intros s ws H. induction H as [|s ws r d1 d2 s' H IH FI IT]; [now left|]. right. destruct IH as [-> | ->]; [now apply S1|congruence]. }
  assert (G0 : find MF P1 alice1 e d s0 = Ok (2, 2, 4)) by (vm_compute; reflexivity).
  assert (G1 : find MF P1 alice1 e d s1 = Ok (1, 1, 1)) by (rewrite <- I0; vm_compute; reflexivity).
  split; [reflexivity|]. split; [reflexivity|]. split; [|split; [vm_compute; reflexivity|]].
  - intros s ws r d1 d2 H FI. apply finds_find in FI. exists 0, 0. destruct (H1 _ _ H) as [-> | ->].
    + rewrite G0 in FI. injection FI as <- <- <-. repeat split; vm_compute; discriminate.
    + rewrite G1 in FI. injection FI as <- <- <-. rewrite <- I0. repeat split; vm_compute; discriminate.
  - assert (FF : forall s r d1 d2, find MF P1 alice1 e d s = Ok (r, d1, d2) -> finds MF P1 alice1 e d s r d1 d2) by (exact (find_finds MF P1 alice1 e d)).
    exists s1, v, df. split; [exact I1|]. right. exists 1, 1, 1, [2]. split; [reflexivity|]. split; [|split; [now apply FF|reflexivity]].
    eapply history_S; [constructor|apply FF; exact G0|]. rewrite <- I0. vm_compute. reflexivity.
Qed.
(** the errors C87 allows there, below 1.1 ns and 2^-15 *)
Example C87_case_bound : freq_error (1 # 2 ^ 53) (1 # 65536) 131072 16 [1; 2] < 1 # 2 ^ 15 /\ time_error (1 # 2 ^ 53) (1 # 65536) 131072 16 [1; 2] 3 < 11 # 10 /\
  freq_error (1 # 2 ^ 53) (1 # 65536) 131072 16 [1; 2] <= qpower (16 / 131072) 2 * Qabs (1 # 65536) + (2 * RATIO * 2 + 3 * (1 # 2 ^ 53) * 131072) / (131072 - 16).
Proof. split; [vm_compute; reflexivity|]. split; [vm_compute; reflexivity|]. apply C87_limit; try (vm_compute; discriminate); [reflexivity|]. repeat constructor; vm_compute; discriminate. Qed.
