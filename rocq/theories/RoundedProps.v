(** The accuracy of the search in floating point when the coincidences stand out: C99. *)
From Coq Require Import QArith Qabs Lqa.
From Coq Require Import ZifyBool.
From Verif Require Import Float Base TimestampsModel UtilsModel FpfindModel FpfindSpec FpfindRefute AccuracySpec AccuracyProofs PairSpec PairProofs SignalSpec SignalCase RoundedSpec RoundedProofs.
Local Open Scope Z_scope.

(** C99.  [last] and [dur] are the end of the data and the duration the search computes. *)
Theorem C99 : forall u e fuel M P A B res D F W j x y a b, rounds u M -> by_value M -> (0 <= u)%Q -> (u <= 1 # 2 ^ 50)%Q -> accurate_to e (num_bins P) (len A) (len B) M -> (0 <= e)%Q ->
  (0 < target_resolution P)%Q -> (0 < res)%Q -> representable M res -> (0 < separation_duration P)%Q -> (0 <= W)%Q -> (0 <= j)%Q ->
  getitem A (-1) = Ok a -> getitem B (-1) = Ok b ->
  let last := qmin a b in let dur := rs M (rs M (inject_Z (num_wraps P) * res) * inject_Z (num_bins P))%Q in let s0 := mkS B res 0 1 true in
  (forall s ws k, history M P A last dur s0 s ws -> doublings P ws (resolution s) k ->
     clear_state u e (rt M) P A D F j W (used_duration M P last dur (resolution s)) s k) ->
  time_freq fuel M P A B res = Ok (x, y) ->
  exists ws, ended M P A last dur s0 ws /\ let ws' := map (wider u (num_bins P) j) ws in
    (Qabs (y - F) <= freq_error u F (separation_duration P) W ws' + u)%Q /\
    (Qabs (x - D) <= time_error u F (separation_duration P) W ws' D + 2 * u * (Qabs x + 100000000))%Q.
Proof. exact c99. Qed.
Print Assumptions C99.
(** float64 meets the hypotheses on the scalars *)
Theorem C99_rounding : forall M res, (forall x, rs M x = fl 53 x) -> (fl 53 res == res)%Q -> rounds (1 # 2 ^ 53) M /\ by_value M /\ representable M res.
Proof. exact (fun M res H E => conj (rounds_float M H) (conj (float_by_value 53 M H) (float_representable 53 M res H E))). Qed.
Print Assumptions C99_rounding.
(** The run of C98 in floating point. *)
Example C99_case : let last := qmin 4096000000000 4096000000000 in let dur := rs MF (rs MF (inject_Z (num_wraps P98) * 8192) * inject_Z (num_bins P98))%Q in
  let s0 := mkS bob98 8192 0 1 true in
  getitem alice98 (-1) = Ok 4096000000000%Q /\ getitem bob98 (-1) = Ok 4096000000000%Q /\ (fl 53 8192 == 8192)%Q /\ accurate_to 0 (num_bins P98) (len alice98) (len bob98) MF /\
  (forall s ws k, history MF P98 alice98 last dur s0 s ws -> doublings P98 ws (resolution s) k ->
     clear_state (1 # 2 ^ 53) 0 (rt MF) P98 alice98 12288 (1 # 65536) 1 65536 (used_duration MF P98 last dur (resolution s)) s k) /\
  time_freq 2 MF P98 alice98 bob98 8192 = Ok (196609 # 16, 1 # 65536)%Q.
Proof.
  cbv zeta. set (last := qmin _ _). set (dur := rs MF _). set (s0 := mkS bob98 8192 0 1 true).
  destruct (iteration MF P98 alice98 last dur s0) as [[|s1]|] eqn:I0; [vm_compute in I0; discriminate| |vm_compute in I0; discriminate].
  assert (S1 : forall s, iteration MF P98 alice98 last dur s0 = Ok (Again s) -> s = s1) by (intros s H; rewrite I0 in H; congruence).
  vm_compute in I0. injection I0 as I0.
  destruct (iteration MF P98 alice98 last dur s1) as [[v df|]|] eqn:I1; [|rewrite <- I0 in I1; vm_compute in I1; discriminate|rewrite <- I0 in I1; vm_compute in I1; discriminate].
  assert (H1 : forall s ws, history MF P98 alice98 last dur s0 s ws -> s = s0 \/ s = s1 /\ ws <> []).
  { intros s ws H. induction H as [|s ws r d1 d2 s' H IH FI IT]; [now left|]. right. split; [|discriminate]. destruct IH as [-> | [-> _]]; [now apply S1|congruence]. }
  split; [reflexivity|]. split; [reflexivity|]. split; [vm_compute; reflexivity|]. split; [now apply exact_accurate|]. split; [|vm_compute; reflexivity].
  intros s ws k H (K0 & K1 & _ & K3). destruct (H1 s ws H) as [-> | [-> NE]].
  - assert (k = 0).
    { destruct K3 as [K3|K3]; [exact K3|]. destruct (Z.eq_dec k 0) as [|NE]; [assumption|]. exfalso. cbn [resolution s0] in K3.
      assert (P2 : 2 ^ 1 <= 2 ^ k) by (apply Z.pow_le_mono_r; lia). rewrite Zle_Qle in P2. change (inject_Z (2 ^ 1)) with 2%Q in P2. lra. }
    subst k. split; [|split; [|split]].
    + intros tau T. unfold remaining. cbn [num_bins separation_duration P98 resolution dt f s0] in *. change (inject_Z (2 ^ 0)) with 1%Q.
      setoid_replace (inject_Z 8 * 8192 / 2)%Q with 32768%Q by reflexivity.
      setoid_replace ((12288 + (1 + (1 # 65536)) * tau - 0) / 1 - tau)%Q with (12288 + (1 # 65536) * tau)%Q by field.
      rewrite Qabs_pos by (destruct T; lra). destruct T as [T|T]; lra.
    + vm_compute. discriminate.
    + apply (stands_ok _ _ _ _ _ _ _ _ _ _ _ _ _ 1); [split; [lia|reflexivity]|]. vm_compute. reflexivity.
    + apply (stands_ok _ _ _ _ _ _ _ _ _ _ _ _ _ 2); [split; [lia|reflexivity]|]. vm_compute. reflexivity.
  - rewrite (K1 NE). rewrite <- I0. split; [|split; [|split]].
    + intros tau T. unfold remaining. cbn [num_bins separation_duration P98 resolution dt f] in *.
      match goal with |- (Qabs ((12288 + (1 + (1 # 65536)) * tau - ?d) / ?g - tau) + _ <= _)%Q => setoid_replace ((12288 + (1 + (1 # 65536)) * tau - d) / g - tau)%Q with (268435456 # 65537)%Q by field end.
      vm_compute. discriminate.
    + vm_compute. discriminate.
    + apply (stands_ok _ _ _ _ _ _ _ _ _ _ _ _ _ 1); [split; [lia|reflexivity]|]. vm_compute. reflexivity.
    + apply (stands_ok _ _ _ _ _ _ _ _ _ _ _ _ _ 1); [split; [lia|reflexivity]|]. vm_compute. reflexivity.
Qed.
Example C99_case_bound : let ws := map (wider (1 # 2 ^ 53) 8 1) [4096; 8192]%Q in
  (freq_error (1 # 2 ^ 53) (1 # 65536) 536870912 65536 ws < 1 # 60000)%Q /\ (time_error (1 # 2 ^ 53) (1 # 65536) 536870912 65536 ws 12288 < 4102)%Q.
Proof. split; vm_compute; reflexivity. Qed.
