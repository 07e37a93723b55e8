(** Two files to which C105 and C106 apply: the run of C99, with an event of each at time 0. *)
From Coq Require Import QArith Qabs Lqa String List.
From Coq Require Import ZifyBool.
From Verif Require Import Float Base TimestampsModel TimestampsSpec UtilsModel FpfindModel FpfindSpec FpfindRefute AccuracySpec AccuracyProofs PairSpec PairProofs SignalSpec SignalCase RoundedSpec RoundedProofs MainModel MainSpec2 WholeSpec.
Import ListNotations. Local Open Scope Z_scope.

(** -q 3 -R 8192 -r 4096 -s 8192 -S 1 -V 7, one wrap *)
Definition o105 : options := mkO 3 8192 4096 1 8192 1 None false 7.
Definition ev105 (l : list Q) : list event := (0, 1) :: map (fun t => (Qnum t * 256, 1)) l.
Definition evA105 : list event := ev105 alice98.
Definition evB105 : list event := ev105 bob98.
Definition file105 (evs : list event) : list Z := encode (A1 false) (map word_of evs).
Lemma plain105 : plain_search o105.
Proof. repeat split; vm_compute; try reflexivity; discriminate. Qed.
Lemma common105 : common_events 0 MF o105 evA105 evB105 12288 (1 # 65536) 1 65536.
Proof.
  assert (EV : forall l, forallb (fun e => (0 <=? fst e) && (fst e <? 2 ^ 54) && (0 <=? snd e) && (snd e <? 16)) l = true -> Forall event_ok l).
  { intros l H. apply Forall_forall. intros e I. rewrite forallb_forall in H. specialize (H e I). unfold event_ok. lia. }
  unfold common_events. cbv zeta. split; [apply EV; vm_compute; reflexivity|]. split; [apply EV; vm_compute; reflexivity|]. split; [discriminate|]. split; [discriminate|].
  destruct (getitem (since (common_start evA105 evB105) evA105) (-1)) as [a|] eqn:GA; [|vm_compute in GA; discriminate].
  destruct (getitem (since (common_start evA105 evB105) evB105) (-1)) as [b|] eqn:GB; [|vm_compute in GB; discriminate].
  exists a, b. split; [reflexivity|]. split; [reflexivity|].
  vm_compute in GA. vm_compute in GB. injection GA as <-. injection GB as <-.
  set (A := since (common_start evA105 evB105) evA105). set (B := since (common_start evA105 evB105) evB105). set (P := told_search o105).
  set (last := qmin _ _). set (dur := asked_duration MF o105). set (s0 := mkS B _ 0 1 true).
  destruct (iteration MF P A last dur s0) as [[|s1]|] eqn:I0; [vm_compute in I0; discriminate| |vm_compute in I0; discriminate].
  assert (S1 : forall s, iteration MF P A last dur s0 = Ok (Again s) -> s = s1) by (intros s H; rewrite I0 in H; congruence).
  vm_compute in I0. injection I0 as I0.
  destruct (iteration MF P A last dur s1) as [[v df|]|] eqn:I1; [|rewrite <- I0 in I1; vm_compute in I1; discriminate|rewrite <- I0 in I1; vm_compute in I1; discriminate].
  assert (H1 : forall s ws, history MF P A last dur s0 s ws -> s = s0 \/ s = s1 /\ ws <> []).
  { intros s ws H. induction H as [|s ws r d1 d2 s' H IH FI IT]; [now left|]. right. split; [|discriminate]. destruct IH as [-> | [-> _]]; [now apply S1|congruence]. }
  intros s ws k H (K0 & K1 & _ & K3). destruct (H1 s ws H) as [-> | [-> NE]].
  - assert (k = 0).
    { destruct K3 as [K3|K3]; [exact K3|]. destruct (Z.eq_dec k 0) as [|NE]; [assumption|]. exfalso. change (resolution s0) with (inject_Z 8192) in K3.
      assert (P2 : 2 ^ 1 <= 2 ^ k) by (apply Z.pow_le_mono_r; lia). rewrite Zle_Qle in P2. change (inject_Z (2 ^ 1)) with 2%Q in P2. change (inject_Z 8192) with 8192%Q in K3. lra. }
    subst k. split; [|split; [|split]].
    + intros tau T. unfold remaining. change (num_bins P) with 8. change (resolution s0) with 8192%Q. change (dt s0) with 0%Q. change (f s0) with 1%Q. change (inject_Z (2 ^ 0)) with 1%Q.
      setoid_replace (separation_duration P) with 536870912%Q in T by (vm_compute; reflexivity).
      setoid_replace (inject_Z 8 * 8192 / 2)%Q with 32768%Q by reflexivity.
      setoid_replace ((12288 + (1 + (1 # 65536)) * tau - 0) / 1 - tau)%Q with (12288 + (1 # 65536) * tau)%Q by field.
      rewrite Qabs_pos by (destruct T; lra). destruct T as [T|T]; lra.
    + vm_compute. discriminate.
    + apply (stands_ok _ _ _ _ _ _ _ _ _ _ _ _ _ 1); [split; [lia|reflexivity]|]. vm_compute. reflexivity.
    + apply (stands_ok _ _ _ _ _ _ _ _ _ _ _ _ _ 2); [split; [lia|reflexivity]|]. vm_compute. reflexivity.
  - rewrite (K1 NE). rewrite <- I0. split; [|split; [|split]].
    + intros tau T. unfold remaining. cbn [resolution dt f]. change (num_bins P) with 8.
      match goal with |- (Qabs ((12288 + (1 + (1 # 65536)) * tau - ?d) / ?g - tau) + _ <= _)%Q => setoid_replace ((12288 + (1 + (1 # 65536)) * tau - d) / g - tau)%Q with (268435456 # 65537)%Q by field end.
      vm_compute. discriminate.
    + vm_compute. discriminate.
    + apply (stands_ok _ _ _ _ _ _ _ _ _ _ _ _ _ 1); [split; [lia|reflexivity]|]. vm_compute. reflexivity.
    + apply (stands_ok _ _ _ _ _ _ _ _ _ _ _ _ _ 1); [split; [lia|reflexivity]|]. vm_compute. reflexivity.
Qed.
