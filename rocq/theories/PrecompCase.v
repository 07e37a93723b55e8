(** The files of C105 searched with two frequencies: nothing is found with the first, the second is right. *)
From Coq Require Import QArith Qabs Lqa String List.
From Coq Require Import ZifyBool.
From Verif Require Import Float Base TimestampsModel TimestampsSpec UtilsModel FpfindModel FpfindSpec FpfindRefute AccuracySpec AccuracyProofs PairSpec PairProofs SignalSpec SignalCase RoundedSpec RoundedProofs MainModel MainSpec2 WholeSpec WholeCase PrecompSpec.
Import ListNotations. Local Open Scope Z_scope.

Definition o107 : options := mkO 3 8192 4096 1 8192 1 (Some ((65 # 65536)%Q, (1 # 65536)%Q, (- 64 # 65536)%Q, true)) false 7.
Definition left107 (fuel : nat) (df0 : Q) : pyres (Q * Q) :=
  time_freq fuel MF (told_search o107) (since (common_start evA105 evB105) evA105) (precompensated 64 df0 (since (common_start evA105 evB105) evB105)) 8192.
Lemma any107 : any_search o107.
Proof. repeat split; vm_compute; try reflexivity; discriminate. Qed.
Lemma tried107 : tried (fl 53) o107 = [65 # 65536; 1 # 65536]%Q.
Proof. vm_compute. reflexivity. Qed.
Lemma moderate107 : moderate (tried (fl 53) o107).
Proof. rewrite tried107. intros x [<-|[<-|[]]]; vm_compute; discriminate. Qed.
Lemma overlapping105 : overlapping evA105 evB105.
Proof.
  destruct common105 as (OA & OB & NA & NB & _). repeat split; try assumption; vm_compute; discriminate.
Qed.
Lemma left_F : (F_left (1 # 65536) (1 # 65536) == 0)%Q.
Proof. vm_compute. reflexivity. Qed.
Lemma left_D : (D_left (1 # 65536) 12288 == 805306368 # 65537)%Q.
Proof. vm_compute. reflexivity. Qed.
Lemma common107 : common_after 0 MF 64 o107 evA105 evB105 (1 # 65536) 12288 (1 # 65536) 1 65536.
Proof.
  unfold common_after. cbv zeta.
  destruct (getitem (since (common_start evA105 evB105) evA105) (-1)) as [a|] eqn:GA; [|vm_compute in GA; discriminate].
  destruct (getitem (precompensated 64 (1 # 65536) (since (common_start evA105 evB105) evB105)) (-1)) as [b|] eqn:GB; [|vm_compute in GB; discriminate].
  exists a, b. split; [reflexivity|]. split; [reflexivity|].
  vm_compute in GA. vm_compute in GB. injection GA as <-. injection GB as <-.
  set (A := since (common_start evA105 evB105) evA105). set (B := precompensated 64 (1 # 65536) (since (common_start evA105 evB105) evB105)). set (P := told_search o107).
  set (last := qmin _ _). set (dur := asked_duration MF o107). set (s0 := mkS B _ 0 1 true).
  destruct (iteration MF P A last dur s0) as [[|s1]|] eqn:I0; [vm_compute in I0; discriminate| |vm_compute in I0; discriminate].
  assert (S1 : forall s, iteration MF P A last dur s0 = Ok (Again s) -> s = s1) by (intros s H; rewrite I0 in H; congruence).
  vm_compute in I0. injection I0 as I0.
  destruct (iteration MF P A last dur s1) as [[v df|]|] eqn:I1; [|rewrite <- I0 in I1; vm_compute in I1; discriminate|rewrite <- I0 in I1; vm_compute in I1; discriminate].
  assert (H1 : forall s ws, history MF P A last dur s0 s ws -> s = s0 \/ s = s1 /\ ws <> []).
  { intros s ws H. induction H as [|s ws r d1 d2 s' H IH FI IT]; [now left|]. right. split; [|discriminate]. destruct IH as [-> | [-> _]]; [now apply S1|congruence]. }
  intros s ws k H (K0 & K1 & _ & K3). destruct (H1 s ws H) as [-> | [-> NE]].
  - assert (k = 0).
    { destruct K3 as [K3|K3]; [exact K3|]. destruct (Z.eq_dec k 0) as [|NE]; [assumption|]. exfalso. change (resolution s0) with (inject_Z 8192) in K3.
      assert (P2 : 2 ^ 1 <= 2 ^ k) by (apply Z.pow_le_mono_r; lia). rewrite Zle_Qle in P2. change (inject_Z (2 ^ 1)) with 2%Q in P2. change (inject_Z 8192) with 8192%Q in K3. lra. }
    subst k. split; [|split; [|split]].
    + intros tau T. unfold remaining. change (num_bins P) with 8. change (resolution s0) with 8192%Q. change (dt s0) with 0%Q. change (f s0) with 1%Q. change (inject_Z (2 ^ 0)) with 1%Q. rewrite left_F, left_D.
      setoid_replace (((805306368 # 65537) + (1 + 0) * tau - 0) / 1 - tau)%Q with (805306368 # 65537)%Q by field. vm_compute. discriminate.
    + vm_compute. discriminate.
    + apply (stands_ok _ _ _ _ _ _ _ _ _ _ _ _ _ 1); [split; [lia|reflexivity]|]. vm_compute. reflexivity.
    + apply (stands_ok _ _ _ _ _ _ _ _ _ _ _ _ _ 1); [split; [lia|reflexivity]|]. vm_compute. reflexivity.
  - rewrite (K1 NE). rewrite <- I0. split; [|split; [|split]].
    + intros tau T. unfold remaining. cbn [resolution dt f]. change (num_bins P) with 8. rewrite left_F, left_D.
      match goal with |- (Qabs (((805306368 # 65537) + (1 + 0) * tau - ?d) / ?g - tau) + _ <= _)%Q => setoid_replace (((805306368 # 65537) + (1 + 0) * tau - d) / g - tau)%Q with ((805306368 # 65537) - 8192)%Q by field end.
      vm_compute. discriminate.
    + vm_compute. discriminate.
    + apply (stands_ok _ _ _ _ _ _ _ _ _ _ _ _ _ 1); [split; [lia|reflexivity]|]. vm_compute. reflexivity.
    + apply (stands_ok _ _ _ _ _ _ _ _ _ _ _ _ _ 1); [split; [lia|reflexivity]|]. vm_compute. reflexivity.
Qed.
