(** A run on two files which must find something: 2^21 ns late and 2^-14 fast, four common events at the start and four after 2^32 ns, the last two events not common. *)
From Coq Require Import QArith Qabs.
From Coq Require Import ZifyBool.
From Verif Require Import Float Base TimestampsModel TimestampsSpec UtilsModel UtilsSpec FpfindModel FpfindSpec FpfindRefute AccuracySpec PairSpec PairProofs MainModel MainSpec2 WholeSpec SwapSpec SwapCheck ExistSpec ExistCheck.
Import ListNotations. Local Open Scope Z_scope.

(** -q 7 -R 65536 -r 1 -s 512 -S 1 -V 7, one wrap *)
Definition o112 : options := mkO 7 65536 1 1 512 1 None false 7.
Definition sep112 : Z := 2 ^ 32.
Definition times112 : list Z := [4096; 900000; 3500000; 6000000; sep112 + 77777; sep112 + 3000000; sep112 + 5000001; sep112 + 6000000].
Definition D112 : Z := 2 ^ 21.
Definition target112 (t : Z) : Z := D112 + t + t / 2 ^ 14.
Definition ev112 (l : list Z) : list event := map (fun t => (t * 256, 1)) (0 :: l ++ [2 ^ 34]).
Definition evA112 : list event := ev112 times112.
Definition evB112 : list event := ev112 (map target112 times112).
Definition A112 : list Q := since (common_start evA112 evB112) evA112.
Definition B112 : list Q := since (common_start evA112 evB112) evB112.
Definition P112 : params := told_search o112.
Lemma plain112 : plain_search o112.
Proof. repeat split; vm_compute; try reflexivity; discriminate. Qed.
Lemma stand112 : stand_out 0 MF P112 A112 B112 65536 (inject_Z D112) (1 # 16384) 1 8519680.
Proof. apply (stand_out_ok 4); vm_compute; reflexivity. Qed.
Lemma reach112 : within_reach MF P112 A112 B112 65536 (inject_Z D112) (1 # 16384) 1 8519680.
Proof. apply (within_reach_ok 4). vm_compute. reflexivity. Qed.
Lemma significant112 : significant MF P112 A112 B112 65536.
Proof. apply significant_ok. vm_compute. reflexivity. Qed.
Lemma surely112 : ends_surely MF P112 65536.
Proof. split; vm_compute; [reflexivity|discriminate]. Qed.
Lemma device112 : Forall (device_time 54) B112.
Proof.
  assert (G : forall l, forallb (fun t => (Z.pos (Qden t) =? 256) && (0 <=? Qnum t) && (Qnum t <? 2 ^ 54)) l = true -> Forall (device_time 54) l).
  { intros l H. apply Forall_forall. intros x I. rewrite forallb_forall in H. specialize (H x I). exists (Qnum x). destruct x as [a d]. cbn [Qnum Qden] in *. assert (d = 256%positive) as -> by lia.
    split; [|lia]. unfold Qeq, Qdiv, Qmult, Qinv, inject_Z. cbn [Qnum Qden]. lia. }
  apply G. vm_compute. reflexivity.
Qed.
Lemma common112 : common_events 0 MF o112 evA112 evB112 (inject_Z D112) (1 # 16384) 1 8519680.
Proof.
  assert (EV : forall l, forallb (fun e => (0 <=? fst e) && (fst e <? 2 ^ 54) && (0 <=? snd e) && (snd e <? 16)) l = true -> Forall event_ok l).
  { intros l H. apply Forall_forall. intros e I. rewrite forallb_forall in H. specialize (H e I). unfold event_ok. lia. }
  unfold common_events. cbv zeta. split; [apply EV; vm_compute; reflexivity|]. split; [apply EV; vm_compute; reflexivity|]. split; [discriminate|]. split; [discriminate|].
  destruct stand112 as (a & b & GA & GB & S). exists a, b. split; [exact GA|]. split; [exact GB|exact S].
Qed.
