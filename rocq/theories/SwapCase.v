(** A run in both directions: 2^21 ns late and 2^-14 fast, four common events at the start and four after 2^30 ns, the last two events not common. *)
From Coq Require Import QArith Qabs.
From Verif Require Import Float Base TimestampsModel UtilsModel UtilsSpec FpfindModel FpfindSpec FpfindRefute AccuracySpec PairSpec PairProofs SwapSpec SwapCheck.
Import ListNotations. Local Open Scope Z_scope.

Definition sep110 : Z := 2 ^ 30.
Definition times110 : list Z := [4096; 900000; 3500000; 6000000; sep110 + 77777; sep110 + 3000000; sep110 + 5000001; sep110 + 6000000].
Definition D110 : Z := 2 ^ 21.
(** to whole ns *)
Definition target110 (t : Z) : Z := D110 + t + t / 2 ^ 14.
Definition A110 : list Q := map inject_Z (times110 ++ [2 ^ 32 + 100000000]).
Definition B110 : list Q := map inject_Z (map target110 times110 ++ [2 ^ 32 + 100000000]).
Definition P110 : params := mkP 1 128 1 1 (inject_Z sep110).
Definition dt1_110 : Q := 34359721983 # 16384.
Definition df1_110 : Q := 1 # 16384.
Definition dt2_110 : Q := -268419073 # 128.
Definition df2_110 : Q := -268419073 # 4398046511104.
Lemma run110 : fpfind 4 MF P110 A110 B110 65536 [0%Q] false = Ok (dt1_110, df1_110) /\ fpfind 4 MF P110 B110 A110 65536 [0%Q] false = Ok (dt2_110, df2_110).
Proof. split; vm_compute; reflexivity. Qed.
Lemma device110 : Forall (device_time 54) A110 /\ Forall (device_time 54) B110.
Proof.
  assert (G : forall l, forallb (fun t => (0 <=? t) && (t <? 2 ^ 46)) l = true -> Forall (device_time 54) (map inject_Z l)).
  { intros l H. apply Forall_forall. intros x I. apply in_map_iff in I as (t & <- & I). rewrite forallb_forall in H. specialize (H t I). apply andb_true_iff in H as [H1 H2]. apply Z.leb_le in H1. apply Z.ltb_lt in H2.
    exists (t * 256). split; [rewrite inject_Z_mult; field|change (2 ^ 54) with (2 ^ 46 * 256); lia]. }
  split; apply G; vm_compute; reflexivity.
Qed.
Lemma stand110 : stand_out 0 MF P110 A110 B110 65536 (inject_Z D110) (1 # 16384) 1 8519680.
Proof. apply (stand_out_ok 4); vm_compute; reflexivity. Qed.
Lemma stand110' : stand_out 0 MF P110 B110 A110 65536 (other_D (inject_Z D110) (1 # 16384)) (other_F (1 # 16384)) 1 8519680.
Proof. apply (stand_out_ok 4); vm_compute; reflexivity. Qed.
