(** The search can give up before the target resolution although the recordings are good: 20480 ns and no frequency offset where there are 20000 ns and 2^-17. *)
From Coq Require Import QArith Qabs Lqa List Lia.
From Verif Require Import Float Base TimestampsModel TimestampsSpec UtilsModel UtilsSpec FpfindModel FpfindSpec FpfindRefute MainModel MainSpec2 AccuracySpec PairSpec RoundedSpec WholeSpec SwapSpec ExistSpec GroundSpec GroundCheck GroundCase SteadyCase.
Import ListNotations. Local Open Scope Z_scope.
Lemma widths_end : forall ws, to_the_end P139 1024 ws -> ws = [64%Q; 1024%Q].
Proof.
  intros ws (ws' & q & -> & WI & E). destruct (widths139 ws' q WI) as [[-> ->]|[-> ->]]; [|reflexivity]. vm_compute in E. discriminate E.
Qed.
Lemma nothing_is dt df : nothing_found (Ok (dt, df)) = true -> (dt == 20480)%Q.
Proof. cbn [nothing_found]. intros H. apply Bool.andb_true_iff in H as [H _]. now apply Qeq_bool_iff. Qed.
Lemma c141_refuted : ~ (forall e M p P A B res D F j0 j W T, rt M = fl p -> rs M = fl 53 -> accurate_to e (num_bins P) (len A) (len B) M -> (0 <= e)%Q -> 54 <= p -> good_xc M -> good_zs M -> 0 < num_bins P -> Z.odd (num_bins P) = false ->
  (0 < target_resolution P)%Q -> (0 < res)%Q -> (fl 53 res == res)%Q -> (0 < separation_duration P)%Q -> Forall (device_time 54) B ->
  ends_surely M P res -> recorded_well e M P A B res D F j0 j W T -> significant M P A B res ->
  exists n dt df ws, (forall m, (n <= m)%nat -> fpfind m M P A B res [0%Q] false = Ok (dt, df)) /\
    to_the_end P res ws /\ (Qabs (df - F) <= freq_off P F j W ws)%Q /\ (Qabs (dt - D) <= time_off P D F j W ws dt)%Q).
Proof.
  intros H. destruct (H 0%Q M139 64 P139 A_up B_up 1024%Q 20000%Q F_up (1 # 256)%Q (1 # 128)%Q W139 (2 ^ 25)%Q eq_refl eq_refl (accurate139 _ _ _) (Qle_refl 0) ltac:(discriminate) good_xc139 good_zs139 eq_refl eq_refl
    eq_refl eq_refl ltac:(vm_compute; reflexivity) eq_refl device_up surely139 well_up significant_up) as (n & dt & df & ws & RUN & TE & _ & TO). clear H.
  rewrite (widths_end ws TE) in TO. pose proof (found_up n) as Z0. rewrite (RUN (S (S n)) ltac:(lia)) in Z0. apply nothing_is in Z0.
  assert (B1 : (time_off P139 20000 F_up (1 # 128) W139 [64%Q; 1024%Q] 20480 < 480)%Q) by (vm_compute; reflexivity).
  assert (B2 : (time_off P139 20000 F_up (1 # 128) W139 [64%Q; 1024%Q] dt == time_off P139 20000 F_up (1 # 128) W139 [64%Q; 1024%Q] 20480)%Q) by (unfold time_off; rewrite Z0; reflexivity).
  rewrite B2, Z0 in TO. change (Qabs (20480 - 20000)) with 480%Q in TO. lra.
Qed.
