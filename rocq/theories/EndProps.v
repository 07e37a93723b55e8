(** fpfind on two timestamp files, and freqcd with its result: C88, C89. *)
From Coq Require Import QArith Qabs List Permutation Lia.
From Verif Require Import Float Base FreqcdModel FreqcdSpec FreqcdExamples FreqcdCliSpec TimestampsModel TimestampsSpec UtilsModel UtilsSpec UtilsProofs2 FpfindModel FpfindSpec FpfindProofs3 FpfindPipe FpfindRefute
  MainModel MainProofs3 MainSpec2 PipeSpec EndProofs.
Import ListNotations. Local Open Scope Z_scope.

(** C88 *)
Theorem C88 : forall fuel M repr p o lg evA evB s1 s2, rt M = fl p -> rs M = fl 53 -> accurate (2 ^ buffer_order o) (len evA) (len evB) M -> 54 <= p -> (forall x, field_ok (repr x)) ->
  one_iteration o -> same_events M o evA evB s1 s2 ->
  Z.abs (delay_ns o s1) <= 100000000 -> (Qabs (ratio o s1 s2) <= (1 # 8192) - (1 # 2 ^ 51))%Q ->
  exists line dt df, main_files (S fuel) M p repr o (encode (A1 lg) (map word_of evA)) (encode (A1 lg) (map word_of evB)) lg 0 = Ok line /\
    shows_offsets repr (flag o) dt df line /\ (dt == inject_Z (delay_ns o s1))%Q /\ (Qabs (df - ratio o s1 s2) <= 1 # 2 ^ 51)%Q.
Proof. exact c88. Qed.
Print Assumptions C88.
(** C89; -V 7: inverted, in freqcd's units, without the time *)
Theorem C89 : forall fuel M repr p o lg evA evB s1 s2 prog, rt M = fl p -> rs M = fl 53 -> accurate (2 ^ buffer_order o) (len evA) (len evB) M -> 54 <= p -> (forall x, field_ok (repr x)) ->
  one_iteration o -> flag o = 7 -> same_events M o evA evB s1 s2 ->
  Z.abs (delay_ns o s1) <= 100000000 -> (Qabs (ratio o s1 s2) <= (1 # 2 ^ 13) - (1 # 2 ^ 24))%Q ->
  exists line f, main_files (S fuel) M p repr o (encode (A1 lg) (map word_of evA)) (encode (A1 lg) (map word_of evB)) lg 0 = Ok line /\
    accepted prog line f /\
    forall lg junk ib ob fb ts s' os st, alloc_ok ib ob fb -> Forall tick_ok ts ->
      freqcd true lg junk ib ob fb false f ts = Ok (s', os, st) -> every_read_completes [] (chunks os) ->
      nondecr (map (ev_time lg) (FreqcdSpec.groups (received os))) ->
      let bs := map (map (ev_time lg)) (FreqcdSpec.batches [] (chunks os)) in
      exists tss, length tss = length bs /\
        (forall i t0, hd_error (concat bs) = Some t0 ->
           Forall2 (in_step ((1 # 2 ^ 35) + (1 # 2 ^ 49)) (ratio o s1 s2) t0 (Z.of_nat i + 1)) (nth i bs []) (nth i tss [])) /\
        prefix (written os) (concat (retime lg (FreqcdSpec.groups (received os)) (concat tss))) /\
        (st = Running -> written os = concat (retime lg (FreqcdSpec.groups (received os)) (concat tss))).
Proof. exact c89. Qed.
Print Assumptions C89.
(** 8 bins of 1 ns, the second window after 16384 ns.  The target starts 10 ns after the reference and is one bin late (one event
    turns), then two; fpfind prints -1048512 and freqcd corrects the target's events by it. *)
Definition o8 : options := mkO 3 1 1 1 2048 1 None false 7.
Definition evA8 : list (Z * Z) := map (fun t => (t, 1)) ([0] ++ map (Z.add 2560) [128; 128; 128; 640; 1792; 4194432; 4194432; 4194432; 4194944; 4195200; 5120000]).
Definition evB8 : list (Z * Z) := map (fun t => (t, 2)) (map (Z.add 2560) [0; 384; 384; 384; 896; 4194944; 4194944; 4194944; 4195456; 4195712; 5120000]).
Example C88_case : accurate (2 ^ buffer_order o8) (len evA8) (len evB8) MF /\ one_iteration o8 /\ same_events MF o8 evA8 evB8 1 2 /\ Z.abs (delay_ns o8 1) <= 100000000 /\
  (Qabs (ratio o8 1 2) <= (1 # 2 ^ 13) - (1 # 2 ^ 24))%Q /\
  main_files 1 MF 64 (fun _ => []) o8 (encode (A1 false) (map word_of evA8)) (encode (A1 false) (map word_of evB8)) false 0 = Ok [45; 49; 48; 52; 56; 53; 49; 50].
Proof.
  assert (EV : forall l, forallb (fun e => (0 <=? fst e) && (fst e <? 2 ^ 54) && (0 <=? snd e) && (snd e <? 16)) l = true -> Forall event_ok l).
  { intros l H. apply Forall_forall. intros e I. rewrite forallb_forall in H. specialize (H e I). unfold event_ok. lia. }
  assert (AP : forall h, In h [[3; 0; 1; 0; 0; 0; 0; 1]; [3; 0; 1; 1; 0; 0; 0; 0]] -> aperiodic h).
  { intros h [<-|[<-|[]]] k K; cbn [length] in *; exists ((8 - k) mod 8)%nat; destruct k as [|[|[|[|[|[|[|[|k]]]]]]]]; vm_compute; try lia; split; try lia; discriminate. }
  split; [intros h k (_ & H & _) (_ & K & _); now apply exact_near|].
  split; [repeat split; try reflexivity; try discriminate; exists 4194304; split; [reflexivity|split; [discriminate|reflexivity]]|].
  split; [|split; [discriminate|split; [vm_compute; discriminate|vm_compute; reflexivity]]].
  unfold same_events. split; [apply EV; reflexivity|]. split; [apply EV; reflexivity|]. split; [discriminate|]. split; [discriminate|].
  split; [cbn; lia|]. split; [cbn; lia|].
  assert (WA : window 0 (inject_Z 8) (since 2560 evA8) = map (fun k => inject_Z k / 256)%Q [128; 128; 128; 640; 1792]) by (vm_compute; reflexivity).
  assert (WB : window 0 (inject_Z 8) (since 2560 evB8) = map (fun k => inject_Z k / 256)%Q [0; 384; 384; 384; 896]) by (vm_compute; reflexivity).
  assert (WA' : window 16384 (inject_Z 8) (since 2560 evA8) = map (fun k => inject_Z k / 256)%Q [4194432; 4194432; 4194432; 4194944; 4195200]) by (vm_compute; reflexivity).
  assert (WB' : window 16384 (inject_Z 8) (since 2560 evB8) = map (fun k => inject_Z k / 256)%Q [4194944; 4194944; 4194944; 4195456; 4195712]) by (vm_compute; reflexivity).
  change (common_start evA8 evB8) with 2560. change (sep_ns o8) with 16384%Q. change (acquisition o8) with 8. change (2 ^ buffer_order o8) with 8. change (initial_res o8) with 1.
  split; [eexists; eexists; split; [vm_compute; reflexivity|]; split; [vm_compute; reflexivity|]; split; vm_compute; discriminate|]. split.
  - intros s k [[-> ->]|[-> ->]].
    + rewrite WA, WB. split; [discriminate|]. split.
      * exists (map (fun k => inject_Z k / 256)%Q [384; 384; 384; 896; 0]). split.
        { do 4 (apply Forall2_cons; [exists 0; reflexivity|]). apply Forall2_cons; [exists (-1); reflexivity|constructor]. }
        apply Permutation_map. apply Permutation_sym. exact (Permutation_cons_append [384; 384; 384; 896] 0).
      * intros h H. vm_compute in H. injection H as <-. apply AP. now left.
    + rewrite WA', WB'. split; [discriminate|]. split.
      * eexists. split; [|apply Permutation_refl]. repeat constructor; exists 0; reflexivity.
      * intros h H. vm_compute in H. injection H as <-. apply AP. right. now left.
  - intros ys H. vm_compute in H. injection H as <-. eexists. split; [vm_compute; reflexivity|]. split; vm_compute; discriminate.
Qed.
(** The target's clock shows 256 units more after 16384 ns. *)
Example C89_case : flag o8 = 7 /\ accepted [102] [45; 49; 48; 52; 56; 53; 49; 50] (-1048512) /\
  let ts := [rdin (ev 2560 2 ++ ev (2560 + 4194304 + 256) 2)] in Forall tick_ok ts /\
  outcome2 (run0 (-1048512) ts) = Ok ([ev 2560 2 ++ ev (2560 + 4194304 + 256) 2], [], ev 2560 2 ++ ev (2560 + 4194304) 2, -1048512, Running).
Proof.
  split; [reflexivity|]. split; [eexists; split; vm_compute; reflexivity|]. cbv zeta. split; [apply ticks_okb; vm_compute; reflexivity|demo1].
Qed.
