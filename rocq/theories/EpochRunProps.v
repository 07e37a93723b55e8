(** fpfind on epoch directories: C90. *)
From Coq Require Import QArith Qabs List Permutation Lia.
From Verif Require Import Float Base TimestampsModel TimestampsSpec EpochsModel EpochsSpec EpochsStatements EpochsRefute EpochsProofs6 UtilsModel UtilsSpec UtilsProofs2 FpfindModel FpfindSpec FpfindProofs3 FpfindRefute
  MainModel MainProofs MainProofs3 MainSpec2 PipeSpec EndProofs EpochRunSpec EpochRunProofs.
Import ListNotations. Local Open Scope Z_scope.

(** C90.  [m + skip] is the first epoch read, [evA] and [evB] are the events of the epochs needed. *)
Theorem C90 : forall fuel fuel2 M p repr o lg n d1 d2 first m skip xsA evsB, 54 <= p -> respects (rt M) -> epoch_names d1 -> epoch_names d2 ->
  first_common d1 d2 first m -> 0 <= m -> 0 <= m + skip ->
  bins o = Ok n -> epochs_needed (rs M) o n = Ok (len xsA) -> len evsB = len xsA ->
  t2_dir d1 (m + skip) xsA -> t1_dir d2 (m + skip) evsB -> Forall (fun xs => (length xs < fuel2)%nat) xsA ->
  let evA := t2_events (m + skip) xsA in let evB := t1_events (m + skip) evsB in
  Forall event_ok evA -> Forall event_ok evB ->
  main_epochs fuel fuel2 M repr o d1 d2 first skip =
  main_files fuel M p repr o (encode (A1 lg) (map word_of evA)) (encode (A1 lg) (map word_of evB)) lg 0.
Proof. exact c90. Qed.
Print Assumptions C90.
(** so C88 holds of directories *)
Theorem C90_offsets : forall fuel fuel2 M p repr o n d1 d2 first m skip xsA evsB s1 s2, 54 <= p -> rt M = fl p -> rs M = fl 53 -> accurate (2 ^ buffer_order o) (len (t2_events (m + skip) xsA)) (len (t1_events (m + skip) evsB)) M ->
  (forall x, field_ok (repr x)) -> epoch_names d1 -> epoch_names d2 -> first_common d1 d2 first m -> 0 <= m -> 0 <= m + skip ->
  bins o = Ok n -> epochs_needed (rs M) o n = Ok (len xsA) -> len evsB = len xsA ->
  t2_dir d1 (m + skip) xsA -> t1_dir d2 (m + skip) evsB -> Forall (fun xs => (length xs < fuel2)%nat) xsA ->
  one_iteration o -> same_events M o (t2_events (m + skip) xsA) (t1_events (m + skip) evsB) s1 s2 ->
  Z.abs (delay_ns o s1) <= 100000000 -> (Qabs (ratio o s1 s2) <= (1 # 8192) - (1 # 2 ^ 51))%Q ->
  exists line dt df, main_epochs (S fuel) fuel2 M repr o d1 d2 first skip = Ok line /\
    shows_offsets repr (flag o) dt df line /\ (dt == inject_Z (delay_ns o s1))%Q /\ (Qabs (df - ratio o s1 s2) <= 1 # 2 ^ 51)%Q.
Proof. exact c90_offsets. Qed.
Print Assumptions C90_offsets.
(** Epochs 20003 and 20004 in hexadecimal; the events of C88's case in the first and one more in the second. *)
Definition entries9 : list (list entry) :=
  [map (fun d => Extended d 1) [0; 84; 0; 0; 16; 36; 131020; 0; 0; 16; 8; 28900]; [Short 7 2]].
Definition events9 : list (list event) :=
  [map (fun t => (2560 + t, 2)) [0; 384; 384; 384; 896; 4194944; 4194944; 4194944; 4195456; 4195712; 5120000]; [(5, 2)]].
(** 32-bit little-endian words of a bit stream *)
Fixpoint number (l : list bool) (v : Z) : Z := match l with [] => v | b :: r => number r (2 * v + if b then 1 else 0) end.
Fixpoint pack (k : nat) (l : list bool) : list Z :=
  match k with O => [] | S k => le_enc 4 (number (firstn 32 (l ++ repeat false 32)) 0) ++ pack k (skipn 32 l) end.
Definition body9 (xs : list entry) : list Z := pack 20 (entries_bits 8 4 xs ++ terminator 8 4).
Definition send9 : directory := [(int2epoch 131075, t2_header 258 131075 0 8 4 0 ++ body9 (nth 0 entries9 [])); (int2epoch 131076, t2_header 258 131076 1 8 4 0 ++ body9 (nth 1 entries9 []))].
Definition t1s9 : directory := [(int2epoch 131075, t1_file 131075 (nth 0 events9 [])); (int2epoch 131076, t1_file 131076 (nth 1 events9 []))].
Definition o9 : options := mkO 3 1 1 1 2048 1 None false 7.
Lemma bytes_okb l : forallb (fun b => (0 <=? b) && (b <? 256)) l = true -> bytes_ok l.
Proof. intros H. apply Forall_forall. intros b I. rewrite forallb_forall in H. specialize (H b I). unfold is_byte. lia. Qed.
Example C90_case : epoch_names send9 /\ epoch_names t1s9 /\ first_common send9 t1s9 None 131075 /\ bins o9 = Ok 8 /\
  epochs_needed (rs MF) o9 8 = Ok 2 /\ len entries9 = 2 /\ len events9 = 2 /\ t2_dir send9 (131075 + 0) entries9 /\ t1_dir t1s9 (131075 + 0) events9 /\
  Forall (fun xs => (length xs < 13)%nat) entries9 /\ Forall event_ok (t2_events (131075 + 0) entries9) /\ Forall event_ok (t1_events (131075 + 0) events9) /\
  main_epochs 1 13 MF (fun _ => []) o9 send9 t1s9 None 0 = Ok [45; 49; 48; 52; 56; 53; 49; 50].
Proof.
  assert (NM : forall d, names d = [int2epoch 131075; int2epoch 131076] -> epoch_names d).
  { intros d E. unfold epoch_names. rewrite E. repeat constructor; eexists; vm_compute; reflexivity. }
  assert (HE : forall d v, names d = [int2epoch 131075; int2epoch 131076] -> has_epoch d v <-> v = 131075 \/ v = 131076).
  { intros d v E. unfold has_epoch. rewrite E. split.
    - intros (s & [<-|[<-|[]]] & H); vm_compute in H; injection H as <-; [now left|now right].
    - intros [-> | ->]; [exists (int2epoch 131075)|exists (int2epoch 131076)]; (split; [|vm_compute; reflexivity]); [now left|right; now left]. }
  assert (EV : forall l, forallb (fun e => (0 <=? fst e) && (fst e <? 2 ^ 54) && (0 <=? snd e) && (snd e <? 16)) l = true -> Forall event_ok l).
  { intros l H. apply Forall_forall. intros e I. rewrite forallb_forall in H. specialize (H e I). unfold event_ok. lia. }
  split; [apply NM; reflexivity|]. split; [apply NM; reflexivity|].
  split; [split; [rewrite !HE by reflexivity; tauto|intros v (V & _); rewrite HE in V by reflexivity; lia]|].
  split; [reflexivity|]. split; [vm_compute; reflexivity|]. split; [reflexivity|]. split; [reflexivity|]. split; [|split; [|split; [|split; [|split]]]].
  - intros i xs H. assert (EN : forall n e, In n [0; 1] -> In xs entries9 -> len xs = n \/ n = 0 -> t2_encodes (t2_header 258 e n 8 4 0 ++ body9 xs) e 8 4 xs).
    { intros n e N I L. exists 258, n, 0, (body9 xs). split; [reflexivity|]. split; [|split; [|split]].
      - apply bytes_okb. destruct I as [<-|[<-|[]]]; vm_compute; reflexivity.
      - destruct N as [<-|[<-|[]]]; [now left|]. right. destruct L as [L|L]; lia.
      - apply Forall_forall. destruct I as [<-|[<-|[]]]; cbn [map In]; intros x X; repeat destruct X as [<-|X]; try destruct X; unfold entry_ok; cbn [e_base]; lia.
      - apply starts_withb_ok. destruct I as [<-|[<-|[]]]; vm_compute; reflexivity. }
    pose proof (nth_error_In _ _ H) as I.
    assert (BD : In xs entries9 -> forall e, In e [131075; 131076] -> t2_bounded e xs).
    { intros _ e E. apply Forall_forall. destruct I as [<-|[<-|[]]], E as [<-|[<-|[]]]; intros t T; vm_compute in T; repeat destruct T as [<-|T]; try destruct T; lia. }
    destruct i as [|[|i]]; [| |destruct i; discriminate]; cbn [nth_error entries9] in H; injection H as E.
    + exists (t2_header 258 131075 0 8 4 0 ++ body9 xs), 8, 4. split; [subst xs; vm_compute; reflexivity|].
      split; [lia|]. split; [lia|]. split; [lia|]. split; [apply (EN 0); [now left|exact I|now right]|apply BD; [exact I|now left]].
    + exists (t2_header 258 131076 1 8 4 0 ++ body9 xs), 8, 4. split; [subst xs; vm_compute; reflexivity|].
      split; [lia|]. split; [lia|]. split; [lia|]. split; [apply (EN 1); [right; now left|exact I|left; now subst xs]|apply BD; [exact I|right; now left]].
  - intros i evs H. destruct i as [|[|i]]; [| |destruct i; discriminate]; cbn [nth_error events9] in H; injection H as <-;
      (split; [vm_compute; reflexivity|]); (split; [|split; [|reflexivity]]); apply Forall_forall; cbn [map In]; intros x X; repeat destruct X as [<-|X]; try destruct X;
      solve [unfold t1_ok; cbn [fst snd]; lia | vm_compute; discriminate].
  - repeat constructor.
  - apply EV. vm_compute. reflexivity.
  - apply EV. vm_compute. reflexivity.
  - vm_compute. reflexivity.
Qed.
(** the offsets behind that line *)
Example C90_offsets_case : accurate (2 ^ buffer_order o9) (len (t2_events (131075 + 0) entries9)) (len (t1_events (131075 + 0) events9)) MF /\ one_iteration o9 /\ same_events MF o9 (t2_events (131075 + 0) entries9) (t1_events (131075 + 0) events9) 1 2 /\
  Z.abs (delay_ns o9 1) <= 100000000 /\ (Qabs (ratio o9 1 2) <= (1 # 8192) - (1 # 2 ^ 51))%Q.
Proof.
  assert (EV : forall l, forallb (fun e => (0 <=? fst e) && (fst e <? 2 ^ 54) && (0 <=? snd e) && (snd e <? 16)) l = true -> Forall event_ok l).
  { intros l H. apply Forall_forall. intros e I. rewrite forallb_forall in H. specialize (H e I). unfold event_ok. lia. }
  assert (AP : forall h, In h [[3; 0; 1; 0; 0; 0; 0; 1]; [3; 0; 1; 1; 0; 0; 0; 0]] -> aperiodic h).
  { intros h [<-|[<-|[]]] k K; cbn [length] in *; exists ((8 - k) mod 8)%nat; destruct k as [|[|[|[|[|[|[|[|k]]]]]]]]; vm_compute; try lia; split; try lia; discriminate. }
  set (evA := t2_events (131075 + 0) entries9). set (evB := t1_events (131075 + 0) events9).
  split; [intros h k (_ & H & _) (_ & K & _); now apply exact_near|].
  split; [repeat split; try reflexivity; try discriminate; exists 4194304; split; [reflexivity|split; [discriminate|reflexivity]]|].
  split; [|split; [discriminate|vm_compute; discriminate]].
  unfold same_events. split; [apply EV; vm_compute; reflexivity|]. split; [apply EV; vm_compute; reflexivity|]. split; [discriminate|]. split; [discriminate|].
  split; [cbn; lia|]. split; [cbn; lia|].
  assert (ST : common_start evA evB = 3 * 2 ^ 37 + 2560) by (vm_compute; reflexivity). rewrite ST.
  assert (WA : window 0 (inject_Z 8) (since (3 * 2 ^ 37 + 2560) evA) = map (fun k => inject_Z k / 256)%Q [128; 128; 128; 640; 1792]) by (vm_compute; reflexivity).
  assert (WB : window 0 (inject_Z 8) (since (3 * 2 ^ 37 + 2560) evB) = map (fun k => inject_Z k / 256)%Q [0; 384; 384; 384; 896]) by (vm_compute; reflexivity).
  assert (WA' : window 16384 (inject_Z 8) (since (3 * 2 ^ 37 + 2560) evA) = map (fun k => inject_Z k / 256)%Q [4194432; 4194432; 4194432; 4194944; 4195200]) by (vm_compute; reflexivity).
  assert (WB' : window 16384 (inject_Z 8) (since (3 * 2 ^ 37 + 2560) evB) = map (fun k => inject_Z k / 256)%Q [4194944; 4194944; 4194944; 4195456; 4195712]) by (vm_compute; reflexivity).
  change (sep_ns o9) with 16384%Q. change (acquisition o9) with 8. change (2 ^ buffer_order o9) with 8. change (initial_res o9) with 1.
  split; [eexists; eexists; split; [vm_compute; reflexivity|]; split; [vm_compute; reflexivity|]; split; vm_compute; discriminate|]. split.
  - intros s k [[-> ->]|[-> ->]].
    + rewrite WA, WB. split; [discriminate|]. split.
      * exists (map (fun k => inject_Z k / 256)%Q [384; 384; 384; 896; 0]). split.
        { do 4 (apply Forall2_cons; [exists 0; reflexivity|]). apply Forall2_cons; [exists (-1); reflexivity|constructor]. }
        apply Permutation_map. apply Permutation_sym. exact (Permutation_cons_append [384; 384; 384; 896] 0).
      * intros h H. vm_compute in H. injection H as <-. apply AP. now left.
    + rewrite WA', WB'. split; [discriminate|]. split.
      * eexists. split; [|apply Permutation_refl]. repeat constructor; exists 0; reflexivity.
      * intros h H. vm_compute in H. injection H as <-. apply AP. right. now left.
  - intros ys H. vm_compute in H. injection H as <-. eexists. split; [vm_compute; reflexivity|]. split; vm_compute; discriminate.
Qed.
