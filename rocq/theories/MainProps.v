(** Properties of fpfind's main: C79-C81. *)
From Coq Require Import QArith Qabs Lqa Permutation.
From Verif Require Import Float Base TimestampsModel TimestampsSpec EpochsModel EpochsSpec UtilsModel UtilsSpec UtilsProofs2 FpfindModel FpfindSpec FpfindRefute
  MainModel MainProofs MainProofs2 MainProofs3.
Local Open Scope Z_scope.

(** C79.  Epochs last 2^29 ns; the number read covers the window and the separated window, and at most one is more than
    needed after rounding up. *)
Theorem C79 : forall o n num, (0 <= separation o)%Q -> 0 <= Ta o n < 2 ^ 53 -> epochs_needed (fl 53) o n = Ok num ->
  ((separation o + 1) * inject_Z (Ta o n) <= inject_Z num * inject_Z (2 ^ 29))%Q /\
  (inject_Z (num - 2) * inject_Z (2 ^ 29) < minimum_duration (fl 53) o n)%Q /\
  (minimum_duration (fl 53) o n <= inject_Z (num - 1) * inject_Z (2 ^ 29))%Q.
Proof. exact c79. Qed.
Print Assumptions C79.
(** with fewer epochs than that nothing is printed *)
Theorem C79_short : forall fuel fuel2 M repr o d1 d2 first f skip k num e av line, epoch_names d1 -> epoch_names d2 ->
  match first with None => f = None | Some s => exists v, epoch2int s = Ok v /\ f = Some v end -> Forall (fun s => forall v, epoch2int s = Ok v -> 0 <= v) (names d1) ->
  bins o = Ok k -> epochs_needed (rs M) o k = Ok num ->
  get_first_overlapping_epoch d1 d2 first = Ok (Some e, av) -> 0 <= skip <= av -> av < skip + num ->
  main_epochs fuel fuel2 M repr o d1 d2 first skip <> Ok line.
Proof. exact c79_short. Qed.
Print Assumptions C79_short.
(** the default options: 2^26 bins of 16 ns, separation 6 *)
Definition defaults : options := mkO 26 16 1 1 6 6 None false 0.
Example C79_case : bins defaults = Ok (2 ^ 26) /\ Ta defaults (2 ^ 26) = 2 ^ 30 /\ epochs_needed (fl 53) defaults (2 ^ 26) = Ok 15 /\ (0 <= separation defaults)%Q.
Proof. repeat split; vm_compute; congruence. Qed.
Example C79_short_case : let d := [([97; 97; 48; 48; 48; 48; 48; 49], [])] in epoch_names d /\
  get_first_overlapping_epoch d d None = Ok (Some [97; 97; 48; 48; 48; 48; 48; 49], 1) /\
  main_epochs 1 1 MF (fun _ => []) defaults d d None 0 = Err StructError.
Proof. cbv zeta. split; [repeat constructor; eexists; vm_compute; reflexivity|]. split; vm_compute; reflexivity. Qed.

(** C80 *)
Theorem C80 : forall fuel M p repr o lg skip n c evA evB, 63 <= p -> rt M = fl p -> rs M = fl 53 ->
  Forall event_ok evA -> Forall event_ok evB -> Forall event_ok (later c evA) -> Forall event_ok (later c evB) ->
  (fl 53 (skip * 1000000000) == n)%Q -> device_time 62 n ->
  let file evs := encode (A1 lg) (map word_of evs) in
  main_files fuel M p repr o (file evA) (file evB) lg skip = main_files fuel M p repr o (file (later c evA)) (file (later c evB)) lg skip.
Proof. exact c80. Qed.
Print Assumptions C80.
(** 8 bins of 1 ns, the second window after 16384 ns; the target one bin late, then two; both clocks moved by 2 microseconds *)
Definition small : options := mkO 3 1 1 1 2048 1 None false 6.
Definition evA5 : list (Z * Z) := map (fun t => (t, 1)) [0; 0; 0; 512; 768; 4194304; 4194304; 4194304; 4194816; 4195072; 5120000].
Definition evB5 : list (Z * Z) := map (fun t => (t, 1)) [0; 256; 256; 256; 768; 1024; 4194816; 4194816; 4194816; 4195328; 4195584; 5120000].
Example C80_case : Forall event_ok evA5 /\ Forall event_ok evB5 /\ Forall event_ok (later 512000 evA5) /\ Forall event_ok (later 512000 evB5) /\
  (fl 53 (0 * 1000000000) == 0)%Q /\ device_time 62 0 /\
  main_files 1 MF 64 (fun _ => []) small (encode (A1 false) (map word_of (later 512000 evA5))) (encode (A1 false) (map word_of (later 512000 evB5))) false 0 =
    Ok [49; 48; 52; 56; 53; 55; 54].
Proof.
  assert (E : forall l, forallb (fun e => (0 <=? fst e) && (fst e <? 2 ^ 54) && (0 <=? snd e) && (snd e <? 16)) l = true -> Forall event_ok l).
  { intros l H. apply Forall_forall. intros e I. rewrite forallb_forall in H. specialize (H e I). unfold event_ok. lia. }
  do 4 (split; [apply E; vm_compute; reflexivity|]). split; [reflexivity|]. split; [exists 0; split; [reflexivity|split; [lia|reflexivity]]|].
  vm_compute. reflexivity.
Qed.

(** C81 *)
Theorem C81 : forall fuel M P b p ats bts z s1 s2 a0 b0, rt M = fl p -> rs M = fl 53 -> accurate (num_bins P) (len ats) (len bts) M -> 1 <= p -> b <= p ->
  0 < z -> 1 < num_bins P -> Z.odd (num_bins P) = false -> 0 < num_wraps P < 2 ^ p ->
  let n := num_bins P in let res := inject_Z z in let sep := separation_duration P in
  let T := z * n * num_wraps P in let W := inject_Z T in
  T < 2 ^ 53 -> (target_resolution P == res)%Q ->
  Forall (device_time b) ats -> Forall (device_time b) bts -> device_time b sep -> (0 < sep)%Q ->
  getitem ats (-1) = Ok a0 -> getitem bts (-1) = Ok b0 -> (W <= a0)%Q -> (W <= b0)%Q ->
  0 <= s1 < n -> 0 <= s2 < n -> window 0 W ats <> [] -> window sep W ats <> [] ->
  moved n res s1 (window 0 W ats) (window 0 W bts) -> moved n res s2 (window sep W ats) (window sep W bts) ->
  (forall s h, s = 0%Q \/ s = sep -> histogram (map (fun t => t - s)%Q (window s W ats)) n res = Ok h -> aperiodic h) ->
  (forall ys, correlate M P ats bts 0 W res = Ok ys -> exists sig, sig_of M ys res = Ok sig /\ (threshold P <= sig)%Q /\ ~ (sig == 0)%Q) ->
  let c1 := centered n s1 * z in let c2 := centered n s2 * z in
  Z.abs c1 <= 100000000 -> (Qabs (inject_Z (c2 - c1) / sep) <= (1 # 8192) - (1 # 2 ^ 51))%Q ->
  exists dt df, time_freq (S fuel) M P ats bts res = Ok (dt, df) /\ (dt == inject_Z c1)%Q /\
    (Qabs (df - inject_Z (c2 - c1) / sep) <= 1 # 2 ^ 52)%Q.
Proof. exact c81. Qed.
Print Assumptions C81.
(** one bin of delay at the start, two after 2^14 *)
Definition sep5 : Q := 16384.
Definition P5 : params := mkP 1 8 1 1 sep5.
Definition alice5 : list Q := [1#2; 1#2; 1#2; 5#2; 7#2; 32769#2; 32769#2; 32769#2; 32773#2; 32775#2; 20000]%Q.
Definition bob5 : list Q := [3#2; 3#2; 3#2; 7#2; 9#2; 32773#2; 32773#2; 32773#2; 32777#2; 32779#2; 20000]%Q.
Lemma MF_accurate n a b : accurate n a b MF.
Proof. intros h k (_ & H & _) (_ & K & _). now apply exact_near. Qed.
Lemma moved_by n res s A : moved n res s A (map (fun t => t + inject_Z (0 * n + s) * res)%Q A).
Proof.
  eexists. split; [|apply Permutation_refl]. induction A as [|a A IH]; cbn [map]; constructor; [|exact IH]. exists 0. reflexivity.
Qed.
Example C81_case : exists dt df, time_freq 1 MF P5 alice5 bob5 (inject_Z 1) = Ok (dt, df) /\ (dt == inject_Z 1)%Q /\
    (Qabs (df - inject_Z 1 / sep5) <= 1 # 2 ^ 52)%Q.
Proof.
  assert (WA : window 0 8 alice5 = firstn 5 alice5) by (vm_compute; reflexivity).
  assert (WB : window 0 8 bob5 = firstn 5 bob5) by (vm_compute; reflexivity).
  assert (WA' : window sep5 8 alice5 = firstn 5 (skipn 5 alice5)) by (vm_compute; reflexivity).
  assert (WB' : window sep5 8 bob5 = firstn 5 (skipn 5 bob5)) by (vm_compute; reflexivity).
  assert (D : forall t, In t (alice5 ++ bob5 ++ [sep5]) -> device_time 62 t).
  { intros t I. exists (Qfloor (t * 256)). revert t I. apply Forall_forall. repeat constructor; vm_compute; congruence. }
  assert (AP : aperiodic [3; 0; 1; 1; 0; 0; 0; 0]).
  { intros k K. cbn [length] in *. exists ((8 - k) mod 8)%nat. destruct k as [|[|[|[|[|[|[|[|k]]]]]]]]; vm_compute; try lia; split; try lia; discriminate. }
  apply (C81 0 MF P5 62 64 alice5 bob5 1 1 2 20000%Q 20000%Q); cbv zeta.
  - reflexivity.
  - reflexivity.
  - apply MF_accurate.
  - lia.
  - lia.
  - lia.
  - reflexivity.
  - reflexivity.
  - split; reflexivity.
  - reflexivity.
  - reflexivity.
  - apply Forall_forall. intros t I. apply D, in_or_app. now left.
  - apply Forall_forall. intros t I. apply D, in_or_app. right. apply in_or_app. now left.
  - apply D, in_or_app. right. apply in_or_app. right. now left.
  - reflexivity.
  - reflexivity.
  - reflexivity.
  - discriminate.
  - discriminate.
  - cbn. lia.
  - cbn. lia.
  - change (window 0 8 alice5 <> []). rewrite WA. discriminate.
  - change (window sep5 8 alice5 <> []). rewrite WA'. discriminate.
  - change (moved 8 (inject_Z 1) 1 (window 0 8 alice5) (window 0 8 bob5)). rewrite WA, WB. eexists. split; [|apply Permutation_refl].
    repeat constructor; exists 0; reflexivity.
  - change (moved 8 (inject_Z 1) 2 (window sep5 8 alice5) (window sep5 8 bob5)). rewrite WA', WB'. eexists. split; [|apply Permutation_refl].
    repeat constructor; exists 0; reflexivity.
  - intros s h [->| ->] H.
    + change (histogram (map (fun t => t - 0)%Q (window 0 8 alice5)) 8 (inject_Z 1) = Ok h) in H. rewrite WA in H. vm_compute in H. injection H as <-. exact AP.
    + change (histogram (map (fun t => t - sep5)%Q (window sep5 8 alice5)) 8 (inject_Z 1) = Ok h) in H. rewrite WA' in H. vm_compute in H. injection H as <-. exact AP.
  - intros ys H. change (correlate MF P5 alice5 bob5 0 8 (inject_Z 1) = Ok ys) in H. vm_compute in H. injection H as <-.
    eexists. split; [vm_compute; reflexivity|]. split; vm_compute; discriminate.
  - discriminate.
  - vm_compute. discriminate.
Qed.
