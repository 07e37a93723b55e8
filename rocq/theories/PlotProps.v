(** Properties of fpplot: C91. *)
From Coq Require Import QArith Qabs List Lia.
From Verif Require Import Float Base TimestampsModel TimestampsSpec EpochsModel EpochsSpec UtilsModel FpfindModel FpfindSpec FpfindRefute MainProofs MainSpec2 EpochRunSpec PlotModel PlotSpec PlotProofs.
Import ListNotations. Local Open Scope Z_scope.

(** C91.  [S]: the later of the two first events plus the time skipped. *)
Theorem C91 : forall M p lg skip k duration freq time evA evB, 54 <= p -> rt M = fl p -> rs M = fl 53 ->
  Forall event_ok evA -> Forall event_ok evB -> evA <> [] -> evB <> [] -> (Qabs freq <= 1000)%Q ->
  (fl 53 (skip * 1000000000) == inject_Z k / 256)%Q -> let S := common_start evA evB + k in 0 <= k -> 0 <= S < 2 ^ 54 ->
  (duration = None \/ since S evA <> [] /\ since S evB <> []) ->
  let d := option_map (fun x => fl 53 (x * 1000000000)) duration in
  exists al bo, plot_files M p (encode (A1 lg) (map word_of evA)) (encode (A1 lg) (map word_of evB)) lg skip duration freq time = Ok (al, bo) /\
    same_values al (within d (since S evA)) /\ Forall2 (compensated (1 # 2 ^ 51) freq time) (within d (since S evB)) bo.
Proof. exact c91. Qed.
Print Assumptions C91.
(** so that, with the delay [D] and ratio [F] of the target's clock given, coincidences are at zero *)
Theorem C91_zero : forall eps freq time F D t t' y, (Qabs freq <= 1000)%Q -> compensated eps freq time t' y -> (t' == t * (1 + F) + D)%Q ->
  (Qabs (y - t) <= eps * Qabs (t' - time) + (1003 # 1000) * (Qabs (D - time) + Qabs t * Qabs (F - freq / 1000000)))%Q.
Proof. exact c91_zero. Qed.
Print Assumptions C91_zero.
(** epoch directories *)
Theorem C91_epochs : forall fuel M p lg d1 d2 first m skip xsA evsB duration freq time, 54 <= p -> respects (rt M) -> epoch_names d1 -> epoch_names d2 ->
  first_common d1 d2 first m -> 0 <= m -> 0 <= m + skip -> len evsB = len xsA ->
  t2_dir d1 (m + skip) xsA -> t1_dir d2 (m + skip) evsB -> Forall (fun xs => (length xs < fuel)%nat) xsA ->
  let evA := t2_events (m + skip) xsA in let evB := t1_events (m + skip) evsB in
  Forall event_ok evA -> Forall event_ok evB ->
  plot_epochs fuel M d1 d2 first (len xsA) skip duration freq time =
  plot_files M p (encode (A1 lg) (map word_of evA)) (encode (A1 lg) (map word_of evB)) lg 0 duration freq time.
Proof. exact c91_epochs. Qed.
Print Assumptions C91_epochs.
(** The target starts 1000 ns after the reference, is 3 ns late and its clock 500 ppm fast; 1.5 ms are used.  In ps: *)
Definition plotA : list (Z * Z) := map (fun t => (t, 1)) [0; 256000; 512000; 1024000; 256000000; 512000000].
Definition plotB : list (Z * Z) := map (fun t => (t, 2)) [256000; 512896; 1025152; 256128640; 512256640].
Definition rounded (l : list Q) : list Z := map (fun q => Qround.Qfloor (q * 1000 + (1 # 2))) l.
Example C91_case : Forall event_ok plotA /\ Forall event_ok plotB /\ (Qabs 500 <= 1000)%Q /\ common_start plotA plotB = 256000 /\
  match plot_files MF 64 (encode (A1 false) (map word_of plotA)) (encode (A1 false) (map word_of plotB)) false 0 (Some (15 # 10000)%Q) 500 3 with
  | Ok (a, b) => (a, rounded b) = (map inject_Z [0; 1000; 3000; 999000], [-2999; 1000000; 3000000; 999000000]) | _ => False end.
Proof.
  assert (EV : forall l, forallb (fun e => (0 <=? fst e) && (fst e <? 2 ^ 54) && (0 <=? snd e) && (snd e <? 16)) l = true -> Forall event_ok l).
  { intros l H. apply Forall_forall. intros e I. rewrite forallb_forall in H. specialize (H e I). unfold event_ok. lia. }
  split; [apply EV; reflexivity|]. split; [apply EV; reflexivity|]. split; [discriminate|]. split; [reflexivity|]. vm_compute. reflexivity.
Qed.
