(** Transforms in floating point: C137, C138.  Real numbers, with the axioms of Coq.Reals. *)
From Coq Require Import QArith Qabs Qreals Reals String List Lia.
From Verif Require Import Float Base FreqcdExamples TimestampsModel TimestampsSpec UtilsModel UtilsSpec FpfindModel FpfindSpec FpfindRefute
  MainModel MainSpec2 AccuracySpec PairSpec SignalSpec RoundedSpec WholeSpec SwapSpec ExistSpec ExistCase ArgModel FpCliModel FpCliSpec FpCliCase SkipSpec SkipProofs SkipCase
  FftModel FftErrSpec FftErrProofs FftErrCase FftErrRun.
Import ListNotations.
Local Open Scope string_scope. Local Open Scope list_scope.
Local Open Scope R_scope.

(** C137.  [eps] is the relative error of a transform, [mu] that of a product. *)
Theorem C137 : forall eps mu n a b T M, 0 <= eps -> 0 <= mu -> good_transforms eps mu n a b T -> uses T n a b M -> Z.even n = true -> (2 <= n)%Z ->
  forall h k, histogram_of n a h -> histogram_of n b k -> length (xc M h k) = length h /\ forall i, (i < length h)%nat ->
    Rabs (Q2R (nth i (xc M h k) 0%Q) - IZR (correlation h k i)) <= result_error eps mu n (events_of h) (events_of k) (norm_of h) (norm_of k).
Proof. exact result_bound. Qed.
Print Assumptions C137.
(** the hypothesis of the theorems about the search *)
Theorem C137_accurate : forall eps mu n a b T M e, 0 <= eps -> 0 <= mu -> good_transforms eps mu n a b T -> uses T n a b M -> Z.even n = true -> (2 <= n)%Z ->
  result_error eps mu n a b (IZR a) (IZR b) <= Q2R e -> accurate_to e n a b M.
Proof. exact all_histograms. Qed.
Print Assumptions C137_accurate.
(** 2^-40: both transforms are too large by 1 + 2^-40 *)
Example C137_case : good_transforms (/ 1099511627776) 0 (2 ^ 7) 10 10 (scaled (Q2R S138)) /\ uses (scaled (Q2R S138)) (2 ^ 7) 10 10 M138 /\
  result_error (/ 1099511627776) 0 (2 ^ 7) 10 10 10 10 <= Q2R (1 # 1000) /\ nth 0 (xc M138 [2; 3]%Z [1; 1]%Z) 0%Q <> 5%Q.
Proof.
  rewrite <- S138_1. split; [apply scaled_good; pose proof S138_1; Lra.lra|]. split; [apply scaled_uses; [reflexivity|discriminate|reflexivity|lia]|]. split; [exact error138|]. vm_compute. discriminate.
Qed.
(** 2^26 bins, a million events in each, 2^-50 for transforms and products: an error below 1/128 *)
Example C137_size : result_error (/ 2 ^ 50) (/ 2 ^ 50) (2 ^ 26) (2 ^ 20) (2 ^ 20) (IZR (2 ^ 20)) (IZR (2 ^ 20)) <= / 128.
Proof. exact size137. Qed.

(** C138.  C123 with the transforms in floating point. *)
Theorem C138 : forall eps mu T e fuel2 M p repr o lg evA evB skip k D F j W args ss fs dirs a b,
  writes args ss -> Forall good ss -> ~ In AHelp ss -> search_asked ss o -> last_of sendfiles_of ss = None \/ last_of t1files_of ss = None ->
  last_of reference_of ss = Some a -> last_of target_of ss = Some b -> decimal_or (last_of skip_of ss) 0 skip -> requested ALegacy ss lg ->
  fs a = Some (encode (A1 lg) (map word_of evA)) -> fs b = Some (encode (A1 lg) (map word_of evB)) ->
  rt M = fl p -> rs M = fl 53 -> (54 <= p)%Z -> good_xc M -> good_zs M -> 0 <= eps -> 0 <= mu ->
  good_transforms eps mu (2 ^ buffer_order o) (len evA) (len evB) T -> uses T (2 ^ buffer_order o) (len evA) (len evB) M ->
  result_error eps mu (2 ^ buffer_order o) (len evA) (len evB) (IZR (len evA)) (IZR (len evB)) <= Q2R e ->
  (forall x, field_ok (repr x)) -> plain_search o -> (0 < buffer_order o)%Z -> (0 <= W)%Q -> (0 <= j)%Q ->
  recordings evA evB skip k -> let S := (common_start evA evB + k)%Z in must_find e M o (since S evA) (since S evB) D F j W ->
  exists n line ws dt df, (forall m, (n <= m)%nat -> run m fuel2 M p repr args fs dirs = Exit 0 (line ++ [10%Z])) /\
    shows_offsets repr (MainModel.flag o) dt df line /\ finds_relation M o (since S evA) (since S evB) D F j W ws dt df.
Proof. exact c138_run. Qed.
Print Assumptions C138.
(** the words of C114_case, C112's recordings, the transforms of C137_case *)
Example C138_case : decimal_or (last_of skip_of ss114) 0 0 /\ len evA112 = 10%Z /\ len evB112 = 10%Z /\ rt M138 = fl 64 /\ rs M138 = fl 53 /\ good_xc M138 /\ good_zs M138 /\ recordings evA112 evB112 0 0 /\
  must_find (1 # 1000) M138 o112 (since (common_start evA112 evB112 + 0) evA112) (since (common_start evA112 evB112 + 0) evB112) (inject_Z D112) (1 # 16384) 1 8519680 /\
  run 3 0 M138 64 (fun _ => []) args114
    (fun n => if same n (str "a") then Some (encode (A1 false) (map word_of evA112)) else if same n (str "b") then Some (encode (A1 false) (map word_of evB112)) else None) (fun _ => [])
  = Exit 0 (str "-1048512" ++ [10%Z]).
Proof.
  split; [reflexivity|]. split; [reflexivity|]. split; [reflexivity|]. split; [reflexivity|]. split; [reflexivity|]. split; [exact good_xc138|]. split; [exact good_zs138|]. split; [exact recordings138|].
  split; [rewrite Z.add_0_r; exact must138|]. vm_compute. reflexivity.
Qed.
