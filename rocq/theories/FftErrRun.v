(** fpfind from the command line with transforms in floating point. *)
From Coq Require Import QArith Qabs Qreals Reals List Lia.
From Verif Require Import Float Base TimestampsModel TimestampsSpec UtilsModel UtilsSpec FpfindModel FpfindSpec MainModel MainSpec2 AccuracySpec PairSpec WholeSpec SwapSpec ExistSpec
  ArgModel FpCliModel FpCliSpec SkipSpec SkipProofs FftModel FftErrSpec FftErrCase.
Import ListNotations.
Local Open Scope R_scope.

Lemma c138_run eps mu T e fuel2 M p repr o lg evA evB skip k D F j W args ss fs dirs a b :
  writes args ss -> Forall good ss -> ~ In AHelp ss -> search_asked ss o -> last_of sendfiles_of ss = None \/ last_of t1files_of ss = None ->
  last_of reference_of ss = Some a -> last_of target_of ss = Some b -> decimal_or (last_of skip_of ss) 0 skip -> requested ALegacy ss lg ->
  fs a = Some (encode (A1 lg) (map word_of evA)) -> fs b = Some (encode (A1 lg) (map word_of evB)) ->
  rt M = fl p -> rs M = fl 53 -> (54 <= p)%Z -> good_xc M -> good_zs M -> 0 <= eps -> 0 <= mu ->
  good_transforms eps mu (2 ^ buffer_order o) (len evA) (len evB) T -> uses T (2 ^ buffer_order o) (len evA) (len evB) M ->
  result_error eps mu (2 ^ buffer_order o) (len evA) (len evB) (IZR (len evA)) (IZR (len evB)) <= Q2R e ->
  (forall x, field_ok (repr x)) -> plain_search o -> (0 < buffer_order o)%Z -> (0 <= W)%Q -> (0 <= j)%Q ->
  recordings evA evB skip k -> let S := (common_start evA evB + k)%Z in must_find e M o (since S evA) (since S evB) D F j W ->
  exists n line ws dt df, (forall m, (n <= m)%nat -> run m fuel2 M p repr args fs dirs = Exit 0 (line ++ [10%Z])) /\
    shows_offsets repr (MainModel.flag o) dt df line /\ finds_relation M o (since S evA) (since S evB) D F j W ws dt df.
Proof.
  intros WR GO NH SA DI RA TB SK LE FA FB RT RS P54 GX GZ E0 M0 GT US RE FR PL BO W0 J0 RC S MU.
  apply (c123 e fuel2 M p repr o lg evA evB skip k D F j W args ss fs dirs a b); try assumption. apply (c138 eps mu T); try assumption. lia.
Qed.
