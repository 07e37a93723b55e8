(** fpfind with precompensation and freqcd from their command lines. *)
From Coq Require Import QArith Qabs String List Lia.
From Verif Require Import Float Base FreqcdModel FreqcdSpec FreqcdCliSpec FreqcdExamples TimestampsModel TimestampsSpec UtilsModel UtilsSpec FpfindModel FpfindSpec FpfindProofs3 FpfindProofs4 FpfindPipe MainModel MainSpec2
  CdRunModel CdRunSpec AccuracySpec PairSpec PairProofs SignalSpec RoundedSpec WholeSpec WholeProofs WholeProofs2 SwapSpec ExistSpec ExistProofs PrecompSpec PrecompProofs ScanSpec ScanProofs ArgModel FpCliModel FpCliSpec FpCliProofs.
Import ListNotations. Local Open Scope Z_scope.

Section command.
Variables (e : Q) (fuel2 : nat) (M : fpu) (p : Z) (repr : Q -> list Z) (o : options) (lg : bool) (evA evB : list event) (before : list Q) (df0 D F j W : Q)
  (args : list (list Z)) (ss : list ask) (fs : list Z -> option (list Z)) (dirs : list Z -> list (list Z * list Z)) (a b : list Z).
Hypotheses (WR : FpCliSpec.writes args ss) (G : Forall FpCliSpec.good ss) (NH : ~ In AHelp ss) (SO : search_asked ss o)
  (ND : FpCliSpec.last_of sendfiles_of ss = None \/ FpCliSpec.last_of t1files_of ss = None)
  (RA : FpCliSpec.last_of reference_of ss = Some a) (TB : FpCliSpec.last_of target_of ss = Some b) (NS : FpCliSpec.last_of skip_of ss = None) (LG : requested ALegacy ss lg)
  (FA : fs a = Some (encode (A1 lg) (map word_of evA))) (FB : fs b = Some (encode (A1 lg) (map word_of evB)))
  (RT : rt M = fl p) (RS : rs M = fl 53) (AC : accurate_to e (2 ^ buffer_order o) (len evA) (len evB) M) (E0 : (0 <= e)%Q) (P54 : 54 <= p) (GX : good_xc M) (GZ : good_zs M) (FR : forall x, field_ok (repr x))
  (BF : bound_to_find e M p o evA evB before df0 D F j W).
Lemma scanned : exists n df1 dt df, (forall m, (n <= m)%nat -> run m fuel2 M p repr args fs dirs = Exit 0 (output (fl 53) repr (flag o) dt df ++ [10])) /\ In df1 (before ++ [df0]) /\
    forall D F j W, (0 <= W)%Q -> (0 <= j)%Q -> common_after e M p o evA evB df1 D F j W ->
    exists ws, widths_after M p o evA evB df1 ws /\
      let E := search_freq_error o (F_left df1 F) j W ws in
      (Qabs (df - F) <= clock df1 * E + (1 # 2 ^ 49) * (1 + Qabs (F_left df1 F) + E))%Q /\
      (Qabs (dt - D) <= clock df1 * search_time_error o (D_left df1 D) (F_left df1 F) j W ws + (1 # 2 ^ 49) * (Qabs dt + 100000000))%Q.
Proof.
  destruct BF as (PS & BO & MO & OV & W0 & J0 & ES & (post & TR) & LE & CA & WI & SG).
  destruct (c135_files e M p repr o lg evA evB before df0 post D F j W RT RS AC E0 P54 GX GZ PS BO MO OV W0 J0 ES TR LE CA WI SG) as (n & df1 & dt & df & R & C).
  exists n, df1, dt, df. split; [|exact C]. intros m Hm. assert (NE : args <> []) by (intros ->; inv WR; discriminate).
  rewrite (run_files m fuel2 M p repr args ss fs dirs WR G NE NH o SO ND a b _ _ lg 0%Q RA TB FA FB LG ltac:(rewrite NS; reflexivity)), (R m Hm). reflexivity.
Qed.
Lemma c135 : exists n line df1 dt df, (forall m, (n <= m)%nat -> run m fuel2 M p repr args fs dirs = Exit 0 (line ++ [10])) /\ shows_offsets repr (flag o) dt df line /\ In df1 (before ++ [df0]) /\
    forall D F j W, (0 <= W)%Q -> (0 <= j)%Q -> common_after e M p o evA evB df1 D F j W ->
    exists ws, widths_after M p o evA evB df1 ws /\
      let E := search_freq_error o (F_left df1 F) j W ws in
      (Qabs (df - F) <= clock df1 * E + (1 # 2 ^ 49) * (1 + Qabs (F_left df1 F) + E))%Q /\
      (Qabs (dt - D) <= clock df1 * search_time_error o (D_left df1 D) (F_left df1 F) j W ws + (1 # 2 ^ 49) * (Qabs dt + 100000000))%Q.
Proof. destruct scanned as (n & df1 & dt & df & R & C). exists n, (output (fl 53) repr (flag o) dt df), df1, dt, df. split; [exact R|]. split; [exact (c62 (fl 53) repr (flag o) dt df FR)|exact C]. Qed.
Hypotheses (FL : flag o = 7) (NB : nondecr (map fst evB)).
Lemma c136 : exists n line df1, (forall m, (n <= m)%nat -> run m fuel2 M p repr args fs dirs = Exit 0 (line ++ [10])) /\ In df1 (before ++ [df0]) /\
    forall D F j W, (0 <= W)%Q -> (0 <= j)%Q -> common_after e M p o evA evB df1 D F j W ->
    exists ws, widths_after M p o evA evB df1 ws /\ let L := search_freq_error o (F_left df1 F) j W ws in let E := (clock df1 * L + (1 # 2 ^ 49) * (1 + Qabs (F_left df1 F) + L))%Q in
  ((Qabs F + E <= (1 # 2 ^ 13) - (1 # 2 ^ 25))%Q ->
   forall junk ib ob fb prog args' ss' fs' stdin, alloc_ok ib ob fb -> corrects_with args' ss' line -> legacy_of ss' = lg ->
     input_of fs' stdin ss' = Some (encode (A1 lg) (map word_of evB)) ->
     exists en times, freqcd_main true junk ib ob fb (prog :: args') fs' stdin = Some (Ok en) /\ code en = 0 /\
       retimed_file fs' (files en) (CdRunModel.stdout en) ss' (encode (A1 lg) (map word_of evB)) times /\
       forall i k ev0 evi evk t' u' d a b, nth_error evB 0 = Some ev0 -> nth_error evB i = Some evi -> nth_error evB k = Some evk -> nth_error times i = Some t' -> nth_error times k = Some u' ->
         (Qabs (inject_Z (fst evi) - (d + (1 + F) * a)) <= 256 * j)%Q -> (Qabs (inject_Z (fst evk) - (d + (1 + F) * b)) <= 256 * j)%Q ->
         as_apart ((5 # 4) * E + (1 # 2 ^ 35) + (1 # 2 ^ 50)) (256 * j) (fst ev0) (Z.of_nat i / 1024 + 1) (Z.of_nat k / 1024 + 1) (fst evi) (fst evk) t' u' a b).
Proof.
  destruct scanned as (n & df1 & dt & df & R & I & C). exists n, (output (fl 53) repr (flag o) dt df), df1. split; [exact R|]. split; [exact I|].
  intros D' F' j' W' W0 J0 CE. destruct (C D' F' j' W' W0 J0 CE) as (ws & WO & BFq & _). exists ws. split; [exact WO|]. cbv zeta in BFq. cbv zeta. intros SM.
  destruct BF as (_ & _ & _ & (_ & OB & _) & _). rewrite FL. exact (line_run repr dt df F' _ j' lg evB _ FR eq_refl BFq SM OB NB).
Qed.
End command.
