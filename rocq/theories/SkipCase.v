(** C112's recordings after one second to be skipped, and smaller ones in epoch directories. *)
From Coq Require Import QArith Qabs String List Lia.
From Coq Require Import ZifyBool.
From Verif Require Import Float Base FreqcdExamples TimestampsModel TimestampsSpec EpochsModel EpochsSpec EpochsStatements EpochsRefute EpochsProofs6 EpochRunSpec UtilsModel UtilsSpec FpfindModel FpfindSpec FpfindProofs3 FpfindProofs4 FpfindRefute FpfindPipe
  MainModel MainSpec2 CdRunModel AccuracySpec PairSpec PairProofs SignalSpec RoundedSpec WholeSpec SwapSpec SwapCheck ExistSpec ExistCheck ExistProofs ExistCase PlotModel PlotSpec ArgModel FpCliModel FpCliSpec FpCliProofs FpCliCase SkipSpec.
Import ListNotations.
Local Open Scope string_scope. Local Open Scope list_scope.
Local Open Scope Z_scope.

Lemma events_okb l : forallb (fun e => (0 <=? fst e) && (fst e <? 2 ^ 54) && (0 <=? snd e) && (snd e <? 16)) l = true -> Forall event_ok l.
Proof. intros H. apply Forall_forall. intros e I. rewrite forallb_forall in H. specialize (H e I). unfold event_ok. lia. Qed.
Definition delayed (evs : list event) : list event := (0, 2) :: (77777777, 1) :: map (fun e => (fst e + 256000000000, snd e)) evs.
Definition evA123 : list event := delayed evA112.
Definition evB123 : list event := delayed evB112.
Lemma sinceA123 : since (common_start evA123 evB123 + 256000000000) evA123 = A112. Proof. vm_compute. reflexivity. Qed.
Lemma sinceB123 : since (common_start evA123 evB123 + 256000000000) evB123 = B112. Proof. vm_compute. reflexivity. Qed.
Lemma recordings123 : recordings evA123 evB123 1 256000000000.
Proof.
  split; [apply events_okb; vm_compute; reflexivity|]. split; [apply events_okb; vm_compute; reflexivity|]. split; [discriminate|]. split; [discriminate|].
  split; [vm_compute; reflexivity|]. split; [lia|vm_compute; reflexivity].
Qed.
Lemma must123 : must_find 0 MF o112 A112 B112 (inject_Z D112) (1 # 16384) 1 8519680.
Proof. split; [exact surely112|]. split; [exact (singly_out _ _ _ _ _ _ _ _ _ _ stand112)|]. split; [exact reach112|exact significant112]. Qed.
Lemma computes_exact o evA evB : computes 0 o evA evB MF 64.
Proof. split; [reflexivity|]. split; [reflexivity|]. split; [now apply exact_accurate|]. split; [discriminate|]. split; [lia|]. split; [apply exact_good|apply exact_good_zs]. Qed.
(** fpfind -Z 1 and C114's words *)
Definition args123 : list (list Z) := [str "-Z"; str "1"] ++ args114.
Definition ss123 : list ask := ASkip (str "1") :: ss114.
Lemma writes123 : writes args123 ss123.
Proof. apply (W_detached [] [] (ASkip [49]) 90 [49]); [constructor|reflexivity|reflexivity|now apply own_simple|ascii|exact writes114]. Qed.
Lemma good123 : Forall good ss123.
Proof. constructor; [exists 1%Q; exact decimal1|exact good114]. Qed.
Lemma asked123 : search_asked ss123 o112.
Proof.
  unfold search_asked. split; [exact whole7|]. split; [exact whole65536|]. split; [reflexivity|]. split; [reflexivity|]. split; [exact decimal512|]. split; [exact decimal1|]. split; [exact whole7|].
  split; [split; [discriminate|intros I; repeat (destruct I as [I|I]; [discriminate|]); destruct I]|]. intros I; repeat (destruct I as [I|I]; [discriminate|]); destruct I.
Qed.
(** without -V *)
Definition args125 : list (list Z) := map str ["-Z1"; "-q"; "7"; "-R65536"; "--sep"; "512"; "-S"; "1"; "-t"; "a"; "--targ"; "b"].
Definition ss125 : list ask := ASkip (str "1") :: skipn 3 ss114.
Definition o125 : options := mkO 7 65536 1 1 512 1 None false 0.
Definition disk125 : list Z -> option (list Z) :=
  fun n => if same n (str "a") then Some (encode (A1 false) (map word_of evA123)) else if same n (str "b") then Some (encode (A1 false) (map word_of evB123)) else None.
Definition rounded (l : list Q) : list Z := map (fun q => Qround.Qfloor (q + (1 # 2))) l.
(** dirs *)
Definition o124 : options := mkO 7 8192 1 1 512 1 None false 7.
Definition early124 : list Z := [512; 112512; 437504; 750016].
Definition late124 : list Z := [9728; 375040; 625024; 750016].
Definition times124 : list Z := early124 ++ map (Z.add (2 ^ 29)) late124.
Definition target124 (t : Z) : Z := 2 ^ 26 + 256 * t + t / 64.
Definition evA124 : list event := map (fun t => (t * 256, 1)) (0 :: times124 ++ [2 ^ 30 + 1000]).
Definition evB124 : list event := map (fun t => (t, 1)) (0 :: map target124 times124 ++ [2 ^ 38 + 2000]).
Definition A124 : list Q := since (common_start evA124 evB124) evA124.
Definition B124 : list Q := since (common_start evA124 evB124) evB124.
Lemma must124 : must_find 0 MF o124 A124 B124 (inject_Z (2 ^ 18)) (1 # 16384) (1 # 256) 1064960.
Proof.
  split; [split; vm_compute; [reflexivity|discriminate]|]. split; [apply singly_out, (stand_out_ok 4); vm_compute; reflexivity|]. split; [apply (within_reach_ok 4); vm_compute; reflexivity|apply significant_ok; vm_compute; reflexivity].
Qed.
Lemma plain124 : plain_search o124.
Proof. repeat split; vm_compute; try reflexivity; discriminate. Qed.
(** in epochs 131072 to 131074; both directories also have files of epoch 131071, which are no epoch files *)
Definition entries124 : list (list entry) :=
  let diffs := fun l => map (fun c => Extended (8 * (fst c - snd c)) 1) (combine l (0 :: l)) in [diffs (0 :: early124); diffs late124; [Extended 8000 1]].
Definition events124 : list (list event) :=
  [(0, 1) :: map (fun t => (target124 t, 1)) early124; map (fun t => (target124 t + 2 ^ 23, 1)) late124; [(2000, 1)]].
Fixpoint number (l : list bool) (v : Z) : Z := match l with [] => v | b :: r => number r (2 * v + if b then 1 else 0) end.
Fixpoint pack (k : nat) (l : list bool) : list Z :=
  match k with O => [] | S k => le_enc 4 (number (firstn 32 (l ++ repeat false 32)) 0) ++ pack k (skipn 32 l) end.
Definition body124 (xs : list entry) : list Z := pack 10 (entries_bits 8 4 xs ++ terminator 8 4).
Definition send124 : directory := (int2epoch 131071, []) :: map (fun i => (int2epoch (131072 + Z.of_nat i), t2_header 258 (131072 + Z.of_nat i) 0 8 4 0 ++ body124 (nth i entries124 []))) (seq 0 3).
Definition t1s124 : directory := (int2epoch 131071, [1]) :: map (fun i => (int2epoch (131072 + Z.of_nat i), t1_file (131072 + Z.of_nat i) (nth i events124 []))) (seq 0 3).
Lemma eventsA124 : t2_events (131071 + 1) entries124 = evA124. Proof. vm_compute. reflexivity. Qed.
Lemma eventsB124 : t1_events (131071 + 1) events124 = evB124. Proof. vm_compute. reflexivity. Qed.
Lemma recordings124 : recordings evA124 evB124 0 0.
Proof.
  split; [apply events_okb; vm_compute; reflexivity|]. split; [apply events_okb; vm_compute; reflexivity|]. split; [discriminate|]. split; [discriminate|].
  split; [vm_compute; reflexivity|]. split; [lia|vm_compute; reflexivity].
Qed.
Lemma names_all d : EpochsSpec.names d = map int2epoch [131071; 131072; 131073; 131074] -> epoch_names d.
Proof. intros E. unfold epoch_names. rewrite E. repeat constructor; eexists; vm_compute; reflexivity. Qed.
Lemma names124 : epoch_names send124 /\ epoch_names t1s124.
Proof. split; apply names_all; reflexivity. Qed.
Lemma first124 : first_common send124 t1s124 None 131071.
Proof.
  assert (HE : forall d v, EpochsSpec.names d = map int2epoch [131071; 131072; 131073; 131074] -> has_epoch d v <-> In v [131071; 131072; 131073; 131074]).
  { intros d v E. unfold has_epoch. rewrite E. split.
    - intros (s & I & H). cbn [map In] in I. repeat destruct I as [<-|I]; try destruct I; vm_compute in H; injection H as <-; cbn [In]; tauto.
    - intros I. exists (int2epoch v). split; [now apply in_map|]. cbn [In] in I. repeat destruct I as [<-|I]; try destruct I; vm_compute; reflexivity. }
  split; [rewrite !HE by reflexivity; cbn [In]; tauto|]. intros v (V & _). rewrite HE in V by reflexivity. cbn [In] in V. lia.
Qed.
Lemma bytes_okb l : forallb (fun b => (0 <=? b) && (b <? 256)) l = true -> bytes_ok l.
Proof. intros H. apply Forall_forall. intros b I. rewrite forallb_forall in H. specialize (H b I). unfold is_byte. lia. Qed.
Lemma dir124A : t2_dir send124 (131071 + 1) entries124.
Proof.
  intros i xs H. exists (t2_header 258 (131072 + Z.of_nat i) 0 8 4 0 ++ body124 xs), 8, 4.
  destruct i as [|[|[|i]]]; [| | |destruct i; discriminate]; cbn [nth_error entries124] in H; injection H as <-;
    (split; [vm_compute; reflexivity|]; split; [lia|]; split; [lia|]; split; [lia|]; split;
     [eexists 258, 0, 0, _; split; [reflexivity|]; split; [apply bytes_okb; vm_compute; reflexivity|]; split; [now left|]; split;
      [apply Forall_forall; intros x X; vm_compute in X; repeat destruct X as [<-|X]; try destruct X; unfold entry_ok; cbn [e_base]; lia|apply starts_withb_ok; vm_compute; reflexivity]
     |apply Forall_forall; intros t T; vm_compute in T; repeat destruct T as [<-|T]; try destruct T; lia]).
Qed.
Lemma dir124B : t1_dir t1s124 (131071 + 1) events124.
Proof.
  intros i evs H. destruct i as [|[|[|i]]]; [| | |destruct i; discriminate]; cbn [nth_error events124] in H; injection H as <-;
    (split; [vm_compute; reflexivity|]); (split; [|split; [|reflexivity]]); apply Forall_forall; intros x X; vm_compute in X; repeat destruct X as [<-|X]; try destruct X;
    solve [unfold t1_ok; cbn [fst snd]; lia | vm_compute; discriminate].
Qed.
(** fpfind -V7 -q 7 -R8192 --sep 512 -S 1 -z 1 -d s -D t *)
Definition args124 : list (list Z) := map str ["-V7"; "-q"; "7"; "-R8192"; "--sep"; "512"; "-S"; "1"; "-z"; "1"; "-d"; "s"; "-D"; "t"].
Definition ss124 : list ask := [AOutput (str "7"); AOrder (str "7"); AInitial (str "8192"); ASeparation (str "512"); AThreshold (str "1"); ASkipEpochs (str "1"); ASendfiles (str "s"); AT1files (str "t")].
Definition dirs124 (n : list Z) : directory := if same n (str "s") then send124 else if same n (str "t") then t1s124 else [].
Lemma writes124 : writes args124 ss124.
Proof.
  unfold args124, ss124. vm_compute map.
  apply (W_attached [] [] (AOutput [55]) 86 [55]); [constructor|reflexivity|reflexivity|split; [discriminate|intros [X|[]]; discriminate]|ascii|].
  apply (W_detached [] [] (AOrder [55]) 113 [55]); [constructor|reflexivity|reflexivity|now apply own_simple|ascii|].
  apply (W_attached [] [] (AInitial (str "8192")) 82 (str "8192")); [constructor|reflexivity|reflexivity|split; [discriminate|intros X; repeat (destruct X as [X|X]; [discriminate|]); destruct X]|ascii|].
  apply W_long with (a := ASeparation (str "512")); [reflexivity|apply (shortened _ _ 5); reflexivity|now apply own_simple|ascii|].
  apply (W_detached [] [] (AThreshold [49]) 83 [49]); [constructor|reflexivity|reflexivity|now apply own_simple|ascii|].
  apply (W_detached [] [] (ASkipEpochs [49]) 122 [49]); [constructor|reflexivity|reflexivity|now apply own_simple|ascii|].
  apply (W_detached [] [] (ASendfiles [115]) 100 [115]); [constructor|reflexivity|reflexivity|now apply own_simple|ascii|].
  apply (W_detached [] [] (AT1files [116]) 68 [116]); [constructor|reflexivity|reflexivity|now apply own_simple|ascii|].
  constructor.
Qed.
Lemma whole8192 : whole (str "8192") 8192. Proof. exact (whole_text [] false (str "8192") plus_none eq_refl). Qed.
Lemma whole1 : whole (str "1") 1. Proof. exact (whole_text [] false (str "1") plus_none eq_refl). Qed.
Lemma good124 : Forall good ss124.
Proof.
  repeat constructor; cbn [good].
  - exists 7. split; [exact whole7|lia].
  - exists 7. exact whole7.
  - exists 8192. exact whole8192.
  - exists 512%Q. exact decimal512.
  - exists 1%Q. exact decimal1.
  - exists 1. exact whole1.
Qed.
Lemma asked124 : search_asked ss124 o124.
Proof.
  unfold search_asked. split; [exact whole7|]. split; [exact whole8192|]. split; [reflexivity|]. split; [reflexivity|]. split; [exact decimal512|]. split; [exact decimal1|]. split; [exact whole7|].
  split; [split; [discriminate|intros I; repeat (destruct I as [I|I]; [discriminate|]); destruct I]|]. intros I; repeat (destruct I as [I|I]; [discriminate|]); destruct I.
Qed.
