(** Two recordings of which only the parameters of the search and the clock relation have to be known: 19.9 us late and 2^-16 fast, six common events in each window. *)
From Coq Require Import QArith Qabs Lqa String List Lia.
From Coq Require Import ZifyBool.
From Verif Require Import Float Base FreqcdExamples TimestampsModel TimestampsSpec UtilsModel UtilsSpec FpfindModel FpfindSpec FpfindProofs4 FpfindRefute AccuracySpec PairSpec PairProofs MainModel MainSpec2 WholeSpec SwapSpec ExistSpec ExistCheck
  CdRunModel ArgModel FpCliModel FpCliSpec FpCliProofs FpCliCase SkipSpec SkipCase GroundSpec GroundCheck.
Import ListNotations.
Local Open Scope string_scope. Local Open Scope list_scope.
Local Open Scope Z_scope.

(** -q 9 -R 1024 -r 64 -s 40 -V 7, one wrap, threshold 6 *)
Definition o139 : options := mkO 9 1024 64 1 40 6 None false 7.
Definition times139 : list Z := [33243; 78137; 89817; 128534; 211269; 240751; 21011376; 21101917; 21110185; 21267034; 21308346; 21409755].
Definition evA139 : list event := map (fun t => (t * 256, 1)) (0 :: times139 ++ [2 ^ 25]).
Definition evB139 : list event := map (fun t => (t, 1)) (0 :: map (fun t => (19900 + t) * 256 + t / 256) times139 ++ [2 ^ 33]).
Definition A139 : list Q := since (common_start evA139 evB139) evA139.
Definition B139 : list Q := since (common_start evA139 evB139) evB139.
Definition P139 : params := told_search o139.
Definition M139 : fpu := mkFpu (fl 64) (fl 53) sparse_xc exact_zs.
Lemma accurate139 n a b : accurate_to 0 n a b M139.
Proof. intros h k H K. cbn [xc M139]. rewrite sparse_exact. exact (exact_accurate n a b MF eq_refl h k H K). Qed.
Lemma good_xc139 : good_xc M139.
Proof. intros h k L O. cbn [xc M139]. rewrite sparse_exact. exact (exact_good (fl 64) (fl 53) h k L O). Qed.
Lemma good_zs139 : good_zs M139.
Proof. exact (exact_good_zs (fl 64) (fl 53)). Qed.
Lemma plain139 : plain_search o139.
Proof. repeat split; vm_compute; try reflexivity; discriminate. Qed.
Lemma surely139 : ends_surely M139 P139 1024.
Proof. split; vm_compute; [reflexivity|discriminate]. Qed.
Lemma significant139 : significant M139 P139 A139 B139 1024.
Proof. apply significant_ok. vm_compute. reflexivity. Qed.
Lemma widths139 ws q : widths P139 1024 ws q -> (ws = [] /\ q = 1024%Q) \/ (ws = [1024%Q] /\ q = 64%Q).
Proof.
  intros H. induction H as [|ws q H IH N]; [now left|]. right. destruct IH as [[-> ->]|[-> ->]].
  - split; [reflexivity|]. vm_compute. reflexivity.
  - exfalso. apply N. reflexivity.
Qed.
Definition D139 : Q := 19900.
Definition F139 : Q := 1 # 65536.
Definition W139 : Q := 524288.
Lemma stage139_0 : (off_by P139 D139 F139 (1 # 128) W139 [] <= 20249)%Q /\ (0 <= blur P139 D139 F139 (1 # 128) W139 [])%Q /\ (blur P139 D139 F139 (1 # 128) W139 [] <= 9)%Q.
Proof. repeat split; vm_compute; discriminate. Qed.
Lemma stage139_1 : (off_by P139 D139 F139 (1 # 128) W139 [1024%Q] <= 3146)%Q /\ (0 <= blur P139 D139 F139 (1 # 128) W139 [1024%Q])%Q /\ (blur P139 D139 F139 (1 # 128) W139 [1024%Q] <= 53)%Q.
Proof. repeat split; vm_compute; discriminate. Qed.
Lemma well139 : recorded_well 0 M139 P139 A139 B139 1024 D139 F139 (1 # 256) (1 # 128) W139 (2 ^ 25).
Proof.
  split; [discriminate|]. split; [discriminate|]. split; [vm_compute; discriminate|]. split.
  { assert (G : forallb (fun t => Qle_bool (Qabs t) (2 ^ 25)) (A139 ++ B139) = true) by (vm_compute; reflexivity). intros t I. rewrite forallb_forall in G. apply Qle_bool_iff, G, in_app_iff, I. }
  exists (8589934592 # 256)%Q, (8589934592 # 256)%Q. split; [vm_compute; reflexivity|]. split; [vm_compute; reflexivity|].
  intros ws q WI. destruct (widths139 ws q WI) as [[-> ->]|[-> ->]]; cbv zeta; (split; [vm_compute; discriminate|]; split; [vm_compute; discriminate|]; split; [vm_compute; discriminate|]; split; [vm_compute; discriminate|]; split; [vm_compute; reflexivity|]).
  - destruct stage139_0 as (H1 & H2 & H3). split; apply (outnumbered_ok _ _ _ _ _ _ _ _ _ _ _ _ _ 20249 9); try assumption; vm_compute; try reflexivity; discriminate.
  - destruct stage139_1 as (H1 & H2 & H3). split; apply (outnumbered_ok _ _ _ _ _ _ _ _ _ _ _ _ _ 3146 53); try assumption; vm_compute; try reflexivity; discriminate.
Qed.
Lemma device139 : Forall (device_time 54) B139.
Proof.
  assert (G : forall l, forallb (fun t => (Z.pos (Qden t) =? 256) && (0 <=? Qnum t) && (Qnum t <? 2 ^ 54)) l = true -> Forall (device_time 54) l).
  { intros l H. apply Forall_forall. intros x I. rewrite forallb_forall in H. specialize (H x I). exists (Qnum x). destruct x as [a d]. cbn [Qnum Qden] in *. assert (d = 256%positive) as -> by lia.
    split; [|lia]. unfold Qeq, Qdiv, Qmult, Qinv, inject_Z. cbn [Qnum Qden]. lia. }
  apply G. vm_compute. reflexivity.
Qed.
(** ** On the command line *)
Definition args140 : list (list Z) := map str ["-V7"; "-q9"; "-R"; "1024"; "-r"; "64"; "--sep"; "40"; "-t"; "a"; "--targ"; "b"].
Definition ss140 : list ask := [AOutput (str "7"); AOrder (str "9"); AInitial (str "1024"); AFinal (str "64"); ASeparation (str "40"); AReference (str "a"); ATarget (str "b")].
Lemma writes140 : writes args140 ss140.
Proof.
  unfold args140, ss140. vm_compute map.
  apply (W_attached [] [] (AOutput [55]) 86 [55]); [constructor|reflexivity|reflexivity|split; [discriminate|intros [X|[]]; discriminate]|ascii|].
  apply (W_attached [] [] (AOrder [57]) 113 [57]); [constructor|reflexivity|reflexivity|split; [discriminate|intros [X|[]]; discriminate]|ascii|].
  apply (W_detached [] [] (AInitial (str "1024")) 82 (str "1024")); [constructor|reflexivity|reflexivity|now apply own_simple|ascii|].
  apply (W_detached [] [] (AFinal (str "64")) 114 (str "64")); [constructor|reflexivity|reflexivity|now apply own_simple|ascii|].
  apply W_long with (a := ASeparation (str "40")); [reflexivity|apply (shortened _ _ 5); reflexivity|now apply own_simple|ascii|].
  apply (W_detached [] [] (AReference [97]) 116 [97]); [constructor|reflexivity|reflexivity|now apply own_simple|ascii|].
  apply W_long with (a := ATarget (str "b")); [reflexivity|apply (shortened _ _ 6); reflexivity|now apply own_simple|ascii|].
  constructor.
Qed.
Lemma whole9 : whole (str "9") 9. Proof. exact (whole_text [] false (str "9") plus_none eq_refl). Qed.
Lemma whole64 : whole (str "64") 64. Proof. exact (whole_text [] false (str "64") plus_none eq_refl). Qed.
Lemma whole1024 : whole (str "1024") 1024. Proof. exact (whole_text [] false (str "1024") plus_none eq_refl). Qed.
Lemma decimal40 : decimal (str "40") 40. Proof. exact (decimal_text [] false (str "40") [] [] 0 40 plus_none eq_refl no_exponent ltac:(vm_compute; reflexivity) ltac:(vm_compute; reflexivity)). Qed.
Lemma good140 : Forall good ss140.
Proof.
  repeat constructor; cbn [good].
  - exists 7. split; [exact whole7|lia].
  - exists 9. exact whole9.
  - exists 1024. exact whole1024.
  - exists 64. exact whole64.
  - exists 40%Q. exact decimal40.
Qed.
Lemma asked140 : search_asked ss140 o139.
Proof.
  unfold search_asked. split; [exact whole9|]. split; [exact whole1024|]. split; [exact whole64|]. split; [reflexivity|]. split; [exact decimal40|]. split; [reflexivity|]. split; [exact whole7|].
  split; [split; [discriminate|intros I; repeat (destruct I as [I|I]; [discriminate|]); destruct I]|]. intros I; repeat (destruct I as [I|I]; [discriminate|]); destruct I.
Qed.
Lemma recordings139 : recordings evA139 evB139 0 0.
Proof.
  split; [apply events_okb; vm_compute; reflexivity|]. split; [apply events_okb; vm_compute; reflexivity|]. split; [discriminate|]. split; [discriminate|].
  split; [vm_compute; reflexivity|]. split; [lia|vm_compute; reflexivity].
Qed.
Lemma computes139 : computes 0 o139 evA139 evB139 M139 64.
Proof. split; [reflexivity|]. split; [reflexivity|]. split; [apply accurate139|]. split; [discriminate|]. split; [lia|]. split; [apply good_xc139|apply good_zs139]. Qed.
Definition disk140 : list Z -> option (list Z) :=
  fun n => if same n (str "a") then Some (encode (A1 false) (map word_of evA139)) else if same n (str "b") then Some (encode (A1 false) (map word_of evB139)) else None.
