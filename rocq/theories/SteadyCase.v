(** Two recordings 19.9 us apart of which one clock is 2^-14 fast: the search goes on to the target resolution.  And two on which it gives up before: 20 us apart and 2^-17 fast. *)
From Coq Require Import QArith Qabs Qminmax Lqa String List Lia.
From Coq Require Import ZifyBool.
From Verif Require Import Float Base FreqcdExamples TimestampsModel TimestampsSpec UtilsModel UtilsSpec FpfindModel FpfindSpec FpfindRefute AccuracySpec PairSpec PairProofs MainModel MainSpec2 RoundedSpec WholeSpec SwapSpec ExistSpec ExistCheck
  CdRunModel ArgModel FpCliModel FpCliSpec FpCliProofs FpCliCase SkipSpec SkipCase GroundSpec GroundCheck GroundCase.
Import ListNotations.
Local Open Scope string_scope. Local Open Scope list_scope.
Local Open Scope Z_scope.

(** -q 9 -R 1024 -r 64 -s 80 -S 3 -V 7, one wrap *)
Definition o141 : options := mkO 9 1024 64 1 80 3 None false 7.
Definition times141 : list Z := [33243; 78137; 89817; 128534; 211269; 240751; 41982896; 42073437; 42081705; 42238554; 42279866; 42381275].
Definition evA141 : list event := map (fun t => (t * 256, 1)) (0 :: times141 ++ [2 ^ 26]).
Definition evB141 : list event := map (fun t => (t, 1)) (0 :: map (fun t => (19900 + t) * 256 + t / 64) times141 ++ [2 ^ 34]).
Definition A141 : list Q := since (common_start evA141 evB141) evA141.
Definition B141 : list Q := since (common_start evA141 evB141) evB141.
Definition P141 : params := told_search o141.
Lemma plain141 : plain_search o141.
Proof. repeat split; vm_compute; try reflexivity; discriminate. Qed.
Lemma surely141 : ends_surely M139 P141 1024.
Proof. split; vm_compute; [reflexivity|discriminate]. Qed.
Lemma significant141 : significant M139 P141 A141 B141 1024.
Proof. apply significant_ok. vm_compute. reflexivity. Qed.
Lemma widths141 ws q : widths P141 1024 ws q -> (ws = [] /\ q = 1024%Q) \/ (ws = [1024%Q] /\ q = 64%Q).
Proof.
  intros H. induction H as [|ws q H IH N]; [now left|]. right. destruct IH as [[-> ->]|[-> ->]].
  - split; [reflexivity|]. vm_compute. reflexivity.
  - exfalso. apply N. reflexivity.
Qed.
Definition F141 : Q := 1 # 16384.
Lemma stage141_0 : (off_by P141 D139 F141 (1 # 128) W139 [] <= 22516)%Q /\ (0 <= blur P141 D139 F141 (1 # 128) W139 [])%Q /\ (blur P141 D139 F141 (1 # 128) W139 [] <= 35)%Q.
Proof. repeat split; vm_compute; discriminate. Qed.
Lemma stage141_1 : (off_by P141 D139 F141 (1 # 128) W139 [1024%Q] <= 3168)%Q /\ (0 <= blur P141 D139 F141 (1 # 128) W139 [1024%Q])%Q /\ (blur P141 D139 F141 (1 # 128) W139 [1024%Q] <= 27)%Q.
Proof. repeat split; vm_compute; discriminate. Qed.
Lemma well141 : recorded_well 0 M139 P141 A141 B141 1024 D139 F141 (1 # 256) (1 # 128) W139 (2 ^ 26).
Proof.
  split; [discriminate|]. split; [discriminate|]. split; [vm_compute; discriminate|]. split.
  { assert (G : forallb (fun t => Qle_bool (Qabs t) (2 ^ 26)) (A141 ++ B141) = true) by (vm_compute; reflexivity). intros t I. rewrite forallb_forall in G. apply Qle_bool_iff, G, in_app_iff, I. }
  exists (17179869184 # 256)%Q, (17179869184 # 256)%Q. split; [vm_compute; reflexivity|]. split; [vm_compute; reflexivity|].
  intros ws q WI. destruct (widths141 ws q WI) as [[-> ->]|[-> ->]]; cbv zeta; (split; [vm_compute; discriminate|]; split; [vm_compute; discriminate|]; split; [vm_compute; discriminate|]; split; [vm_compute; discriminate|]; split; [vm_compute; reflexivity|]).
  - destruct stage141_0 as (H1 & H2 & H3). split; apply (outnumbered_ok _ _ _ _ _ _ _ _ _ _ _ _ _ 22516 35); try assumption; vm_compute; try reflexivity; discriminate.
  - destruct stage141_1 as (H1 & H2 & H3). split; apply (outnumbered_ok _ _ _ _ _ _ _ _ _ _ _ _ _ 3168 27); try assumption; vm_compute; try reflexivity; discriminate.
Qed.
Lemma steady141 : steady P141 1024 D139 F141 (1 # 128) W139.
Proof.
  intros ws q WI NE. destruct (widths141 ws q WI) as [[-> ->]|[-> ->]]; [now destruct NE|]. split; vm_compute; discriminate.
Qed.
Lemma devices (l : list Q) : forallb (fun t => (Z.pos (Qden t) =? 256) && (0 <=? Qnum t) && (Qnum t <? 2 ^ 54)) l = true -> Forall (device_time 54) l.
Proof.
  intros H. apply Forall_forall. intros x I. rewrite forallb_forall in H. specialize (H x I). exists (Qnum x). destruct x as [a d]. cbn [Qnum Qden] in *. assert (d = 256%positive) as -> by lia.
  split; [|lia]. unfold Qeq, Qdiv, Qmult, Qinv, inject_Z. cbn [Qnum Qden]. lia.
Qed.
Lemma device141 : Forall (device_time 54) B141.
Proof. apply devices. vm_compute. reflexivity. Qed.
(** ** On the command line *)
Definition args142 : list (list Z) := map str ["-V7"; "-q9"; "-R"; "1024"; "-r"; "64"; "--sep"; "80"; "-S"; "3"; "-t"; "a"; "--targ"; "b"].
Definition ss142 : list ask := [AOutput (str "7"); AOrder (str "9"); AInitial (str "1024"); AFinal (str "64"); ASeparation (str "80"); AThreshold (str "3"); AReference (str "a"); ATarget (str "b")].
Lemma writes142 : writes args142 ss142.
Proof.
  unfold args142, ss142. vm_compute map.
  apply (W_attached [] [] (AOutput [55]) 86 [55]); [constructor|reflexivity|reflexivity|split; [discriminate|intros [X|[]]; discriminate]|ascii|].
  apply (W_attached [] [] (AOrder [57]) 113 [57]); [constructor|reflexivity|reflexivity|split; [discriminate|intros [X|[]]; discriminate]|ascii|].
  apply (W_detached [] [] (AInitial (str "1024")) 82 (str "1024")); [constructor|reflexivity|reflexivity|now apply own_simple|ascii|].
  apply (W_detached [] [] (AFinal (str "64")) 114 (str "64")); [constructor|reflexivity|reflexivity|now apply own_simple|ascii|].
  apply W_long with (a := ASeparation (str "80")); [reflexivity|apply (shortened _ _ 5); reflexivity|now apply own_simple|ascii|].
  apply (W_detached [] [] (AThreshold [51]) 83 [51]); [constructor|reflexivity|reflexivity|now apply own_simple|ascii|].
  apply (W_detached [] [] (AReference [97]) 116 [97]); [constructor|reflexivity|reflexivity|now apply own_simple|ascii|].
  apply W_long with (a := ATarget (str "b")); [reflexivity|apply (shortened _ _ 6); reflexivity|now apply own_simple|ascii|].
  constructor.
Qed.
Lemma decimal80 : decimal (str "80") 80. Proof. exact (decimal_text [] false (str "80") [] [] 0 80 plus_none eq_refl no_exponent ltac:(vm_compute; reflexivity) ltac:(vm_compute; reflexivity)). Qed.
Lemma decimal3 : decimal (str "3") 3. Proof. exact (decimal_text [] false (str "3") [] [] 0 3 plus_none eq_refl no_exponent ltac:(vm_compute; reflexivity) ltac:(vm_compute; reflexivity)). Qed.
Lemma good142 : Forall good ss142.
Proof.
  repeat constructor; cbn [good].
  - exists 7. split; [exact whole7|lia].
  - exists 9. exact whole9.
  - exists 1024. exact whole1024.
  - exists 64. exact whole64.
  - exists 80%Q. exact decimal80.
  - exists 3%Q. exact decimal3.
Qed.
Lemma asked142 : search_asked ss142 o141.
Proof.
  unfold search_asked. split; [exact whole9|]. split; [exact whole1024|]. split; [exact whole64|]. split; [reflexivity|]. split; [exact decimal80|]. split; [exact decimal3|]. split; [exact whole7|].
  split; [split; [discriminate|intros I; repeat (destruct I as [I|I]; [discriminate|]); destruct I]|]. intros I; repeat (destruct I as [I|I]; [discriminate|]); destruct I.
Qed.
Lemma recordings141 : recordings evA141 evB141 0 0.
Proof.
  split; [apply events_okb; vm_compute; reflexivity|]. split; [apply events_okb; vm_compute; reflexivity|]. split; [discriminate|]. split; [discriminate|].
  split; [vm_compute; reflexivity|]. split; [lia|vm_compute; reflexivity].
Qed.
Lemma computes141 : computes 0 o141 evA141 evB141 M139 64.
Proof. split; [reflexivity|]. split; [reflexivity|]. split; [apply accurate139|]. split; [discriminate|]. split; [lia|]. split; [apply good_xc139|apply good_zs139]. Qed.
Definition disk142 : list Z -> option (list Z) :=
  fun n => if same n (str "a") then Some (encode (A1 false) (map word_of evA141)) else if same n (str "b") then Some (encode (A1 false) (map word_of evB141)) else None.

(** ** A search that gives up: the delays of the first iteration are equal, so it finds no frequency offset, and what the second one finds is more than ten times that *)
Definition times_up : list Z := [42307; 46906; 162002; 221878; 358037; 427641; 21076557; 21135066; 21249913; 21300656; 21320412; 21408164].
Definition evA_up : list event := map (fun t => (t * 256, 1)) (0 :: times_up ++ [2 ^ 25]).
Definition evB_up : list event := map (fun t => (t, 1)) (0 :: map (fun t => (20000 + t) * 256 + t / 512) times_up ++ [2 ^ 33]).
Definition A_up : list Q := since (common_start evA_up evB_up) evA_up.
Definition B_up : list Q := since (common_start evA_up evB_up) evB_up.
Definition F_up : Q := 1 # 131072.
Lemma significant_up : significant M139 P139 A_up B_up 1024.
Proof. apply significant_ok. vm_compute. reflexivity. Qed.
Lemma up_0 : (off_by P139 20000 F_up (1 # 128) W139 [] <= 20185)%Q /\ (0 <= blur P139 20000 F_up (1 # 128) W139 [])%Q /\ (blur P139 20000 F_up (1 # 128) W139 [] <= 5)%Q.
Proof. repeat split; vm_compute; discriminate. Qed.
Lemma up_1 : (off_by P139 20000 F_up (1 # 128) W139 [1024%Q] <= 3138)%Q /\ (0 <= blur P139 20000 F_up (1 # 128) W139 [1024%Q])%Q /\ (blur P139 20000 F_up (1 # 128) W139 [1024%Q] <= 53)%Q.
Proof. repeat split; vm_compute; discriminate. Qed.
Lemma well_up : recorded_well 0 M139 P139 A_up B_up 1024 20000 F_up (1 # 256) (1 # 128) W139 (2 ^ 25).
Proof.
  split; [discriminate|]. split; [discriminate|]. split; [vm_compute; discriminate|]. split.
  { assert (G : forallb (fun t => Qle_bool (Qabs t) (2 ^ 25)) (A_up ++ B_up) = true) by (vm_compute; reflexivity). intros t I. rewrite forallb_forall in G. apply Qle_bool_iff, G, in_app_iff, I. }
  exists (8589934592 # 256)%Q, (8589934592 # 256)%Q. split; [vm_compute; reflexivity|]. split; [vm_compute; reflexivity|].
  intros ws q WI. destruct (widths139 ws q WI) as [[-> ->]|[-> ->]]; cbv zeta; (split; [vm_compute; discriminate|]; split; [vm_compute; discriminate|]; split; [vm_compute; discriminate|]; split; [vm_compute; discriminate|]; split; [vm_compute; reflexivity|]).
  - destruct up_0 as (H1 & H2 & H3). split; apply (outnumbered_ok _ _ _ _ _ _ _ _ _ _ _ _ _ 20185 5); try assumption; vm_compute; try reflexivity; discriminate.
  - destruct up_1 as (H1 & H2 & H3). split; apply (outnumbered_ok _ _ _ _ _ _ _ _ _ _ _ _ _ 3138 53); try assumption; vm_compute; try reflexivity; discriminate.
Qed.
Lemma device_up : Forall (device_time 54) B_up.
Proof. apply devices. vm_compute. reflexivity. Qed.
Definition nothing_found (r : pyres (Q * Q)) : bool := match r with Ok (dt, df) => Qeq_bool dt 20480 && Qeq_bool df 0 | Err _ => false end.
Lemma found_up n : nothing_found (fpfind (S (S n)) M139 P139 A_up B_up 1024 [0%Q] false) = true.
Proof. vm_compute. reflexivity. Qed.
