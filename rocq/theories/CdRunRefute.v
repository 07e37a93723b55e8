(** Counterexamples and concrete runs of freqcd on files. *)
From Coq Require Import String List.
From Verif Require Import Base FreqcdModel FreqcdSpec FreqcdProofs FreqcdProofs2 FreqcdProofs6 FreqcdExamples FreqcdRefute FreqcdCli FreqcdCliSpec FreqcdCliStatements FreqcdCliProofs FreqcdCliRefute CdRunModel CdRunSpec CdRunStatements CdRunProofs CdRunProofs2 CdRunProofs3.
Import ListNotations.
Local Open Scope string_scope.
Local Open Scope Z_scope.

(** two events a long time apart; a frequency file; nothing else *)
Definition far : Z := 2 ^ 45.
Definition two : list Z := ev 0 1 ++ ev far 2.
Definition twelve : list Z := str "12" ++ line "".
Definition disk : filesys := fun m => if same_name m (str "a") then Some two else if same_name m (str "c") then Some twelve else if same_name m (str "b") then Some (str "old") else None.
Lemma two_events lg : lg = false -> event_file lg two.
Proof. intros ->. split; [apply bytes_okb; vm_compute; reflexivity|]. split; [reflexivity|]. vm_compute. repeat split; discriminate. Qed.
Lemma good_c : good_name (str "c"). Proof. apply good_short_name; [reflexivity|discriminate|vm_compute; discriminate]. Qed.

(** -i a -o b -F c *)
Definition ssF : list setting := [InName (str "a"); OutName (str "b"); FreqName (str "c")].
Definition argsF : list (list Z) := [str "-i"; str "a"; str "-o"; str "b"; str "-F"; str "c"].
Lemma asksF : asks argsF ssF 0.
Proof.
  split; [|split; [|split]].
  - apply (W_detached [] (InName (str "a")) (str "a") (skipn 2 argsF) (skipn 1 ssF)); [constructor|reflexivity|].
    apply (W_detached [] (OutName (str "b")) (str "b") (skipn 4 argsF) (skipn 2 ssF)); [constructor|reflexivity|].
    apply (W_detached [] (FreqName (str "c")) (str "c") [] []); [constructor|reflexivity|]. constructor. exact I.
  - exact (Forall_cons (InName _) good_a (Forall_cons (OutName _) good_b (Forall_cons (FreqName _) good_c (Forall_nil _)))).
  - intros [H|[H|[H|[]]]]; discriminate H.
  - exists 0. split; reflexivity.
Qed.
Lemma lines_twelve : after_lines 0 (lines twelve) 12.
Proof. pose proof (after_lines_fold (lines twelve) 0 plain_12) as H. exact H. Qed.
Lemma sepF1 : separate (last_of in_of ssF) (last_of out_of ssF). Proof. right. discriminate. Qed.
Lemma sepF2 : separate (last_of freq_of ssF) (last_of out_of ssF). Proof. right. discriminate. Qed.
Lemma ran_F : exists e, freqcd_main true None IB IB FB (str "freqcd" :: argsF) disk [] = Some (Ok e) /\ files e (str "b") = Some two.
Proof.
  destruct (freqcd_main true None IB IB FB (str "freqcd" :: argsF) disk []) as [[e|]|] eqn:E.
  - exists e. split; [reflexivity|]. apply (f_equal (fun r => match r with Some (Ok e) => files e (str "b") | _ => None end)) in E. rewrite <- E. vm_compute. reflexivity.
  - apply (f_equal (fun r => match r with Some (Ok e) => true | _ => false end)) in E. vm_compute in E. discriminate.
  - apply (f_equal (fun r => match r with Some (Ok e) => true | _ => false end)) in E. vm_compute in E. discriminate.
Qed.
Lemma C101_refuted_lemma : ~ C101_statement.
Proof.
  intros H. destruct (H None IB IB FB (str "freqcd") argsF ssF 0 disk [] two (str "c") twelve 12 alloc_example asksF eq_refl (two_events _ eq_refl) eq_refl eq_refl
    ltac:(apply bytes_okb; reflexivity) ltac:(vm_compute; discriminate) plain_12 lines_twelve sepF1 sepF2) as (e & times & ME & _ & (L & _ & LB) & AC).
  destruct ran_F as (e' & ME' & FB'). rewrite ME in ME'. injection ME' as <-. destruct LB as (LB & _). change (match last_of out_of ssF with Some t => t | None => [] end) with (str "b") in *. rewrite FB' in LB.
  change (length (groups two)) with 2%nat in L. destruct times as [|a [|b [|]]]; try discriminate L.
  assert (G : groups two = [ev 0 1; ev far 2]) by reflexivity. change (legacy_of ssF) with false in *. assert (LB2 : two = concat (retime false (groups two) [a; b])) by congruence. clear LB. rename LB2 into LB. rewrite G in LB. cbn [retime concat] in LB. rewrite app_nil_r in LB.
  assert (E2 : groups two = groups (mk_event false a (ev_flags false (ev 0 1)) ++ mk_event false b (ev_flags false (ev far 2)))) by (now rewrite <- LB).
  rewrite G in E2. rewrite groups_app in E2 by apply mk_event_len. rewrite <- (app_nil_r (mk_event false b _)) in E2. rewrite groups_app in E2 by apply mk_event_len. 
  apply (f_equal (fun l => ev_time false (nth 1 l []))) in E2. cbn [nth] in E2. rewrite (ev_time_mk false b) in E2 by (vm_compute; split; congruence).
  specialize (AC 1%nat 0 far b eq_refl eq_refl eq_refl). unfold accurate in AC. change (Z.of_nat 1 / 1024 + 1) with 1 in AC. change (ev_time false (ev far 2)) with (2 ^ 45) in E2. unfold far in AC.
  change (2 ^ 45) with 35184372088832 in *. change (2 ^ 54) with 18014398509481984 in *. change (2 ^ 34) with 17179869184 in *.
  rewrite Z.mod_small in E2 by lia. change 35184372088832 with far in E2. unfold far in E2. lia.
Qed.

(** -i a -o a *)
Definition ssS : list setting := [InName (str "a"); OutName (str "a")].
Definition argsS : list (list Z) := [str "-i"; str "a"; str "-o"; str "a"].
Lemma asksS : asks argsS ssS 0.
Proof.
  split; [|split; [|split]].
  - apply (W_detached [] (InName (str "a")) (str "a") (skipn 2 argsS) (skipn 1 ssS)); [constructor|reflexivity|].
    apply (W_detached [] (OutName (str "a")) (str "a") [] []); [constructor|reflexivity|]. constructor. exact I.
  - exact (Forall_cons (InName _) good_a (Forall_cons (OutName _) good_a (Forall_nil _))).
  - intros [H|[H|[]]]; discriminate H.
  - exists 0. split; reflexivity.
Qed.
Lemma C103_refuted_lemma : ~ C103_statement.
Proof.
  intros H. destruct (main_same true None IB IB FB (str "freqcd") argsS ssS 0 disk [] (str "a") two alloc_example asksS eq_refl eq_refl eq_refl eq_refl) as (e & ME & _ & _ & FE & _).
  pose proof (H _ _ _ _ _ _ _ _ _ _ _ _ _ alloc_example asksS eq_refl ME) as E. rewrite FE in E. discriminate E.
Qed.
(** the frequency file does not exist *)
Definition disk2 : filesys := fun m => if same_name m (str "c") then None else disk m.
Lemma ran_M : exists e, freqcd_main true None IB IB FB (str "freqcd" :: argsF) disk2 [] = Some (Ok e) /\ code e = -11 /\ files e (str "b") = Some [].
Proof.
  destruct (freqcd_main true None IB IB FB (str "freqcd" :: argsF) disk2 []) as [[e|]|] eqn:E.
  - exists e. split; [reflexivity|]. split.
    + apply (f_equal (fun r => match r with Some (Ok e) => code e | _ => 0 end)) in E. vm_compute in E. now rewrite E.
    + apply (f_equal (fun r => match r with Some (Ok e) => files e (str "b") | _ => None end)) in E. rewrite <- E. vm_compute. reflexivity.
  - apply (f_equal (fun r => match r with Some (Ok e) => true | _ => false end)) in E. vm_compute in E. discriminate.
  - apply (f_equal (fun r => match r with Some (Ok e) => true | _ => false end)) in E. vm_compute in E. discriminate.
Qed.
Lemma C104_refuted_lemma : ~ C104_statement.
Proof.
  intros H. destruct ran_M as (e & ME & CE & FE). destruct (H _ _ _ _ _ _ _ _ _ ME) as [E _]; [rewrite CE; discriminate|]. specialize (E (str "b")). rewrite FE in E. discriminate E.
Qed.
(** -i a -f 12, to standard output *)
Definition ssC : list setting := [InName (str "a"); Corr (str "12")].
Definition argsC : list (list Z) := [str "-ia"; str "-f12"].
Lemma asksC : asks argsC ssC 12.
Proof.
  split; [|split; [|split]].
  - apply (W_attached [] (InName (str "a")) (str "a") (skipn 1 argsC) (skipn 1 ssC)); [constructor|reflexivity|discriminate|].
    apply (W_attached [] (Corr (str "12")) (str "12") [] []); [constructor|reflexivity|discriminate|]. constructor. exact I.
  - exact (Forall_cons (InName _) good_a (Forall_cons (Corr _) (ex_intro _ 12 good_12) (Forall_nil _))).
  - intros [H|[H|[]]]; discriminate H.
  - exists 12. split; [exact good_12|reflexivity].
Qed.
(** what can be seen of a run *)
Definition seen_run (r : option (cres ending)) (m : list Z) : option (Z * option (list Z) * list Z) := match r with Some (Ok e) => Some (code e, files e m, stdout e) | _ => None end.
(** exit code 0 and a file with the property [p] *)
Definition leaves (x : option (Z * option (list Z) * list Z)) (p : list Z -> Prop) : Prop := match x with Some (0, Some Y, []) => p Y | _ => False end.
(** -i a -o b *)
Definition ssN : list setting := [InName (str "a"); OutName (str "b")].
Definition argsN : list (list Z) := [str "-ia"; str "-ob"].
Lemma asksN : asks argsN ssN 0.
Proof.
  split; [|split; [|split]].
  - apply (W_attached [] (InName (str "a")) (str "a") (skipn 1 argsN) (skipn 1 ssN)); [constructor|reflexivity|discriminate|].
    apply (W_attached [] (OutName (str "b")) (str "b") [] []); [constructor|reflexivity|discriminate|]. constructor. exact I.
  - exact (Forall_cons (InName _) good_a (Forall_cons (OutName _) good_b (Forall_nil _))).
  - intros [H|[H|[]]]; discriminate H.
  - exists 0. split; reflexivity.
Qed.
(** 1026 events 2^40 apart *)
Definition many : list Z := concat (map (fun k => ev (2 ^ 40 * Z.of_nat k) 0) (seq 0 (Z.to_nat 1026))).
Definition disk3 : filesys := fun m => if same_name m (str "a") then Some many else disk m.
