(** Files as those of C112 searched with two frequencies: nothing is found with the first, the second is right. *)
From Coq Require Import QArith Qabs String List Lia.
From Coq Require Import ZifyBool.
From Verif Require Import Float Base FreqcdExamples TimestampsModel TimestampsSpec UtilsModel UtilsSpec FpfindModel FpfindSpec FpfindRefute FpfindPipe AccuracySpec PairSpec PairProofs SignalSpec RoundedSpec
  MainModel MainSpec2 CdRunModel WholeSpec SwapSpec SwapCheck ExistSpec ExistCheck ExistCase PrecompSpec ScanSpec ArgModel FpCliModel FpCliSpec FpCliProofs FpCliCase.
Import ListNotations. Local Open Scope string_scope. Local Open Scope list_scope. Local Open Scope Z_scope.

(** A decision procedure for [long_enough]. *)
Definition late_b (P : params) (l : list Q) : bool := existsb (fun t => Qle_bool (separation_duration P) t) l.
Lemma late_ok P l : late_b P l = true -> exists t, In t l /\ (separation_duration P <= t)%Q.
Proof. intros H. apply existsb_exists in H as (t & I & L). exists t. split; [exact I|now apply Qle_bool_iff]. Qed.
Fixpoint long_b (fuel : nat) (M : fpu) (P : params) (A : list Q) (last dur : Q) (s : fstate) : bool :=
  late_b P (bts s) && match iteration M P A last dur s with Ok (Again s') => match fuel with S k => long_b k M P A last dur s' | O => false end | _ => true end.
Definition long_enough_b (fuel : nat) (M : fpu) (P : params) (A B : list Q) (res : Q) : bool :=
  match getitem A (-1), getitem B (-1) with
  | Ok a, Ok b => late_b P A && long_b fuel M P A (qmin a b) (rs M (rs M (inject_Z (num_wraps P) * res) * inject_Z (num_bins P))%Q) (mkS B res 0 1 true)
  | _, _ => false
  end.
Lemma long_enough_ok fuel M P A B res : long_enough_b fuel M P A B res = true -> long_enough M P A B res.
Proof.
  intros H. unfold long_enough_b in H. destruct (getitem A (-1)) as [a|] eqn:GA; [|discriminate]. destruct (getitem B (-1)) as [b|] eqn:GB; [|discriminate].
  apply andb_true_iff in H as [HA H]. exists a, b. split; [exact GA|]. split; [exact GB|]. split; [now apply late_ok|]. cbv zeta. intros s R.
  assert (G : exists k, long_b k M P A (qmin a b) (rs M (rs M (inject_Z (num_wraps P) * res) * inject_Z (num_bins P))%Q) s = true).
  { induction R as [|s s' R IH IT]; [now exists fuel|]. destruct IH as (k & IH). destruct k as [|k]; cbn [long_b] in IH; rewrite IT in IH; apply andb_true_iff in IH as [_ IH]; [discriminate|now exists k]. }
  destruct G as (k & G). destruct k; cbn [long_b] in G; apply andb_true_iff in G as [G _]; now apply late_ok.
Qed.
Definition o135 : options := mkO 7 65536 1 1 512 1 (Some ((1 # 512)%Q, (1 # 16384)%Q, (- 31 # 16384)%Q, true)) false 7.
Definition D135 : Z := 2097288.
Definition evA135 : list event := evA112.
Definition evB135 : list event := ev112 (map (fun t => D135 + t + t / 2 ^ 14) times112).
Definition A135 : list Q := since (common_start evA135 evB135) evA135.
Definition B135 : list Q := since (common_start evA135 evB135) evB135.
Definition o135_search : told_search o135 = P112 := eq_refl.
Lemma any135 : any_search o135. Proof. repeat split; vm_compute; try reflexivity; discriminate. Qed.
Lemma tried135 : tried (fl 53) o135 = [1 # 512] ++ (1 # 16384)%Q :: []. Proof. vm_compute. reflexivity. Qed.
Lemma moderate135 : moderate (tried (fl 53) o135). Proof. rewrite tried135. intros x [<-|[<-|[]]]; vm_compute; discriminate. Qed.
Lemma overlapping135 : overlapping evA135 evB135.
Proof.
  assert (EV : forall l, forallb (fun e => (0 <=? fst e) && (fst e <? 2 ^ 54) && (0 <=? snd e) && (snd e <? 16)) l = true -> Forall event_ok l).
  { intros l H. apply Forall_forall. intros e I. rewrite forallb_forall in H. specialize (H e I). unfold event_ok. lia. }
  split; [apply EV; vm_compute; reflexivity|]. split; [apply EV; vm_compute; reflexivity|]. repeat split; vm_compute; discriminate.
Qed.
Lemma long135 : forall d, In d [(1 # 512)%Q] -> long_enough MF P112 A135 (precompensated 64 d B135) 65536.
Proof. intros d [<-|[]]. apply (long_enough_ok 6). vm_compute. reflexivity. Qed.
Definition Bleft : list Q := precompensated 64 (1 # 16384) B135.
Definition Dleft : Q := D_left (1 # 16384) (inject_Z D135).
Definition Fleft : Q := F_left (1 # 16384) (1 # 16384).
Lemma stand135 : stand_out 0 MF P112 A135 Bleft 65536 Dleft Fleft 1 8519680. Proof. apply (stand_out_ok 4); vm_compute; reflexivity. Qed.
Lemma common135 : common_after 0 MF 64 o135 evA135 evB135 (1 # 16384) (inject_Z D135) (1 # 16384) 1 8519680.
Proof. destruct stand135 as (a & b & GA & GB & S). exists a, b. split; [exact GA|]. split; [exact GB|exact S]. Qed.
Lemma reach135 : within_reach MF P112 A135 Bleft 65536 Dleft Fleft 1 8519680. Proof. apply (within_reach_ok 6). vm_compute. reflexivity. Qed.
Lemma significant135 : significant MF P112 A135 Bleft 65536. Proof. apply significant_ok. vm_compute. reflexivity. Qed.
(** fpfind -PvV7 --precomp-start 0.001953125 --precomp-step -.00189208984375 --precomp-stop 6103515625e-14 --precomp-o -q 7 -R65536 --sep 512 -S 1 -t a --targ b *)
Definition args135 : list (list Z) := map str ["-PvV7"; "--precomp-sta"; "0.001953125"; "--precomp-ste"; "-.00189208984375"; "--precomp-stop"; "6103515625e-14"; "--precomp-o";
  "-q"; "7"; "-R65536"; "--sep"; "512"; "-S"; "1"; "-t"; "a"; "--targ"; "b"].
Definition ss135 : list ask := [APrecomp; AVerbose; AOutput (str "7"); AStart (str "0.001953125"); AStep (str "-.00189208984375"); AStop (str "6103515625e-14"); AOrdered;
  AOrder (str "7"); AInitial (str "65536"); ASeparation (str "512"); AThreshold (str "1"); AReference (str "a"); ATarget (str "b")].
Lemma own_fraction t ds fs : t = 45 :: ds ++ 46 :: fs -> fs <> [] -> forallb digit (ds ++ fs) = true -> alone t.
Proof.
  intros -> N H. split; [discriminate|]. right. right. right. exists ds, fs. rewrite forallb_app in H. apply andb_true_iff in H as [H1 H2]. rewrite forallb_forall in H1, H2.
  split; [exact N|]. split; [apply Forall_forall; intros c I; apply digit_iff; now apply H1|]. split; [apply Forall_forall; intros c I; apply digit_iff; now apply H2|reflexivity].
Qed.
Lemma writes135 : writes args135 ss135.
Proof.
  unfold args135, ss135. vm_compute map.
  apply (W_attached [APrecomp; AVerbose] [80; 118] (AOutput [55]) 86 [55]); [repeat constructor|reflexivity|reflexivity|split; [discriminate|intros [X|[]]; discriminate]|ascii|].
  apply W_long with (a := AStart (str "0.001953125")); [reflexivity|apply (shortened _ _ 13); reflexivity|now apply own_simple|ascii|].
  apply W_long with (a := AStep (str "-.00189208984375")); [reflexivity|apply (shortened _ _ 13); reflexivity|now apply (own_fraction _ [] (str "00189208984375"))|ascii|].
  apply W_long with (a := AStop (str "6103515625e-14")); [reflexivity|apply (shortened _ _ 14); reflexivity|now apply own_simple|ascii|].
  apply W_long_flag; [reflexivity|apply (shortened _ _ 11); reflexivity|].
  apply (W_detached [] [] (AOrder [55]) 113 [55]); [constructor|reflexivity|reflexivity|now apply own_simple|ascii|].
  apply (W_attached [] [] (AInitial (str "65536")) 82 (str "65536")); [constructor|reflexivity|reflexivity|split; [discriminate|intros X; repeat (destruct X as [X|X]; [discriminate|]); destruct X]|ascii|].
  apply W_long with (a := ASeparation (str "512")); [reflexivity|apply (shortened _ _ 5); reflexivity|now apply own_simple|ascii|].
  apply (W_detached [] [] (AThreshold [49]) 83 [49]); [constructor|reflexivity|reflexivity|now apply own_simple|ascii|].
  apply (W_detached [] [] (AReference [97]) 116 [97]); [constructor|reflexivity|reflexivity|now apply own_simple|ascii|].
  apply W_long with (a := ATarget (str "b")); [reflexivity|apply (shortened _ _ 6); reflexivity|now apply own_simple|ascii|].
  constructor.
Qed.
Lemma decimal_start : decimal (str "0.001953125") (1 # 512).
Proof. exact (decimal_text [] false (str "0") (str "001953125") [] 0 (1 # 512) plus_none eq_refl no_exponent ltac:(vm_compute; reflexivity) ltac:(vm_compute; reflexivity)). Qed.
Lemma decimal_step : decimal (str "-.00189208984375") (- 31 # 16384).
Proof. exact (decimal_text [45] true [] (str "00189208984375") [] 0 (- 31 # 16384) minus_sign eq_refl no_exponent ltac:(vm_compute; reflexivity) ltac:(vm_compute; reflexivity)). Qed.
Lemma decimal_stop : decimal (str "6103515625e-14") (1 # 16384).
Proof.
  assert (EX : exponent (str "e-14") (-14)) by (right; exists 101, (str "-14"); split; [now left|]; split; [exact (whole_text [45] true (str "14") minus_sign eq_refl)|reflexivity]).
  exact (decimal_text [] false (str "6103515625") [] (str "e-14") (-14) (1 # 16384) plus_none eq_refl EX ltac:(vm_compute; reflexivity) ltac:(vm_compute; reflexivity)).
Qed.
Lemma good135 : Forall good ss135.
Proof.
  repeat constructor; cbn [good].
  - exists 7. split; [exact whole7|lia].
  - exists (1 # 512)%Q. exact decimal_start.
  - exists (- 31 # 16384)%Q. exact decimal_step.
  - exists (1 # 16384)%Q. exact decimal_stop.
  - exists 7. exact whole7.
  - exists 65536. exact whole65536.
  - exists 512%Q. exact decimal512.
  - exists 1%Q. exact decimal1.
Qed.
Lemma asked135 : search_asked ss135 o135.
Proof.
  unfold search_asked. split; [exact whole7|]. split; [exact whole65536|]. split; [reflexivity|]. split; [reflexivity|]. split; [exact decimal512|]. split; [exact decimal1|]. split; [exact whole7|].
  split; [split; [discriminate|intros I; repeat (destruct I as [I|I]; [discriminate|]); destruct I]|].
  split; [now left|]. split; [exact decimal_start|]. split; [exact decimal_stop|]. split; [exact decimal_step|]. split; [intros _; do 6 right; now left|reflexivity].
Qed.
