(** C112's search as a command line, end to end; and cases for the properties of fpfind's command line. *)
From Coq Require Import QArith Qabs Lqa String List Lia.
From Verif Require Import Float Base FreqcdExamples TimestampsModel TimestampsSpec UtilsModel UtilsSpec FpfindModel FpfindSpec FpfindProofs3 FpfindProofs4 FpfindRefute FpfindPipe EpochsModel MainModel MainSpec2 CdRunModel
  AccuracySpec PairSpec PairProofs SignalSpec RoundedSpec WholeSpec SwapSpec ExistSpec ExistProofs ExistCase ArgModel FpCliModel FpCliSpec FpCliProofs.
Import ListNotations.
Local Open Scope string_scope. Local Open Scope list_scope.
Local Open Scope Z_scope.

Lemma c114 : forall e fuel2 M p repr o lg evA evB D F j W args ss fs dirs a b,
  writes args ss -> Forall good ss -> ~ In AHelp ss -> search_asked ss o -> last_of sendfiles_of ss = None \/ last_of t1files_of ss = None ->
  last_of reference_of ss = Some a -> last_of target_of ss = Some b -> last_of skip_of ss = None -> requested ALegacy ss lg ->
  fs a = Some (encode (A1 lg) (map word_of evA)) -> fs b = Some (encode (A1 lg) (map word_of evB)) ->
  rt M = fl p -> rs M = fl 53 -> accurate_to e (2 ^ buffer_order o) (len evA) (len evB) M -> (0 <= e)%Q -> 54 <= p -> good_xc M -> good_zs M -> (forall x, field_ok (repr x)) -> plain_search o -> 0 < buffer_order o ->
  (0 <= W)%Q -> (0 <= j)%Q -> common_events e M o evA evB D F j W -> let A := since (common_start evA evB) evA in let B := since (common_start evA evB) evB in
  ends_surely M (told_search o) (inject_Z (initial_res o)) -> within_reach M (told_search o) A B (inject_Z (initial_res o)) D F j W -> significant M (told_search o) A B (inject_Z (initial_res o)) ->
  exists n line ws dt df, (forall m, (n <= m)%nat -> run m fuel2 M p repr args fs dirs = Exit 0 (line ++ [10])) /\
    widths_of M o evA evB ws /\ shows_offsets repr (MainModel.flag o) dt df line /\
    (Qabs (df - F) <= search_freq_error o F j W ws + (1 # 2 ^ 50) * (1 + Qabs F + search_freq_error o F j W ws))%Q /\
    (Qabs (dt - D) <= search_time_error o D F j W ws + (1 # 2 ^ 50) * (Qabs dt + 100000000))%Q.
Proof.
  intros e fuel2 M p repr o lg evA evB D F j W args ss fs dirs a b WR G NH SO ND RA TB NS LG FA FB RT RS AC E0 P54 GX GZ FR PL BO W0 J0 CE A B ES WI SI.
  destruct (c112 e M p repr o lg evA evB D F j W RT RS AC E0 P54 GX GZ FR PL BO W0 J0 CE ES WI SI) as (n & line & ws & dt & df & R & C1 & C2 & C3 & C4).
  exists n, line, ws, dt, df. split; [|now repeat split]. intros m Hm.
  assert (NE : args <> []). { intros ->. inv WR. discriminate. }
  rewrite (run_files m fuel2 M p repr args ss fs dirs WR G NE NH o SO ND a b _ _ lg 0%Q RA TB FA FB LG ltac:(rewrite NS; reflexivity)), (R m Hm). reflexivity.
Qed.
(** fpfind -vvV7 -q 7 -R65536 --sep=512 -S 1 -t a --targ b *)
Definition args114 : list (list Z) := map str ["-vvV7"; "-q"; "7"; "-R65536"; "--sep=512"; "-S"; "1"; "-t"; "a"; "--targ"; "b"].
Definition ss114 : list ask := [AVerbose; AVerbose; AOutput (str "7"); AOrder (str "7"); AInitial (str "65536"); ASeparation (str "512"); AThreshold (str "1"); AReference (str "a"); ATarget (str "b")].
Ltac ascii := repeat constructor; lia.
Lemma shortened p a n : p = firstn n (word a) -> (2 <? len p) && forallb (fun v => negb (starts v p) || same v (word a)) words = true -> abbreviates p a.
Proof.
  intros E H. apply andb_true_iff in H as [H1 H2]. split; [lia|]. split; [exists (skipn n (word a)); rewrite E; now rewrite firstn_skipn|].
  intros w r I X. rewrite forallb_forall in H2. specialize (H2 w I). apply orb_true_iff in H2 as [H2|H2].
  - apply negb_true_iff in H2. assert (K : starts w p = true) by (apply starts_iff; now exists r). congruence.
  - now apply same_iff.
Qed.
Lemma own_simple t : match t with [] | 45 :: _ => False | _ => True end -> alone t.
Proof. intros H. split; [intros ->; exact H|]. left. intros r ->. exact H. Qed.
Lemma writes114 : writes args114 ss114.
Proof.
  unfold args114, ss114. vm_compute map.
  apply (W_attached [AVerbose; AVerbose] [118; 118] (AOutput [55]) 86 [55]); [repeat constructor|reflexivity|reflexivity|split; [discriminate|intros [X|[]]; discriminate]|ascii|].
  apply (W_detached [] [] (AOrder [55]) 113 [55]); [constructor|reflexivity|reflexivity|now apply own_simple|ascii|].
  apply (W_attached [] [] (AInitial (str "65536")) 82 (str "65536")); [constructor|reflexivity|reflexivity|split; [discriminate|intros X; repeat (destruct X as [X|X]; [discriminate|]); destruct X]|ascii|].
  apply (W_long_equals (str "--sep") (ASeparation (str "512"))); [reflexivity|apply (shortened _ _ 5); reflexivity|now apply own_simple|ascii|].
  apply (W_detached [] [] (AThreshold [49]) 83 [49]); [constructor|reflexivity|reflexivity|now apply own_simple|ascii|].
  apply (W_detached [] [] (AReference [97]) 116 [97]); [constructor|reflexivity|reflexivity|now apply own_simple|ascii|].
  apply W_long with (a := ATarget (str "b")); [reflexivity|apply (shortened _ _ 6); reflexivity|now apply own_simple|ascii|].
  constructor.
Qed.
Lemma whole_text s neg ds : sign s neg -> forallb digit ds && (0 <? len ds) = true -> whole (s ++ ds) (if neg then - digits_value ds else digits_value ds).
Proof.
  intros SG H. apply andb_true_iff in H as [H1 H2]. exists s, neg, ds. split; [exact SG|]. split; [intros ->; discriminate|]. split; [|now split].
  apply Forall_forall. intros c I. rewrite forallb_forall in H1. apply digit_iff. now apply H1.
Qed.
Lemma decimal_text s neg ds fs ex e x : sign s neg -> forallb digit ds && forallb digit fs && (0 <? len (ds ++ fs)) = true -> exponent ex e ->
  let m := (if 0 <? len fs then ds ++ 46 :: fs else ds) in let q := (inject_Z (digits_value (ds ++ fs)) * power10 (e - len fs))%Q in
  ((digits_value (ds ++ fs) =? 0) || ((e - len fs <=? 400) && (-10000 <=? e - len fs) && Qle_bool (1 # 2 ^ 1022) q && negb (Qle_bool (inject_Z (2 ^ 1024)) (fl 53 q)))) = true ->
  x = (if neg then (- fl 53 q)%Q else fl 53 q) -> decimal (s ++ m ++ ex) x.
Proof.
  intros SG H EX m q K X. apply andb_true_iff in H as [H H3]. apply andb_true_iff in H as [H1 H2].
  exists s, neg, m, ds, fs, ex, e. split; [exact SG|]. split; [|split; [exact EX|split; [reflexivity|]]].
  - rewrite forallb_forall in H1, H2. split; [apply Forall_forall; intros c I; apply digit_iff; now apply H1|]. split; [apply Forall_forall; intros c I; apply digit_iff; now apply H2|].
    split; [intros Y; rewrite Y in H3; discriminate|]. unfold m. destruct fs as [|f fs]; [left; now split|]. right. rewrite len_cons. pose proof (len_nonneg fs). replace (0 <? _) with true by lia. reflexivity.
  - cbv zeta. fold q. split; [|exact X]. apply orb_true_iff in K as [K|K]; [left; lia|right]. apply andb_true_iff in K as [K K4]. apply andb_true_iff in K as [K K3]. apply andb_true_iff in K as [K1 K2].
    split; [lia|]. split; [lia|]. split; [now apply Qle_bool_iff|]. apply Qnot_le_lt. intros Y. apply Qle_bool_iff in Y. rewrite Y in K4. discriminate.
Qed.
Lemma no_exponent : exponent [] 0. Proof. now left. Qed.
Lemma whole7 : whole (str "7") 7. Proof. exact (whole_text [] false (str "7") plus_none eq_refl). Qed.
Lemma whole65536 : whole (str "65536") 65536. Proof. exact (whole_text [] false (str "65536") plus_none eq_refl). Qed.
Lemma decimal512 : decimal (str "512") 512. Proof. exact (decimal_text [] false (str "512") [] [] 0 512 plus_none eq_refl no_exponent ltac:(vm_compute; reflexivity) ltac:(vm_compute; reflexivity)). Qed.
Lemma decimal1 : decimal (str "1") 1. Proof. exact (decimal_text [] false (str "1") [] [] 0 1 plus_none eq_refl no_exponent ltac:(vm_compute; reflexivity) ltac:(vm_compute; reflexivity)). Qed.
Lemma good114 : Forall good ss114.
Proof.
  repeat constructor; cbn [good].
  - exists 7. split; [exact whole7|lia].
  - exists 7. exact whole7.
  - exists 65536. exact whole65536.
  - exists 512%Q. exact decimal512.
  - exists 1%Q. exact decimal1.
Qed.
Lemma asked114 : search_asked ss114 o112.
Proof.
  unfold search_asked. split; [exact whole7|]. split; [exact whole65536|]. split; [reflexivity|]. split; [reflexivity|]. split; [exact decimal512|]. split; [exact decimal1|]. split; [exact whole7|].
  split; [split; [discriminate|intros I; repeat (destruct I as [I|I]; [discriminate|]); destruct I]|]. intros I; repeat (destruct I as [I|I]; [discriminate|]); destruct I.
Qed.
Lemma readme_strays a b : file_name a -> a <> [] -> file_name b -> b <> [] -> strays (readme a b).
Proof.
  intros (A1 & A2) AN (B1 & B2) BN. apply (S_more [codes "-t"; a; codes "-T"; b] [AReference a; ATarget b] (codes "-n") [codes "1"; codes "-q"; codes "25"; codes "-S"; codes "4"]).
  - apply (W_detached [] [] (AReference a) 116 a); [constructor|reflexivity|reflexivity|split; [exact AN|now left]|exact A1|]. apply (W_detached [] [] (ATarget b) 84 b); [constructor|reflexivity|reflexivity|split; [exact BN|now left]|exact B1|]. constructor.
  - split; [discriminate|]. split; [ascii|]. right. right. exists 110, []. split; [reflexivity|]. split; [easy|]. split; [lia|]. split; [|lia]. intros I. repeat (destruct I as [I|I]; [discriminate|]). destruct I.
  - apply (S_last [] [] (codes "1") [codes "-q"; codes "25"; codes "-S"; codes "4"] [AOrder (codes "25"); AThreshold (codes "4")]).
    + constructor.
    + split; [discriminate|]. split; [ascii|]. left. intros r. discriminate.
    + apply (W_detached [] [] (AOrder (codes "25")) 113 (codes "25")); [constructor|reflexivity|reflexivity|now apply own_simple|ascii|].
      apply (W_detached [] [] (AThreshold (codes "4")) 83 (codes "4")); [constructor|reflexivity|reflexivity|now apply own_simple|ascii|]. constructor.
Qed.
Lemma start_word : option_word (codes "--precomp-start") (AStart (codes "-1e-6")). Proof. left. apply (shortened _ _ 15); reflexivity. Qed.
Lemma decimal_micro : decimal (codes "-1e-6") (- fl 53 (1 # 1000000)).
Proof.
  assert (EX : exponent (codes "e-6") (-6)) by (right; exists 101, (codes "-6"); split; [now left|]; split; [exact (whole_text [45] true (codes "6") minus_sign eq_refl)|reflexivity]).
  exact (decimal_text [45] true (codes "1") [] (codes "e-6") (-6) _ minus_sign eq_refl EX ltac:(vm_compute; reflexivity) ltac:(vm_compute; reflexivity)).
Qed.
Lemma not_own : ~ own_word (codes "-1e-6").
Proof.
  intros [H|[H|[(ds & NE & HD & H)|(ds & fs & NE & HD & HF & H)]]].
  - now apply (H (codes "1e-6")).
  - discriminate.
  - injection H as <-. inv HD. inv H2. unfold is_digit in *. lia.
  - injection H as H. destruct ds as [|x [|y ds]]; try discriminate. inv HD. inv H3. injection H as _ E _. unfold is_digit in *. lia.
Qed.
