(** Converting there and back, and cases for the properties of parse_timestamps' command line. *)
From Coq Require Import QArith String List Lia.
From Verif Require Import Float Base FreqcdExamples TimestampsModel TimestampsSpec TimestampsExamples TimestampsProofs5 ReportModel CdRunModel CdRunProofs ArgModel FpCliSpec CliSpec FpCliProofs FpCliCase CliProofs TsCliModel TsCliSpec TsCliProofs
  TsCliProofs2 TsCliProofs3.
Import ListNotations.
Local Open Scope string_scope. Local Open Scope list_scope.
Local Open Scope Z_scope.

Lemma filterless_is ss f : filterless ss -> filter_asked ss f -> f_pattern f = None /\ f_start f = None /\ f_end f = None.
Proof.
  intros (A & B & C) (X & _ & _ & Y & Z). rewrite A in X. rewrite B in Y. rewrite C in Z. destruct (f_pattern f), (f_start f), (f_end f); try contradiction. repeat split.
Qed.
Lemma unfiltered f evs : f_pattern f = None -> f_start f = None -> f_end f = None -> Forall event_ok evs -> map (converted f) (filter (kept f) (map word_of evs)) = map word_of evs.
Proof.
  intros P S E. induction 1 as [|e evs H HE IH]; [reflexivity|]. cbn [map filter]. assert (K : kept f (word_of e) = true) by (unfold kept, passes, bounds; rewrite P, S, E; reflexivity).
  rewrite K. cbn [map]. rewrite IH. f_equal. destruct (time_word e H) as [T Q]. unfold converted, new_pattern. rewrite P, T, Q. now destruct e.
Qed.
Lemma c122 : forall lg p path args1 ss1 args2 ss2 a b c fs fin fout f g m1 m2 evs, 54 <= p -> Forall event_ok evs -> filterless ss1 -> filterless ss2 ->
  converting args1 ss1 a b fs fin fout f m1 (map word_of evs) -> m1 = true \/ b <> a ->
  (forall fs', fs' b = Some (encode fout (map word_of evs)) -> converting args2 ss2 b c fs' fout fin g m2 (map word_of evs)) -> m2 = true \/ c <> b ->
  exists e1 e2, trun lg p path args1 fs = Ends e1 /\ code e1 = 0 /\ trun lg p path args2 (files e1) = Ends e2 /\ code e2 = 0 /\ files e2 c = fs a.
Proof.
  intros lg p path args1 ss1 args2 ss2 a b c fs fin fout f g m1 m2 evs P EV F1 F2 K1 D1 K2 D2.
  pose proof (c119 lg p path args1 ss1 a b fs fin fout f m1 _ P K1 D1) as (e1 & R1 & C1 & _ & W1 & _).
  assert (FF : filter_asked ss1 f) by apply K1. assert (FA : fs a = Some (encode fin (map word_of evs))) by apply K1.
  destruct (filterless_is ss1 f F1 FF) as (P1 & S1 & E1). rewrite (unfiltered f evs P1 S1 E1 EV) in W1.
  pose proof (K2 (files e1) W1) as K3. pose proof (c119 lg p path args2 ss2 b c (files e1) fout fin g m2 _ P K3 D2) as (e2 & R2 & C2 & _ & W2 & _).
  assert (GG : filter_asked ss2 g) by apply K3. destruct (filterless_is ss2 g F2 GG) as (P2 & S2 & E2). rewrite (unfiltered g evs P2 S2 E2 EV) in W2.
  exists e1, e2. repeat split; try assumption. congruence.
Qed.
Lemma tshortened p a w n : tword a = Some w -> p = firstn n w -> (2 <? len p) && forallb (fun v => negb (starts v p) || same v w) twords = true -> shortens tword twords p a.
Proof.
  intros W E H. apply andb_true_iff in H as [H1 H2]. split; [lia|]. exists w, (skipn n w). split; [exact W|]. split; [rewrite E; now rewrite firstn_skipn|].
  intros v r I X. rewrite forallb_forall in H2. specialize (H2 v I). apply orb_true_iff in H2 as [H2|H2].
  - apply negb_true_iff in H2. assert (K : starts v p = true) by (apply starts_iff; now exists r). congruence.
  - now apply same_iff.
Qed.
(** parse_timestamps -qXA1 a b -a 2 --pfilter-p 3 --pfilter-m --tfilter-s 9.5367431640625e-07 *)
Definition us : list Z := str "9.5367431640625e-07".
Definition opts119 : list (list Z) := map str ["-a"; "2"; "--pfilter-p"; "3"; "--pfilter-m"; "--tfilter-s"] ++ [us].
Definition args119 : list (list Z) := map str ["-qXA1"; "a"; "b"] ++ opts119.
Definition ss119 : list want := [WQuiet; WLegacyIn; WFrom (str "1"); WTo (str "2"); WPattern (str "3"); WMask; WStart us].
Definition fs119 : filesys := fun n => if same n (str "a") then Some (encode (A1 true) words_low) else None.
Lemma first119 : tspells [str "-qXA1"] [WQuiet; WLegacyIn; WFrom (str "1")].
Proof. apply (P_attached _ _ _ _ [WQuiet; WLegacyIn] [113; 88] (WFrom [49]) 65 [49] [] []); [repeat constructor|reflexivity|reflexivity|split; [discriminate|intros [X|[]]; discriminate]|ascii|]. constructor. Qed.
Lemma second119 : tspells opts119 [WTo (str "2"); WPattern (str "3"); WMask; WStart us].
Proof.
  apply (P_detached _ _ _ _ [] [] (WTo [50]) 97 [50]); [constructor|reflexivity|reflexivity|now apply own_simple|ascii|].
  apply P_long with (a := WPattern (str "3")); [reflexivity|eapply (tshortened _ _ _ 11); reflexivity|now apply own_simple|ascii|].
  apply P_long_flag; [reflexivity|eapply (tshortened _ _ _ 11); reflexivity|].
  apply P_long with (a := WStart us); [reflexivity|eapply (tshortened _ _ _ 11); reflexivity|now apply own_simple|ascii|]. constructor.
Qed.
Lemma name_simple a : forallb (fun c => (0 <=? c) && (c <? 128)) a = true -> match a with 45 :: _ => False | _ => True end -> file_name a.
Proof. intros H N. split; [apply Forall_forall; intros c I; rewrite forallb_forall in H; specialize (H c I); lia|]. intros r ->. exact N. Qed.
Lemma command119 : command args119 ss119 (str "a") (Some (str "b")).
Proof.
  exists [str "-qXA1"], [WQuiet; WLegacyIn; WFrom (str "1")], opts119, [WTo (str "2"); WPattern (str "3"); WMask; WStart us].
  split; [exact first119|]. split; [exact second119|]. split; [reflexivity|]. split; [now apply name_simple|]. split; [intros o X; injection X as <-; now apply name_simple|reflexivity].
Qed.
Lemma decimal_us : decimal us (1 # 1048576).
Proof.
  assert (EX : exponent (str "e-07") (-7)) by (right; exists 101, (str "-07"); split; [now left|]; split; [exact (whole_text [45] true (str "07") minus_sign eq_refl)|reflexivity]).
  exact (decimal_text [] false (str "9") (str "5367431640625") (str "e-07") (-7) _ plus_none eq_refl EX ltac:(vm_compute; reflexivity) ltac:(vm_compute; reflexivity)).
Qed.
Lemma whole3 : whole (str "3") 3. Proof. exact (whole_text [] false (str "3") plus_none eq_refl). Qed.
Ltac goods := repeat (apply Forall_cons; [cbn [tgood]; first [exact I|left; reflexivity|right; left; reflexivity|right; right; reflexivity|eexists; first [exact whole3|exact decimal_us]]|]); apply Forall_nil.
Ltac nowhere := intros I; repeat (destruct I as [I|I]; [discriminate|]); destruct I.
Ltac somewhere := first [left; reflexivity|right; somewhere].
Ltac decide_wanted := unfold wanted; first [split; [discriminate|nowhere]|split; [intros _; somewhere|reflexivity]].
Lemma converting119 : converting args119 ss119 (str "a") (str "b") fs119 (A1 true) A2 some_filter false words_low.
Proof.
  split; [exact command119|]. split; [goods|].
  split; [nowhere|]. split; [nowhere|]. split; [decide_wanted|].
  split; [exists (str "1"), true; split; [reflexivity|]; split; [decide_wanted|right; left; now split]|].
  split; [exists (str "2"), false; split; [reflexivity|]; split; [decide_wanted|right; right; now split]|].
  split; [split; [exact whole3|]; split; [decide_wanted|]; split; [decide_wanted|]; split; [exact decimal_us|exact I]|].
  split; [discriminate|]. split; [discriminate|]. split; [reflexivity|].
  split; [exact words_low_ok|]. split; [cbn; lia|]. split; [intros _; repeat constructor; vm_compute; congruence|]. split; [intros _; repeat constructor; vm_compute; reflexivity|exact I].
Qed.
(** parse_timestamps -A1 x x *)
Definition fs120 : filesys := fun n => if same n (str "x") then Some (encode (A1 false) [word_of (5, 1)]) else None.
Definition plain_filter : filters := mkF None false false None None.
Lemma spells_A1 : tspells [str "-A1"] [WFrom (str "1")].
Proof. apply (P_attached _ _ _ _ [] [] (WFrom [49]) 65 [49] [] []); [constructor|reflexivity|reflexivity|split; [discriminate|intros [X|[]]; discriminate]|ascii|]. constructor. Qed.
Lemma converting120 : converting (map str ["-A1"; "x"; "x"]) [WFrom (str "1")] (str "x") (str "x") fs120 (A1 false) (A1 false) plain_filter false [word_of (5, 1)].
Proof.
  split; [exists [str "-A1"], [WFrom (str "1")], [], []; split; [exact spells_A1|]; split; [constructor|]; split; [reflexivity|]; split; [now apply name_simple|]; split; [intros o X; injection X as <-; now apply name_simple|reflexivity]|].
  split; [goods|]. split; [nowhere|]. split; [nowhere|]. split; [decide_wanted|].
  split; [exists (str "1"), false; split; [reflexivity|]; split; [decide_wanted|right; left; now split]|].
  split; [exists (str "1"), false; split; [reflexivity|]; split; [decide_wanted|right; left; now split]|].
  split; [split; [exact I|]; split; [decide_wanted|]; split; [decide_wanted|]; split; exact I|].
  split; [discriminate|]. split; [discriminate|]. split; [reflexivity|].
  split; [repeat constructor; vm_compute; congruence|]. split; [exact I|]. split; [discriminate|]. split; [|exact I]. intros [X|[_ X]]; discriminate.
Qed.
Lemma c120_refuted : ~ C120_statement.
Proof.
  intros S. destruct (S (fun _ => 0) 64 (fun x => x) _ _ _ _ _ _ _ _ _ ltac:(lia) converting120) as (e & R & _ & _ & F & _). vm_compute in R. injection R as <-. vm_compute in F. discriminate.
Qed.
(** parse_timestamps -A1 a -a2 b and parse_timestamps -A1 -a2 a b *)
Lemma spells_a2 : tspells [str "-a2"] [WTo (str "2")].
Proof. apply (P_attached _ _ _ _ [] [] (WTo [50]) 97 [50] [] []); [constructor|reflexivity|reflexivity|split; [discriminate|intros [X|[]]; discriminate]|ascii|]. constructor. Qed.
Lemma spells_both : tspells (map str ["-A1"; "-a2"]) [WFrom (str "1"); WTo (str "2")].
Proof. apply (P_attached _ _ _ _ [] [] (WFrom [49]) 65 [49]); [constructor|reflexivity|reflexivity|split; [discriminate|intros [X|[]]; discriminate]|ascii|]. exact spells_a2. Qed.
Lemma between121 : between (map str ["-A1"; "a"; "-a2"; "b"]) [WFrom (str "1"); WTo (str "2")] (str "a") (str "b").
Proof.
  exists [str "-A1"], [WFrom (str "1")], [str "-a2"], [WTo (str "2")], [], []. split; [exact spells_A1|]. split; [exact spells_a2|]. split; [constructor|]. split; [discriminate|]. split; [reflexivity|].
  split; [now apply name_simple|]. split; [now apply name_simple|reflexivity].
Qed.
Lemma command121 : command (map str ["-A1"; "-a2"; "a"; "b"]) [WFrom (str "1"); WTo (str "2")] (str "a") (Some (str "b")).
Proof.
  exists (map str ["-A1"; "-a2"]), [WFrom (str "1"); WTo (str "2")], [], []. split; [exact spells_both|]. split; [constructor|]. split; [reflexivity|]. split; [now apply name_simple|].
  split; [intros o X; injection X as <-; now apply name_simple|reflexivity].
Qed.
Lemma command121' : command (map str ["-A1"; "a"; "b"; "-a2"]) [WFrom (str "1"); WTo (str "2")] (str "a") (Some (str "b")).
Proof.
  exists [str "-A1"], [WFrom (str "1")], [str "-a2"], [WTo (str "2")]. split; [exact spells_A1|]. split; [exact spells_a2|]. split; [reflexivity|]. split; [now apply name_simple|].
  split; [intros o X; injection X as <-; now apply name_simple|reflexivity].
Qed.
Lemma c121_refuted : ~ C121_statement.
Proof. intros S. specialize (S (fun _ => 0) 64 (fun x => x) _ _ _ _ _ (fun _ => None) between121 command121). vm_compute in S. discriminate. Qed.
(** there and back: parse_timestamps -A1 -a2 a b, then parse_timestamps --inmem -A2 b c *)
Definition evs122 : list event := evs_low.
Definition fs122 : filesys := fun n => if same n (str "a") then Some (encode (A1 false) words_low) else None.
Lemma converting_there : converting (map str ["-A1"; "-a2"; "a"; "b"]) [WFrom (str "1"); WTo (str "2")] (str "a") (str "b") fs122 (A1 false) A2 plain_filter false (map word_of evs122).
Proof.
  split; [exact command121|]. split; [goods|]. split; [nowhere|]. split; [nowhere|]. split; [decide_wanted|].
  split; [exists (str "1"), false; split; [reflexivity|]; split; [decide_wanted|right; left; now split]|].
  split; [exists (str "2"), false; split; [reflexivity|]; split; [decide_wanted|right; right; now split]|].
  split; [split; [exact I|]; split; [decide_wanted|]; split; [decide_wanted|]; split; exact I|].
  split; [discriminate|]. split; [discriminate|]. split; [reflexivity|].
  split; [exact words_low_ok|]. split; [exact I|]. split; [discriminate|]. split; [|exact I]. intros [X|[_ X]]; discriminate.
Qed.
Lemma converting_back fs : fs (str "b") = Some (encode A2 (map word_of evs122)) ->
  converting (map str ["--inmem"; "-A2"; "b"; "c"]) [WMemory; WFrom (str "2")] (str "b") (str "c") fs A2 (A1 false) plain_filter true (map word_of evs122).
Proof.
  intros FB. split.
  { exists (map str ["--inmem"; "-A2"]), [WMemory; WFrom (str "2")], [], []. split.
    { apply P_long_flag; [reflexivity|eapply (tshortened _ _ _ 7); reflexivity|]. apply (P_attached _ _ _ _ [] [] (WFrom [50]) 65 [50] [] []); [constructor|reflexivity|reflexivity|split; [discriminate|intros [X|[]]; discriminate]|ascii|]. constructor. }
    split; [constructor|]. split; [reflexivity|]. split; [now apply name_simple|]. split; [intros o X; injection X as <-; now apply name_simple|reflexivity]. }
  split; [goods|]. split; [nowhere|]. split; [nowhere|]. split; [decide_wanted|].
  split; [exists (str "2"), false; split; [reflexivity|]; split; [decide_wanted|right; right; now split]|].
  split; [exists (str "1"), false; split; [reflexivity|]; split; [decide_wanted|right; left; now split]|].
  split; [split; [exact I|]; split; [decide_wanted|]; split; [decide_wanted|]; split; exact I|].
  split; [discriminate|]. split; [discriminate|]. split; [exact FB|].
  split; [exact words_low_ok|]. split; [exact I|]. split; [discriminate|]. split; [intros [X|[X _]]; discriminate|]. split; [left; repeat (constructor; [reflexivity|]); constructor|cbn; lia].
Qed.
