(** Proof of C206. *)
From Coq Require Import QArith String List Lia.
From Verif Require Import Float Base FreqcdExamples TimestampsModel TimestampsSpec TimestampsExamples TimestampsProofs TimestampsProofs2 TimestampsProofs5 FpfindModel FpfindSpec MiscModel MiscSpec MiscProofs CdRunModel CdRunProofs ArgModel FpCliSpec CliSpec FpCliProofs FpCliCase
  TsCliModel TsCliSpec TsCliProofs3 TsCliCase GenCliModel GenCliSpec GenCliProofs3 GenCliCase GenRefuseSpec GenRefuseProofs AnyTimeSpec AnyTimeProofs GenTsProofs GenBackSpec GenBackProofs GenOldSpec.
Import ListNotations. Local Open Scope string_scope. Local Open Scope list_scope. Local Open Scope Z_scope.

Lemma unfiltered_words f vs : f_pattern f = None -> f_start f = None -> f_end f = None -> map (converted f) (filter (kept f) vs) = map (fun v => word_of (time_of v, pattern_of v)) vs.
Proof.
  intros P S E. induction vs as [|v vs IH]; [reflexivity|]. cbn [map filter]. assert (K : kept f v = true) by (unfold kept, passes, bounds; rewrite P, S, E; reflexivity).
  rewrite K. cbn [map]. rewrite IH. f_equal. unfold converted, new_pattern. now rewrite P.
Qed.
Lemma swap_pattern t : pattern_of (swap (word_of (t mod 2 ^ 54, 1))) = mispattern t.
Proof.
  unfold pattern_of, swap, mispattern, low, high, word_of. cbn [fst snd]. pose proof (Z.mod_pos_bound t (2 ^ 54) ltac:(lia)) as B. set (x := t mod 2 ^ 54) in *. clearbody x. clear t.
  change (2 ^ 10) with 1024. change (2 ^ 32) with 4294967296. change (2 ^ 22) with 4194304. change (2 ^ 4) with 16.
  replace ((x * 1024 + 1) mod 4294967296 * 4294967296) with (((x * 1024 + 1) mod 4294967296 * 268435456) * 16) by lia. rewrite Z.add_comm, Z.mod_add by lia. f_equal.
  symmetry. pose proof (Z.div_mod x 4194304 ltac:(lia)). pose proof (Z.mod_pos_bound x 4194304 ltac:(lia)). apply (Z.div_unique _ _ _ (1024 * (x mod 4194304) + 1)); lia.
Qed.
Lemma converts_words lg p path args ss fs a b x fout memory vs : 54 <= p -> plainly args ss a b (A1 x) fout memory -> a <> [] -> fs a = Some (encode (A1 x) vs) -> Forall TimestampsSpec.word_ok vs ->
  wrote (trun lg p path args fs) 0 fs b (encode fout (map (fun v => word_of (time_of v, pattern_of v)) vs)).
Proof.
  intros P (C2 & G2 & H2 & Q2 & M2 & I2 & F2 & U2 & (f & A2) & B2 & D2) NA FA W. destruct (filterless_is ss f U2 A2) as (P2 & S2 & E2). rewrite <- (unfiltered_words f vs P2 S2 E2).
  apply (c119 lg p path args ss a b fs (A1 x) fout f memory vs P); [|exact D2].
  split; [exact C2|]. split; [exact G2|]. split; [exact H2|]. split; [exact Q2|]. split; [exact M2|]. split; [exact I2|]. split; [exact F2|]. split; [exact A2|]. split; [exact NA|]. split; [exact B2|].
  split; [exact FA|]. split; [exact W|]. split; [unfold filter_ok; now rewrite P2|]. assert (TF : timed f = false) by (unfold timed; now rewrite S2, E2).
  split; [rewrite TF; discriminate|]. split; [rewrite TF; intros [X|[_ X]]; discriminate X|exact I].
Qed.
Lemma writes_file p tmp args ss fs stdin zs a : generating_to args ss zs a -> a <> [] /\ exists e, grun p tmp args fs stdin = Ends e /\ code e = 0 /\ files e a = Some (encode (A1 false) (event_words zs)).
Proof.
  intros (C & F & NH & O & N & ws & T & W). split; [intros ->; unfold out_chosen in O; destruct (last_given gout_of ss) as [[|? ?]|]; discriminate O|].
  destruct (c201 p tmp args ss fs stdin ws zs C F T W) as (_ & R & _). specialize (R NH N). rewrite O in R. cbn [delivers] in R. destruct R as (e & A & B & _ & D & _). exists e. split; [exact A|]. split; [exact B|exact D].
Qed.
Lemma generating_pos args ss zs a : generating_to args ss zs a -> Forall (fun t => 0 <= t) zs. Proof. intros (_ & _ & _ & _ & N & _). exact N. Qed.
Lemma c206_partial lg p path tmp args1 ss1 fs in1 zs a args2 ss2 b fout memory : 54 <= p -> generating_to args1 ss1 zs a -> plainly args2 ss2 a b (A1 false) fout memory ->
  chained lg p path tmp args1 fs in1 args2 b (encode fout (map (fun t => word_of (t mod 2 ^ 54, 1)) zs)).
Proof.
  intros P G R. destruct (writes_file p tmp args1 ss1 fs in1 zs a G) as (NA & e & A & B & D). exists e. split; [exact A|]. split; [exact B|]. pose proof (generating_pos _ _ _ _ G) as N.
  pose proof (converts_words lg p path args2 ss2 (files e) a b false fout memory _ P R NA D (event_words_ok zs N)) as X. unfold event_words in X. rewrite map_map in X. erewrite map_ext in X; [exact X|]. intros t. cbv beta.
  destruct (time_word (t mod 2 ^ 54, 1)) as [T Q]; [unfold event_ok; cbn [fst snd]; pose proof (Z.mod_pos_bound t (2 ^ 54) ltac:(lia)); lia|]. now rewrite T, Q.
Qed.
Lemma c206_actual lg p path tmp args1 ss1 fs in1 zs a args2 ss2 b fout memory : 54 <= p -> generating_to args1 ss1 zs a -> plainly args2 ss2 a b (A1 true) fout memory ->
  chained lg p path tmp args1 fs in1 args2 b (encode fout (map (fun t => word_of (misread t, mispattern t)) zs)).
Proof.
  intros P G R. destruct (writes_file p tmp args1 ss1 fs in1 zs a G) as (NA & e & A & B & D). exists e. split; [exact A|]. split; [exact B|]. pose proof (event_words_ok zs (generating_pos _ _ _ _ G)) as W.
  assert (W2 : Forall TimestampsSpec.word_ok (map swap (event_words zs))) by (apply Forall_map; eapply Forall_impl; [|exact W]; intros v V; exact (proj1 (swap_ok v V))). rewrite (encode_swap _ W) in D.
  pose proof (converts_words lg p path args2 ss2 (files e) a b true fout memory _ P R NA D W2) as X. unfold event_words in X. rewrite !map_map in X. erewrite map_ext in X; [exact X|]. intros t. cbv beta. now rewrite swap_time, swap_pattern.
Qed.
(** generate_freqcd_testcase -x -o a -t 1 1_000, then parse_timestamps -XA1 a b *)
Definition ws206 : list (list Z) := [codes "1"; codes "1_000"].
Definition args206 : list (list Z) := [codes "-x"] ++ [codes "-o"; codes "a"] ++ codes "-t" :: ws206 ++ [].
Definition ss206 : list gask := [GLegacy] ++ [GOut (codes "a")] ++ [] ++ GTimes ws206 :: [].
Lemma generating206 : generating_to args206 ss206 [1; 1000] (str "a").
Proof.
  assert (W : Forall2 int_word ws206 [1; 1000]) by (repeat (constructor; [apply int_of_word; vm_compute; reflexivity|]); constructor). split.
  { apply G_more; [exact x_spells|]. apply G_more; [apply (P_detached _ _ _ _ [] [] (GOut (codes "a")) 111 (codes "a") [] []); [constructor|reflexivity|reflexivity|left; discriminate|repeat constructor; cbn; try lia; try discriminate|constructor]|].
    apply (G_times [] [] ws206 [] []); [constructor|discriminate| |constructor]; repeat constructor; cbn; try lia; try discriminate. }
  split; [constructor; [exact I|]; constructor; [exact I|]; constructor; [|constructor]; cbn [fine]; clear -W; induction W; constructor; [now exists y|assumption]|]. split; [intros [X|[X|[X|[]]]]; discriminate X|]. split; [reflexivity|].
  split; [repeat constructor; lia|]. exists ws206. split; [reflexivity|exact W].
Qed.
Lemma plainly206 : plainly (map str ["-XA1"; "a"; "b"]) [WLegacyIn; WFrom (str "1")] (str "a") (str "b") (A1 true) (A1 false) false.
Proof.
  split. { exists [str "-XA1"], [WLegacyIn; WFrom (str "1")], [], [].
    split; [apply (P_attached _ _ _ _ [WLegacyIn] [88] (WFrom [49]) 65 [49] [] []); [repeat constructor|reflexivity|reflexivity|split; [discriminate|intros [X|[]]; discriminate]|ascii|]; constructor|]. split; [constructor|]. split; [reflexivity|]. split; [now apply name_simple|].
    split; [intros o X; injection X as <-; now apply name_simple|reflexivity]. }
  split; [goods|]. split; [nowhere|]. split; [nowhere|]. split; [decide_wanted|].
  split; [exists (str "1"), true; split; [reflexivity|]; split; [decide_wanted|right; left; now split]|].
  split; [exists (str "1"), false; split; [reflexivity|]; split; [decide_wanted|right; left; now split]|]. split; [repeat split|].
  split; [exists plain_filter; split; [exact I|]; split; [decide_wanted|]; split; [decide_wanted|]; split; exact I|]. split; [discriminate|right; discriminate].
Qed.
Lemma c206_refuted : ~ C206_statement.
Proof.
  intros H. destruct (H (fun _ => 0) 54 (fun x => x) tmpname _ _ none_fs [] _ _ _ _ _ _ _ true ltac:(lia) generating206 ltac:(split; [intros _; now left|reflexivity]) plainly206) as (e & A & _ & e2 & B & _ & _ & D & _).
  destruct (c206_actual (fun _ => 0) 54 (fun x => x) tmpname _ _ none_fs [] _ _ _ _ _ _ _ ltac:(lia) generating206 plainly206) as (e' & A' & _ & e2' & B' & _ & _ & D' & _).
  rewrite A in A'. injection A' as <-. rewrite B in B'. injection B' as <-. rewrite D in D'. vm_compute in D'. discriminate D'.
Qed.
