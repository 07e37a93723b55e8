(** Cases for the properties of generate_freqcd_testcase's command line, and what is wrong with it. *)
From Coq Require Import QArith String List Lia.
From Verif Require Import Float Base TimestampsModel TimestampsSpec FpfindModel FpfindSpec MiscModel MiscSpec CdRunModel ArgModel FpCliSpec CliSpec FpCliProofs FpCliCase TsCliModel TsCliSpec
  GenCliModel GenCliSpec GenCliProofs GenCliProofs2 GenCliProofs3.
Import ListNotations. Local Open Scope string_scope. Local Open Scope list_scope. Local Open Scope Z_scope.

Definition none_fs : filesys := fun _ => None.
Definition tmpname : list Z := codes "0a1b2c3d4e_tempinput".
Lemma number_whole ds : forallb digit ds && (0 <? len ds) = true -> whole ds (digits_value ds). Proof. intros H. exact (whole_text [] false ds plus_none H). Qed.
(** -o .input -t 0 1000000000 2000000000 -x *)
Definition ws130 : list (list Z) := map codes ["0"; "1000000000"; "2000000000"].
Definition zs130 : list Z := [0; 1000000000; 2000000000].
Definition args130 (tail : list (list Z)) : list (list Z) := map codes ["-o"; ".input"; "-t"] ++ ws130 ++ tail.
Definition ss130 (tail : list gask) : list gask := GOut (codes ".input") :: GTimes ws130 :: tail.
Lemma whole130 : Forall2 whole ws130 zs130.
Proof. repeat constructor; [exact (number_whole (codes "0") eq_refl)|exact (number_whole (codes "1000000000") eq_refl)|exact (number_whole (codes "2000000000") eq_refl)]. Qed.
Lemma own130 : Forall (fun t => own_word t /\ ascii_text t) ws130.
Proof. unfold ws130. cbn [map]. repeat (constructor; [split; [now apply own_simple|ascii]|]). constructor. Qed.
Lemma times_command args ss : gcommand args ss -> gcommand (codes "-t" :: ws130 ++ args) (GTimes ws130 :: ss).
Proof. intros H. exact (G_times [] [] ws130 args ss (Forall2_nil _) ltac:(discriminate) own130 H). Qed.
Lemma x_spells : gspells [codes "-x"] [GLegacy].
Proof. apply (P_flags _ _ _ _ [GLegacy] [120] [] []); [discriminate|constructor; [split; reflexivity|constructor]|constructor]. Qed.
Lemma x_command : gcommand [codes "-x"] [GLegacy].
Proof. exact (G_more [codes "-x"] [GLegacy] [] [] x_spells G_end). Qed.
Lemma command130 args ss : gcommand args ss -> gcommand (args130 args) (ss130 ss).
Proof.
  intros H. apply (G_more [codes "-o"; codes ".input"] [GOut (codes ".input")]); [|now apply times_command].
  apply (P_detached _ _ _ _ [] [] (GOut (codes ".input")) 111 (codes ".input") [] []); [constructor|reflexivity|reflexivity|now apply own_simple|ascii|constructor].
Qed.
Lemma good130 : Forall ggood [GOut (codes ".input"); GTimes ws130].
Proof. constructor; [discriminate|]. constructor; [|constructor]. cbn [ggood]. pose proof whole130 as W. remember zs130 as zs. clear Heqzs. induction W; constructor; [now exists y|assumption]. Qed.
Lemma good130x ss : Forall ggood ss -> Forall ggood (ss130 ss).
Proof. intros H. exact (proj2 (Forall_app _ [GOut (codes ".input"); GTimes ws130] ss) (conj good130 H)). Qed.
Lemma c130_refuted : ~ C130_statement.
Proof.
  intros H. specialize (H 64 tmpname (args130 [codes "-x"]) (ss130 [GLegacy]) none_fs [] ws130 zs130 true (command130 _ _ x_command) (good130x [GLegacy] ltac:(repeat constructor))).
  assert (N : ~ In GHelp (ss130 [GLegacy])) by (intros [X|[X|[X|[]]]]; discriminate X). specialize (H N eq_refl whole130 ltac:(repeat constructor; discriminate)).
  assert (L : gasked GLegacy (ss130 [GLegacy]) true) by (split; [intros _; right; right; now left|reflexivity]). specialize (H L). change (last_given gout_of (ss130 [GLegacy])) with (Some (codes ".input")) in H. cbn [delivers] in H.
  destruct H as (e & E & _ & _ & F & _). assert (R : match grun 64 tmpname (args130 [codes "-x"]) none_fs [] with Ends e => files e (codes ".input") | _ => None end = Some (events_at true zs130)) by (rewrite E; exact F).
  vm_compute in R. discriminate R.
Qed.
Lemma c130_partial : forall p tmp args ss fs stdin ws zs, gcommand args ss -> Forall ggood ss -> ~ In GHelp ss -> last_given gtimes_of ss = Some ws -> Forall2 whole ws zs ->
  Forall (fun t => 0 <= t) zs -> ~ In GLegacy ss -> delivers (grun p tmp args fs stdin) 0 fs (last_given gout_of ss) [] (events_at false zs).
Proof. intros p tmp args ss fs stdin ws zs C G H L W F _. exact (proj1 (c130_times p tmp args ss fs stdin ws zs C G H L W) F). Qed.
Lemma c130_actual : forall p tmp args ss fs stdin ws zs, gcommand args ss -> Forall ggood ss -> last_given gtimes_of ss = Some ws -> Forall2 whole ws zs ->
  (In GHelp ss -> grun p tmp args fs stdin = Shows_help) /\
  (~ In GHelp ss -> Forall (fun t => 0 <= t) zs -> delivers (grun p tmp args fs stdin) 0 fs (last_given gout_of ss) [] (events_at false zs)) /\
  (~ In GHelp ss -> forall zs1 z zs2, zs = zs1 ++ z :: zs2 -> Forall (fun t => 0 <= t) zs1 -> z < 0 -> delivers (grun p tmp args fs stdin) 1 fs (last_given gout_of ss) [] (events_at false zs1)).
Proof.
  intros p tmp args ss fs stdin ws zs C G L W. split; [exact (c130_help p tmp args ss fs stdin C G)|]. split; intros H.
  - exact (proj1 (c130_times p tmp args ss fs stdin ws zs C G H L W)).
  - exact (proj2 (c130_times p tmp args ss fs stdin ws zs C G H L W)).
Qed.
(** ** - *)
Definition evs131 : list event := [(5, 3); (1000000000, 1); (2 ^ 54 - 1, 15)].
Lemma ok131 : Forall event_ok evs131. Proof. unfold evs131, event_ok. repeat constructor; cbn [fst snd]; lia. Qed.
Lemma input131 : with_input [codes "-x"; codes "-"] [GLegacy] [45].
Proof.
  exists [codes "-x"], [GLegacy], [], []. split; [exact x_spells|]. split; [constructor|]. split; [reflexivity|].
  split; [right; now left|]. split; [ascii|reflexivity].
Qed.
Lemma input_alone t : own_word t -> ascii_text t -> with_input [t] [] t.
Proof. intros O A. exists [], [], [], []. split; [constructor|]. split; [constructor|]. split; [reflexivity|]. split; [exact O|]. split; [exact A|reflexivity]. Qed.
Definition shown (r : tends) : option (Z * list Z) := match r with Ends e => Some (code e, CdRunModel.stdout e) | _ => None end.
(** ** The header *)
Lemma c132_none p tmp fs stdin : said (grun p tmp [] fs stdin) 1 fs [].
Proof. eexists. split; [reflexivity|]. split; [reflexivity|]. split; reflexivity. Qed.
Lemma c132_refuted : ~ C132_statement.
Proof.
  intros H. destruct (H 64 tmpname (put none_fs (codes ".input") []) [] ltac:(lia) (Forall_nil _) eq_refl eq_refl) as (out & _ & (e & E & C & _) & _).
  assert (X : e = mkEnd 1 (put none_fs (codes ".input") []) []) by (change (Ends (mkEnd 1 (put none_fs (codes ".input") []) []) = Ends e) in E; congruence). subst e. discriminate C.
Qed.
Definition stored : filesys := put none_fs (codes ".input") (encode (A1 false) (map word_of evs131)).
(** ** Typing *)
Definition lines133 : list (list Z) := map codes ["12"; "what?"; "+7"; ""; "20000000000000000"].
Lemma typed133 : typed lines133 [12; 7; 20000000000000000].
Proof.
  apply typed_number; [exact (number_whole (codes "12") eq_refl)|discriminate|]. apply typed_other; [unfold is_digit; vm_compute codes; repeat (apply Forall_cons; [lia|]); apply Forall_nil|].
  apply typed_number; [exact (whole_text [43] false [55] plus_sign eq_refl)|discriminate|]. apply typed_other; [constructor|].
  apply typed_number; [exact (number_whole (codes "20000000000000000") eq_refl)|discriminate|]. constructor.
Qed.
