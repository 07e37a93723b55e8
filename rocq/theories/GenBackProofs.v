(** Proof of C205. *)
From Coq Require Import QArith String List Lia.
From Verif Require Import Float Base TimestampsModel TimestampsSpec TimestampsProofs TimestampsProofs2 TimestampsProofs5 FpfindModel FpfindSpec MiscModel MiscSpec MiscProofs CdRunModel CdRunProofs ArgModel FpCliSpec CliSpec FpCliProofs FpCliCase
  TsCliModel TsCliSpec GenCliModel GenCliSpec GenCliProofs GenCliProofs2 GenCliProofs3 GenCliCase GenRefuseSpec GenRefuseProofs AnyTimeSpec AnyTimeProofs GenBackSpec.
Import ListNotations. Local Open Scope string_scope. Local Open Scope list_scope. Local Open Scope Z_scope.

(** words with any bits between time and pattern *)
Lemma decode_words p x file vs : 54 <= p -> Forall TimestampsSpec.word_ok vs -> decode_file p x file (encode (A1 x) vs) = (Some (encode (A1 x) vs), Ok (map time_of vs)).
Proof.
  intros P W. unfold decode_file. f_equal. rewrite read_a1_encode by exact W. unfold out, raw_t. cbn [bind format_timestamps tvalues]. f_equal. rewrite !map_map. apply map_ext_Forall.
  eapply Forall_impl; [|exact W]. intros v V. apply print_exact; [exact P|]. unfold time_of, TimestampsSpec.word_ok in *. change (2 ^ 64) with 18446744073709551616 in V. change (2 ^ 10) with 1024. change (2 ^ 54) with 18014398509481984. split; [apply Z.div_pos; lia|apply Z.div_lt_upper_bound; lia].
Qed.
Lemma reads_words p tmp args ss fs lg vs : 54 <= p -> reading args ss -> gasked GLegacy ss lg -> fs tmp = None -> Forall TimestampsSpec.word_ok vs ->
  exists out, numbers (map time_of vs) out /\ said (grun p tmp args fs (encode (A1 lg) vs)) 0 fs out.
Proof.
  intros P (C & G & NH & LT & LO) LG FT EV. assert (NE : args <> []) by (destruct C as (a1 & s1 & a2 & s2 & _ & _ & _ & _ & _ & ->); destruct a1; discriminate).
  exists (print_lines (map dec (map time_of vs))). split; [apply lines_numbers|].
  destruct (run_means p tmp args ss (Some [45]) fs (encode (A1 lg) vs) C G NE) as [_ R]. destruct (R NH) as (n & M & ->). pose proof (means_out ss _ n G M) as MO. destruct M as (_ & MT & ML & MI). rewrite LT in MT.
  assert (LE : g_legacy n = lg) by (unfold gasked in LG; destruct (g_legacy n), lg; intuition). unfold gproceed. rewrite MO, LO, MT, MI. change (same [45] [45]) with true. cbv iota. rewrite LE.
  rewrite (decode_words p lg (fs tmp) vs P EV). eexists. split; [reflexivity|]. split; [reflexivity|]. split; [reflexivity|].
  intros m. cbn [files]. unfold unlink, put. rewrite same_same. destruct (same_name m tmp) eqn:S; [apply same_ok in S; congruence|reflexivity].
Qed.
Definition swap (v : Z) : Z := low v * 2 ^ 32 + high v.
Lemma swap_ok v : TimestampsSpec.word_ok v -> TimestampsSpec.word_ok (swap v) /\ low (swap v) = high v /\ high (swap v) = low v.
Proof.
  unfold TimestampsSpec.word_ok, swap, low, high. change (2 ^ 64) with 18446744073709551616. change (2 ^ 32) with 4294967296. intros V.
  assert (A : 0 <= v / 4294967296 < 4294967296) by (split; [apply Z.div_pos; lia|apply Z.div_lt_upper_bound; lia]). pose proof (Z.mod_pos_bound v 4294967296 ltac:(lia)) as B. split; [lia|]. split.
  - rewrite Z.add_comm, Z.mod_add by lia. now apply Z.mod_small.
  - rewrite Z.add_comm, Z.div_add by lia. rewrite Z.div_small by lia. lia.
Qed.
Lemma encode_swap vs : Forall TimestampsSpec.word_ok vs -> encode (A1 false) vs = encode (A1 true) (map swap vs).
Proof.
  unfold encode. induction 1 as [|v vs V _ IH]; [reflexivity|]. cbn [map concat]. rewrite IH. f_equal. destruct (swap_ok v V) as (_ & L & H). cbn [encode1]. now rewrite L, H.
Qed.
Lemma swap_time t : time_of (swap (word_of (t mod 2 ^ 54, 1))) = misread t.
Proof.
  unfold time_of, swap, misread, low, high, word_of. cbn [fst snd]. pose proof (Z.mod_pos_bound t (2 ^ 54) ltac:(lia)) as B. set (x := t mod 2 ^ 54) in *. clearbody x. clear t.
  change (2 ^ 10) with 1024. change (2 ^ 32) with 4294967296. change (2 ^ 22) with 4194304. replace (x * 1024 + 1) with (1024 * x + 1) by lia. set (w := 1024 * x + 1).
  replace (w mod 4294967296 * 4294967296) with ((w mod 4294967296 * 4194304) * 1024) by lia. rewrite Z.div_add_l by lia. f_equal. rewrite Z.div_div by lia.
  replace (4294967296 * 1024) with (1024 * 4294967296) by lia. rewrite <- Z.div_div by lia. f_equal. unfold w. symmetry. apply (Z.div_unique _ _ _ 1); lia.
Qed.
Lemma writes_words p tmp args ss fs stdin zs : generating args ss zs -> said (grun p tmp args fs stdin) 0 fs (encode (A1 false) (event_words zs)) /\ Forall (fun t => 0 <= t) zs.
Proof.
  intros (C & F & NH & O & N & ws & T & W). split; [|exact N]. destruct (c201 p tmp args ss fs stdin ws zs C F T W) as (_ & R & _). specialize (R NH N). rewrite O in R. exact R.
Qed.
Lemma c205_partial p tmp1 args1 ss1 fs1 in1 zs tmp2 args2 ss2 fs2 : 54 <= p -> generating args1 ss1 zs -> reading args2 ss2 -> ~ In GLegacy ss2 -> fs2 tmp2 = None ->
  exists out, numbers (map (fun t => t mod 2 ^ 54) zs) out /\ piped p tmp1 args1 fs1 in1 tmp2 args2 fs2 out.
Proof.
  intros P G R L FT. destruct (writes_words p tmp1 args1 ss1 fs1 in1 zs G) as [S N]. assert (A : gasked GLegacy ss2 false) by (split; [discriminate|contradiction]).
  destruct (reads_words p tmp2 args2 ss2 fs2 false _ P R A FT (event_words_ok zs N)) as (o & D & E). rewrite (proj1 (words_events zs N)) in D. exists o. split; [exact D|]. eexists. split; [exact S|exact E].
Qed.
Lemma c205_actual p tmp1 args1 ss1 fs1 in1 zs tmp2 args2 ss2 fs2 : 54 <= p -> generating args1 ss1 zs -> reading args2 ss2 -> In GLegacy ss2 -> fs2 tmp2 = None ->
  exists out, numbers (map misread zs) out /\ piped p tmp1 args1 fs1 in1 tmp2 args2 fs2 out.
Proof.
  intros P G R L FT. destruct (writes_words p tmp1 args1 ss1 fs1 in1 zs G) as [S N]. assert (A : gasked GLegacy ss2 true) by (split; [intros _; exact L|reflexivity]). pose proof (event_words_ok zs N) as W.
  assert (W2 : Forall TimestampsSpec.word_ok (map swap (event_words zs))) by (apply Forall_map; eapply Forall_impl; [|exact W]; intros v V; exact (proj1 (swap_ok v V))).
  destruct (reads_words p tmp2 args2 ss2 fs2 true _ P R A FT W2) as (o & D & E). exists o. split.
  - unfold event_words in D. rewrite !map_map in D. erewrite map_ext in D; [exact D|]. intros t. apply swap_time.
  - eexists. split; [exact S|]. rewrite (encode_swap _ W). exact E.
Qed.
(** exactly the times that come back all the same *)
Lemma c205_only t : 0 <= t < 2 ^ 54 -> (misread t = t <-> exists k, 0 <= k < 2 ^ 22 /\ t = k * (2 ^ 32 + 1) + 2 ^ 22).
Proof.
  intros B. unfold misread. rewrite !(Z.mod_small t (2 ^ 54)) by exact B. change (2 ^ 54) with 18014398509481984 in B. change (2 ^ 32) with 4294967296. change (2 ^ 22) with 4194304.
  pose proof (Z.div_mod t 4194304 ltac:(lia)) as E. pose proof (Z.mod_pos_bound t 4194304 ltac:(lia)) as K. set (k := t mod 4194304) in *. set (h := t / 4194304) in *. clearbody k h.
  assert (L : (1024 * t + 1) mod 4294967296 = 1024 * k + 1) by (symmetry; apply (Z.mod_unique _ _ h); lia). rewrite L.
  assert (H : t / 4294967296 = h / 1024) by (symmetry; apply (Z.div_unique _ _ _ ((h mod 1024) * 4194304 + k)); pose proof (Z.div_mod h 1024 ltac:(lia)); pose proof (Z.mod_pos_bound h 1024 ltac:(lia)); lia).
  rewrite H. pose proof (Z.div_mod h 1024 ltac:(lia)) as D. pose proof (Z.mod_pos_bound h 1024 ltac:(lia)) as M. set (q := h / 1024) in *. set (r := h mod 1024) in *. clearbody q r. split.
  - intros X. exists k. split; [lia|]. lia.
  - intros (j & J & X). lia.
Qed.
Lemma generating205 : generating [codes "-x"; codes "-t"; codes "1"; codes "1_000"] [GLegacy; GTimes [codes "1"; codes "1_000"]] [1; 1000].
Proof.
  assert (W : Forall2 int_word [codes "1"; codes "1_000"] [1; 1000]) by (repeat (constructor; [apply int_of_word; vm_compute; reflexivity|]); constructor). split.
  { apply (G_more [codes "-x"] [GLegacy]); [exact x_spells|]. apply (G_times [] [] [codes "1"; codes "1_000"] [] []); [constructor|discriminate| |constructor]; repeat constructor; cbn; try lia; try discriminate. }
  split; [constructor; [exact I|]; constructor; [|constructor]; cbn [fine]; clear -W; induction W; constructor; [now exists y|assumption]|]. split; [intros [X|[X|[]]]; discriminate X|]. split; [reflexivity|].
  split; [repeat constructor; lia|]. exists [codes "1"; codes "1_000"]. split; [reflexivity|exact W].
Qed.
Lemma reading205 : reading [codes "-x"; codes "-"] [GLegacy].
Proof. split; [exact input131|]. split; [repeat constructor|]. split; [intros [X|[]]; discriminate X|]. split; reflexivity. Qed.
Lemma no_newline ls zs : Forall2 FpfindSpec.decimal ls zs -> Forall (Forall (fun c => c <> 10)) ls.
Proof.
  induction 1 as [|s z ls zs D _ IH]; constructor; [|exact IH]. destruct D as (ds & -> & _ & F & _). apply Forall_app. split; [destruct (z <? 0); repeat constructor; lia|].
  eapply Forall_impl; [|exact F]. intros c C. unfold FpfindSpec.digit in C. lia.
Qed.
Lemma numbers_unique a b o : numbers a o -> numbers b o -> a = b.
Proof.
  intros (l & A & ->) (m & B & E). assert (l = m) as <- by (rewrite <- (lines_back l (no_newline l a A)), E; apply lines_back; exact (no_newline m b B)).
  clear E. revert b B. induction A as [|s z l a D _ IH]; intros b B; inversion B; subst; [reflexivity|]. f_equal; [eapply FpfindProofs3.decimal_unique; eassumption|now apply IH].
Qed.
Lemma said_unique r c fs o c' fs' o' : said r c fs o -> said r c' fs' o' -> o = o'.
Proof. intros (e & A & _ & B & _) (e' & A' & _ & B' & _). congruence. Qed.
Lemma c205_refuted : ~ C205_statement.
Proof.
  intros H. destruct (H 54 tmpname _ _ none_fs [] _ tmpname _ _ none_fs true ltac:(lia) generating205 ltac:(split; [intros _; now left|reflexivity]) reading205 ltac:(split; [intros _; now left|reflexivity]) eq_refl) as (o & N & bytes & R1 & R2).
  destruct (c205_actual 54 tmpname _ _ none_fs [] _ tmpname _ _ none_fs ltac:(lia) generating205 reading205 ltac:(now left) eq_refl) as (o' & N' & bytes' & R1' & R2').
  pose proof (said_unique _ _ _ _ _ _ _ R1 R1') as <-. pose proof (said_unique _ _ _ _ _ _ _ R2 R2') as <-. pose proof (numbers_unique _ _ _ N N') as X. vm_compute in X. discriminate X.
Qed.
