(** Proofs about the header readers. *)
From Coq Require Import String Lia.
From Coq Require Import ZifyBool.
From Verif Require Import Base TimestampsModel EpochsModel EpochsProofs EpochsProofs6 FpfindModel MiscModel ReportModel HeadModel HeadSpec.
Local Open Scope Z_scope.

(** ** Words *)
Lemma word_bound file i : bytes_ok file -> 0 <= word32 file i < 2 ^ 32.
Proof.
  intros B. assert (N : forall j, 0 <= nth j file 0 < 256).
  { intros j. destruct (le_lt_dec (length file) j) as [L|L]; [rewrite nth_overflow by assumption; lia|]. unfold bytes_ok in B. rewrite Forall_forall in B. exact (B _ (nth_In file 0 L)). }
  unfold word32. pose proof (N (Z.to_nat (4 * i + 0))). pose proof (N (Z.to_nat (4 * i + 1))). pose proof (N (Z.to_nat (4 * i + 2))). pose proof (N (Z.to_nat (4 * i + 3))). lia.
Qed.
Lemma signed_s32 v : 0 <= v < 2 ^ 32 -> s32 v = signed32 v.
Proof. intros V. unfold s32, signed32. destruct (Z.ltb_spec v (2 ^ 31)); lia. Qed.
Lemma le_word a b c d : le_dec [a; b; c; d] = a + 256 * b + 65536 * c + 16777216 * d.
Proof. unfold le_dec. lia. Qed.
Definition word_of (a b c d : Z) : Z := a + 256 * b + 65536 * c + 16777216 * d.
Lemma fields_words sg : forall file, 4 * len sg <= len file ->
  fields sg (take (4 * len sg) file) = map (fun i => if nth i sg false then s32 (word32 file (Z.of_nat i)) else word32 file (Z.of_nat i)) (seq 0 (length sg)).
Proof.
  induction sg as [|s sg IH]; intros file L; [reflexivity|]. rewrite len_cons in L.
  do 4 (destruct file as [|? file]; [change (len (@nil Z)) with 0 in L || rewrite ?len_cons in L; change (len (@nil Z)) with 0 in *; pose proof (len_nonneg sg); lia|]).
  rewrite !len_cons in L. assert (L' : 4 * len sg <= len file) by lia. pose proof (len_nonneg sg) as P.
  assert (TK : take (4 * len (s :: sg)) (z :: z0 :: z1 :: z2 :: file) = z :: z0 :: z1 :: z2 :: take (4 * len sg) file).
  { rewrite len_cons. rewrite !take_cons by lia. do 4 f_equal. f_equal. lia. }
  rewrite TK. cbn [fields length seq map nth]. change (take 4 (z :: z0 :: z1 :: z2 :: take (4 * len sg) file)) with [z; z0; z1; z2].
  change (drop 4 (z :: z0 :: z1 :: z2 :: take (4 * len sg) file)) with (take (4 * len sg) file). rewrite le_word.
  f_equal. rewrite (IH file L'), <- seq_shift, map_map. apply map_ext. intros i.
  assert (W : word32 (z :: z0 :: z1 :: z2 :: file) (Z.of_nat (S i)) = word32 file (Z.of_nat i)).
  { unfold word32. cbv zeta.
    assert (N : forall j, 0 <= j -> nth (Z.to_nat (4 * Z.of_nat (S i) + j)) (z :: z0 :: z1 :: z2 :: file) 0 = nth (Z.to_nat (4 * Z.of_nat i + j)) file 0).
    { intros j J. replace (Z.to_nat (4 * Z.of_nat (S i) + j)) with (S (S (S (S (Z.to_nat (4 * Z.of_nat i + j)))))) by lia. reflexivity. }
    now rewrite !N by lia. }
  now rewrite W.
Qed.
Lemma unpack_words sg n file : n = 4 * len sg ->
  unpack sg (take n file) = if len file <? n then Err StructError
    else Ok (map (fun i => if nth i sg false then s32 (word32 file (Z.of_nat i)) else word32 file (Z.of_nat i)) (seq 0 (length sg))).
Proof.
  intros ->. pose proof (len_nonneg sg). unfold unpack. rewrite len_take by lia. destruct (Z.ltb_spec (len file) (4 * len sg)).
  - replace (Z.min (4 * len sg) (len file) =? 4 * len sg) with false by lia. reflexivity.
  - replace (Z.min (4 * len sg) (len file) =? 4 * len sg) with true by lia. f_equal. now apply fields_words.
Qed.

(** ** Names *)
Lemma basename_part name : name = basename name \/ exists dir, name = dir ++ 47 :: basename name.
Proof.
  induction name as [|c r IH]; [now left|]. cbn [basename]. destruct (Z.eqb_spec c 47) as [->|].
  - right. destruct IH as [E|(dir & E)]; [exists []; cbn [app]; now rewrite <- E|]. exists (47 :: dir). cbn [app]. now rewrite <- E.
  - destruct (existsb (fun d => d =? 47) r) eqn:X; [|now left]. right. destruct IH as [E|(dir & E)].
    + exfalso. assert (Y : forall s, existsb (fun d => d =? 47) (basename s) = false).
      { clear. induction s as [|c r IH]; [reflexivity|]. cbn [basename]. destruct (c =? 47) eqn:E; [exact IH|].
        destruct (existsb (fun d => d =? 47) r) eqn:X; [exact IH|]. cbn [existsb]. now rewrite E, X. }
      specialize (Y r). rewrite <- E in Y. congruence.
    + exists (c :: dir). cbn [app]. now rewrite <- E.
Qed.
Lemma called_base name e : 0 <= e -> called name e <-> basename name = hexs e.
Proof.
  intros P. unfold called. rewrite int2epoch_hexs by assumption. split.
  - intros [->|(dir & ->)]; [apply basename_nil, hexs_no_slash|]. exact (basename_path dir (hexs e) (hexs_no_slash e)).
  - intros E. destruct (basename_part name) as [N|(dir & N)]; rewrite E in N; [now left|right; now exists dir].
Qed.
Lemma warnings_spec t1 t2 name h : 0 <= h_epoch h -> exists t n : bool,
  head_warnings t1 t2 name h = (if t then [WrongTag] else []) ++ (if n then [WrongName] else []) /\
  (t = true <-> ~ (h_tag h = t1 \/ h_tag h = t2)) /\ (n = true <-> ~ called name (h_epoch h)).
Proof.
  intros P. unfold head_warnings. exists (negb (h_tag h =? t1) && negb (h_tag h =? t2))%bool.
  unfold py_hex. replace (h_epoch h <? 0) with false by lia.
  destruct (list_eq_dec Z.eq_dec ([48; 120] ++ hexs (h_epoch h)) ([48; 120] ++ basename name)) as [E|E].
  - exists false. split; [reflexivity|]. split; [lia|]. split; [discriminate|]. intros X. exfalso. apply X. apply called_base; [assumption|]. now injection E.
  - exists true. split; [reflexivity|]. split; [lia|]. split; [|reflexivity]. intros _ X. apply E. apply called_base in X; [|assumption]. now rewrite X.
Qed.
Lemma c180 k name file : bytes_ok file ->
  (len file < 4 * size k -> read_header k name file = Err StructError) /\
  (4 * size k <= len file -> exists h (t n : bool), fields_of k h = expected_fields k file /\
     read_header k name file = Ok (h, (if t then [WrongTag] else []) ++ (if n then [WrongName] else [])) /\
     (t = true <-> ~ accepted k (h_tag h)) /\ (n = true <-> ~ called name (h_epoch h))).
Proof.
  intros B. pose proof (fun i => signed_s32 _ (word_bound file i B)) as S. pose proof (word_bound file 1 B) as W1.
  destruct k; cbn [size read_header]; unfold read_T1_header, read_T2_header, read_T3_header, read_T4_header; (rewrite unpack_words by reflexivity);
  (split; [intros L; match goal with |- context [if ?x <? ?y then _ else _] => replace (x <? y) with true by lia end; reflexivity|]);
  (intros L; match goal with |- context [if ?x <? ?y then _ else _] => replace (x <? y) with false by lia end);
  cbn [bind length seq map nth]; unfold head_of; cbn [nth];
  match goal with |- context [head_warnings ?a ?b ?c ?h] => destruct (warnings_spec a b c h) as (t & n & E & T & N); [cbn [h_epoch]; exact (proj1 W1)|] end;
  eexists _, t, n; rewrite E; (split; [|split; [reflexivity|split; [exact T|exact N]]]);
  unfold expected_fields, fields_of, size, field; cbn [h_tag h_epoch h_length h_timeorder h_basebits h_protocol];
  match goal with |- context [seq 0 ?x] => let y := eval vm_compute in x in change x with y end; cbn [seq map Z.of_nat]; rewrite <- ?S; reflexivity.
Qed.
Lemma c181 k name file h ws : k <> T1 -> read_header k name file = Ok (h, ws) ->
  exists ts, header_messages k name file = Ok ts /\ length ts = length ws /\ (In WrongTag ws -> exists t, In t ts /\ names_type k name t).
Proof.
  intros K R. unfold header_messages. rewrite R. cbn [bind]. eexists. split; [reflexivity|]. split; [apply map_length|].
  intros I. eexists. split; [apply in_map; exact I|]. destruct k; [congruence|reflexivity..].
Qed.
Definition wrong181 : list Z := le_enc 4 9 ++ repeat 0 16.
Lemma c181_refuted : ~ C181_statement.
Proof.
  intros C. destruct (C T1 [48] wrong181 _ _ eq_refl (or_introl eq_refl)) as (ts & t & H & I & N). vm_compute in H. injection H as <-.
  destruct I as [<-|[]]. vm_compute in N. discriminate N.
Qed.
