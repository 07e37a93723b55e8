(** Counterexamples to the full timestamp statements. *)
From Coq Require Import QArith Lqa ZifyBool Sorted.
From Verif Require Import Float Base TimestampsModel TimestampsSpec TimestampsStatements TimestampsProofs TimestampsProofs2 TimestampsProofs3 TimestampsProofs4 TimestampsProofs5 TimestampsProofs6 TimestampsProofs7.
Local Open Scope Z_scope.

Definition ev1 : list event := [(5, 1)].
Lemma ev1_ok : Forall event_ok ev1.
Proof. constructor; [|constructor]. split; cbn [fst snd]; lia. Qed.
Lemma same_refl l : same_values l l.
Proof. unfold same_values. induction l; constructor; auto. reflexivity. Qed.
Lemma c20_refuted : ~ C20_statement.
Proof.
  intros H. destruct (H 64 PS4 (TLD (times_in PS4 ev1)) ev1 ltac:(lia) ev1_ok (same_refl _)) as (file & W & (T' & R & _) & _).
  destruct (c20 64 PS4 (TLD (times_in PS4 ev1)) ev1 ltac:(lia) ev1_ok (same_refl _)) as [_ N].
  destruct N as (file' & W' & R'). { cbn. lia. }
  rewrite W in W'. injection W' as <-. cbn [read] in R. rewrite R' in R. discriminate R.
Qed.
Definition ev2 : list event := [(2 ^ 53 + 1, 1)].
Lemma ev2_ok : Forall event_ok ev2.
Proof. constructor; [|constructor]. split; cbn [fst snd]; lia. Qed.
Lemma Forall2_hd {A B} (R : A -> B -> Prop) x y l m : Forall2 R (x :: l) (y :: m) -> R x y.
Proof. intros H. now inversion H. Qed.
Lemma c21_refuted : ~ C21_statement.
Proof.
  intros H. destruct (H 64 PS4 (TLD (times_in PS4 ev2)) ev2 ltac:(lia) ev2_ok (same_refl _)) as (file & W & _ & (T' & R & S)).
  destruct (c21 64 PS4 (TLD (times_in PS4 ev2)) ev2 ltac:(lia) ev2_ok (same_refl _)) as (_ & N & _).
  destruct N as (file' & W' & R'). { discriminate. }
  rewrite W in W'. injection W' as <-. cbn [read] in R. rewrite R' in R. injection R as <-. cbn [tvalues] in S. unfold same_values in S.
  cbn [ev2 map fst times_in] in S. assert (S' := Forall2_hd _ _ _ _ _ S). clear S. rename S' into S. apply Qeq_bool_iff in S. vm_compute in S. discriminate S.
Qed.
Lemma c23_refuted : ~ C23_statement.
Proof.
  intros H. destruct (H 64 A2 PS4 false 1 [5] ltac:(constructor; [unfold word_ok; lia|constructor]) ltac:(lia)) as (s & T & P & E & _).
  vm_compute in E. discriminate E.
Qed.
(** a time and a bound one unit below it, equal as float64 *)
Definition late : tarr := TU64 [2 ^ 53 + 1].
Definition bound_s : Q := 4835703278458517 # 137438953472.
Lemma c27_refuted : ~ C27_statement.
Proof.
  intros H. specialize (H late None (Some bound_s) PS4). 
  assert (S : sortedQ (tvalues late)) by (repeat constructor). specialize (H S). vm_compute in H. discriminate H.
Qed.
Definition no_filter : filters := mkF None false false None None.
Lemma single_piece cs (v : Z) b : concat cs = [v] -> Forall (fun c : list Z => 0 < len c <= b) cs -> cs = [[v]].
Proof.
  intros C F. destruct cs as [|c cs]; [discriminate|]. inversion F as [|? ? F1 F2]; subst. destruct c as [|x c]; [cbn in F1; unfold len in F1; cbn in F1; lia|].
  cbn in C. injection C as -> C. apply app_eq_nil in C as [-> C]. destruct cs as [|d cs]; [reflexivity|].
  inversion F2 as [|? ? F3 F4]; subst. cbn in C. apply app_eq_nil in C as [-> _]. unfold len in F3. cbn in F3. lia.
Qed.
(** streaming an a0 file holding the time 2^54-1: the time becomes 0 *)
Definition last_word : Z := 2 ^ 64 - 1023.
Lemma a0_wraps fout : convert 64 false A0 fout no_filter (encode A0 [last_word]) = (encode fout [1], None).
Proof.
  unfold convert. destruct (sread_good 64 A0 PS4 false DEFAULT_BUFFER [last_word]) as (cs & E & C & F & _);
    [constructor; [unfold word_ok, last_word; lia|constructor]|reflexivity|exact I|].
  apply (single_piece _ _ DEFAULT_BUFFER) in C; [|exact F]. subst cs. rewrite E. destruct fout as [|[]|]; vm_compute; reflexivity.
Qed.
Lemma c29_refuted : ~ C29_statement.
Proof.
  intros H. specialize (H 64 false A0 (A1 false) no_filter [last_word] ltac:(lia)).
  rewrite a0_wraps in H. assert (W : Forall word_ok [last_word]) by (constructor; [unfold word_ok, last_word; lia|constructor]).
  specialize (H W). assert (S : in_order [last_word]) by (repeat constructor). specialize (H S I). vm_compute in H. discriminate H.
Qed.
Lemma c30_refuted : ~ C30_statement.
Proof. intros H. destruct (H 64 [1] false PS4 false 1 ltac:(lia) ltac:(discriminate)) as [E _]. vm_compute in E. discriminate E. Qed.
