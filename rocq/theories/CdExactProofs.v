(** Proof of C184. *)
From Coq Require Import List.
From Verif Require Import Base FreqcdModel FreqcdSpec FreqcdProofs FreqcdProofs2 FreqcdProofs3 FreqcdProofs4 FreqcdCliSpec CdRunModel CdRunSpec CdRunStatements CdRunProofs CdRunProofs2 CdRunProofs3 CdExactSpec.
Import ListNotations.
Local Open Scope Z_scope.

Section Ex.
Variable f : Z.
Variable ts : list Z.
Hypothesis ND : nondecr ts.
Hypothesis RG : Forall (fun t => 0 <= t < 2 ^ 54) ts.
Definition Rel (k t t' : Z) : Prop := t' = t + portion f (t - base ts (Z.to_nat k)) + gained f ts (Z.to_nat k).

Lemma in_range i : (i < length ts)%nat -> 0 <= nth i ts 0 < 2 ^ 54.
Proof. intros I. apply (proj1 (Forall_forall _ _) RG). now apply nth_In. Qed.
Lemma nondecr_nth l : nondecr l -> forall i j, (i <= j < length l)%nat -> nth i l 0 <= nth j l 0.
Proof.
  induction l as [|x l IH]; intros N i j H; [cbn in H; lia|]. destruct i as [|i], j as [|j]; cbn [nth]; try lia.
  - apply (nondecr_ge l x); [exact N|]. apply nth_In. cbn in H. lia.
  - apply IH; [now apply nondecr_tl in N|cbn in H; lia].
Qed.
Lemma nth_pre pre b r i : (i < length b)%nat -> nth (length pre + i) (pre ++ b ++ r) 0 = nth i b 0.
Proof. intros I. rewrite app_nth2 by lia. rewrite app_nth1 by lia. f_equal. lia. Qed.
Lemma last_nth (b : list Z) d : b <> [] -> List.last b d = nth (length b - 1) b 0.
Proof.
  induction b as [|x [|y b] IH]; intros NE; [congruence|reflexivity|]. change (List.last (x :: y :: b) d) with (List.last (y :: b) d). rewrite IH by congruence.
  replace (length (x :: y :: b) - 1)%nat with (S (length b)) by (cbn [length]; lia). change (nth (S (length b)) (x :: y :: b) 0) with (nth (length b) (y :: b) 0). f_equal. cbn [length]. lia.
Qed.
Lemma elapsed_from r t : 0 <= r <= t -> t < 2 ^ 54 -> elapsed r t = t - r.
Proof. intros. apply elapsed_small; lia. Qed.

Lemma blockwise : forall tss pre k l, ts = pre ++ concat tss -> length pre = (1024 * k)%nat -> sized 1024 tss -> Forall (fun b => b <> []) tss ->
  forall j, Forall2 (Rel (Z.of_nat k + Z.of_nat j)) (nth j tss []) (nth j (corrected (mkClock (Some (base ts k)) (gained f ts k) l) (repeat f (length tss)) tss) []).
Proof.
  induction tss as [|b tss IH]; intros pre k l E LP SZ NE j; [destruct j; constructor|].
  inv NE. destruct SZ as [SB SZ]. cbn [concat] in E. cbn [length repeat corrected].
  assert (LB : (0 < length b <= 1024)%nat) by (destruct b; [congruence|unfold len in SB; cbn [length] in *; lia]).
  assert (LT : length ts = (length pre + length b + length (concat tss))%nat) by (rewrite E, !app_length; lia).
  assert (AT : forall i, (i < length b)%nat -> nth i b 0 = nth (1024 * k + i) ts 0).
  { intros i I. rewrite E, <- LP. now rewrite nth_pre. }
  assert (BB : forall i, (i < length b)%nat -> 0 <= base ts k <= nth i b 0 /\ nth i b 0 < 2 ^ 54).
  { intros i I. rewrite (AT i I). assert (R : (1024 * k + i < length ts)%nat) by lia. pose proof (in_range _ R). unfold base, at_.
    destruct k as [|k].
    - change (Z.to_nat 0) with 0%nat. assert (R0 : (0 < length ts)%nat) by lia. pose proof (in_range _ R0). pose proof (nondecr_nth ts ND 0 (1024 * 0 + i)). lia.
    - assert (Q : (Z.to_nat (1024 * Z.of_nat (S k) - 1) <= 1024 * S k + i)%nat) by lia. pose proof (nondecr_nth ts ND _ _ (conj Q R)).
      assert (R1 : (Z.to_nat (1024 * Z.of_nat (S k) - 1) < length ts)%nat) by lia. pose proof (in_range _ R1). lia. }
  destruct j as [|j].
  - cbn [nth]. change (Z.of_nat 0) with 0. rewrite Z.add_0_r. destruct b as [|t0 b]; [congruence|]. unfold batch_times. cbn [ref_of c_ref c_acc].
    assert (FB : Forall (fun t => 0 <= base ts k <= t /\ t < 2 ^ 54) (t0 :: b)).
    { apply Forall_forall. intros x I. destruct (In_nth _ _ 0 I) as (i & L1 & <-). now apply BB. }
    clear - FB. revert FB. generalize (t0 :: b) as c. induction c as [|x c IHc]; intros FB; cbn [map]; constructor; inv FB; [|now apply IHc].
    unfold Rel, portion. rewrite Nat2Z.id. rewrite elapsed_from by lia. reflexivity.
  - cbn [nth]. destruct SB as [SB|[SB ->]]; [|destruct j; constructor].
    assert (L2 : length b = 1024%nat) by (unfold len in SB; lia).
    destruct b as [|t0 b]; [congruence|]. unfold batch_clock. cbn [ref_of c_ref c_acc]. cbv zeta. rewrite last_nth by congruence. rewrite L2.
    assert (EB : nth (1024 - 1) (t0 :: b) 0 = base ts (S k)).
    { rewrite AT by (rewrite L2; lia). unfold base, at_. f_equal. lia. }
    destruct (BB (1024 - 1)%nat) as [B1 B2]; [rewrite L2; lia|]. rewrite EB in *. rewrite elapsed_from by lia.
    change (shift f (base ts (S k) - base ts k)) with (portion f (base ts (S k) - base ts k)).
    change (gained f ts k + portion f (base ts (S k) - base ts k)) with (gained f ts (S k)).
    replace (Z.of_nat k + Z.of_nat (S j)) with (Z.of_nat (S k) + Z.of_nat j) by lia.
    apply (IH (pre ++ t0 :: b)); [rewrite E, <- app_assoc; reflexivity|rewrite app_length, L2, LP; lia|exact SZ|assumption].
Qed.
Lemma exact_all tss : ts = concat tss -> sized 1024 tss -> Forall (fun b => b <> []) tss ->
  forall i, (i < length ts)%nat -> nth_error (concat (corrected start (repeat f (length tss)) tss)) i = Some (exact_time f ts i).
Proof.
  intros E SZ NE i I. destruct tss as [|[|t0 b] tss]; [rewrite E in I; cbn in I; lia|inv NE; congruence|].
  set (all := (t0 :: b) :: tss) in *.
  assert (K : corrected start (repeat f (length all)) all = corrected (mkClock (Some (base ts 0)) (gained f ts 0) 0) (repeat f (length all)) all).
  { unfold base, at_. rewrite E. reflexivity. }
  rewrite K. clear K. set (co := corrected _ _ _).
  assert (F : forall j, Forall2 (Rel (Z.of_nat 0 + Z.of_nat j)) (nth j all []) (nth j co [])) by (intros j; apply (blockwise all [] 0 0 E eq_refl SZ NE)).
  assert (LC : length co = length all).
  { unfold co. pose proof (corrected_lengths (repeat f (length all)) all (mkClock (Some (base ts 0)) (gained f ts 0) 0)) as CL. rewrite repeat_length in CL. specialize (CL eq_refl). now apply Forall2_length' in CL. }
  assert (LL : length (concat co) = length ts).
  { unfold co. rewrite times_length by apply repeat_length. now rewrite E. }
  destruct (nth_error (concat co) i) as [t'|] eqn:EN; [|apply nth_error_None in EN; lia].
  assert (ET : nth_error (concat all) i = Some (nth i ts 0)) by (rewrite <- E; now apply nth_error_nth').
  pose proof (by_index 1024 Rel ltac:(lia) all co 0 SZ LC F i _ _ ET EN) as H. unfold Rel in H. rewrite Z.add_0_l in H. rewrite H. unfold exact_time, at_. now rewrite Nat2Z.id.
Qed.
End Ex.

Lemma c184 junk ib ob fb prog args ss f fs stdin X : alloc_ok ib ob fb -> asks args ss f -> input_of fs stdin ss = Some X -> event_file (legacy_of ss) X -> last_of freq_of ss = None ->
  separate (last_of in_of ss) (last_of out_of ss) ->
  let ts := map (ev_time (legacy_of ss)) (groups X) in
  exists e, freqcd_main true junk ib ob fb (prog :: args) fs stdin = Some (Ok e) /\ code e = 0 /\
    retimed_file fs (files e) (stdout e) ss X (map (exact_time f ts) (seq 0 (length ts))).
Proof.
  intros A K IN EV NF S1 ts. destruct (on_file_exact junk ib ob fb prog args ss f fs stdin X [] A K IN EV) as (e & bs & g & ME & CE & BL & AL & SF & _ & C & TR & NE & RF);
    [now rewrite NF|exact (Forall_nil _)|rewrite len_nil; lia|exact (Forall_nil _)|exact S1|left; exact NF|].
  change (lines []) with (@nil (list Z)) in AL. assert (EG : g = f) by (inversion AL; congruence). clear AL. subst g. exists e. split; [exact ME|]. split; [exact CE|].
  assert (EQ : concat (corrected start (f :: repeat f (length (map (map (ev_time (legacy_of ss))) (map groups bs)))) (map (map (ev_time (legacy_of ss))) (map groups bs))) = map (exact_time f ts) (seq 0 (length ts)));
    [|rewrite <- EQ; exact RF].
  destruct EV as (_ & _ & ND). fold ts in ND, C. pose proof (blocks_sized (legacy_of ss) _ _ BL) as SZ. set (tss := map (map (ev_time (legacy_of ss))) (map groups bs)) in *.
  rewrite C in TR. pose proof (exact_all f ts ND TR tss (eq_sym C) SZ NE) as EA.
  assert (TRIM : corrected start (f :: repeat f (length tss)) tss = corrected start (repeat f (length tss)) tss).
  { rewrite repeat_trim. destruct tss; reflexivity. }
  rewrite TRIM. apply nth_ext with (d := 0) (d' := exact_time f ts 0).
  - rewrite map_length, seq_length, times_length by apply repeat_length. now rewrite C.
  - intros n N. rewrite times_length in N by apply repeat_length. rewrite C in N. rewrite map_nth, seq_nth by assumption.
    apply nth_error_nth. apply EA. exact N.
Qed.
