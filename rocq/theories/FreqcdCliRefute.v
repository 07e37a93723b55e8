(** Counterexamples and concrete command lines. *)
From Coq Require Import String List.
From Verif Require Import Base FreqcdModel FreqcdSpec FreqcdProofs6 Float FreqcdCli FreqcdCliSpec FreqcdCliStatements FreqcdCliProofs FreqcdExamples.
Import ListNotations.
Local Open Scope string_scope.
Local Open Scope Z_scope.

Lemma denotes_of_strtol t v : strtol t = (true, v, []) -> LONG_MIN < v < LONG_MAX -> denotes t v.
Proof.
  intros E R. destruct (strtol_inv _ _ E) as (w & D & W). unfold clampl, LONG_MIN, LONG_MAX in *.
  replace v with w by lia. exact D.
Qed.
Lemma number t n : strtol t = (true, n, []) -> - 2 ^ 31 <= n < 2 ^ 31 -> good_number t n.
Proof. intros E R. split; [|assumption]. apply denotes_of_strtol; [assumption|]. unfold LONG_MIN, LONG_MAX. lia. Qed.

Lemma C14_refuted_lemma : ~ C14_statement.
Proof.
  intros H. assert (G : good_number (str "-2147483648") (- 2 ^ 31)) by (apply number; [vm_compute; reflexivity|lia]).
  destruct (H [] _ _ G) as [A _].
  destruct (c14_actual [] _ _ G) as [B _].
  pose proof (answers_fun _ _ _ A B) as E. discriminate E.
Qed.
Definition long_name : list Z := repeat 97 200.
Lemma C16_refuted_lemma : ~ C16_statement.
Proof.
  intros H. apply (H [str "freqcd"; str "-i"; long_name]). vm_compute. reflexivity.
Qed.

(** -xdf 12 -i a versus -i b -d -f12 -x -ia *)
Definition ss1 : list setting := [Legacy; Decimal; Corr (str "12"); InName (str "a")].
Definition ss2 : list setting := [InName (str "b"); Decimal; Corr (str "12"); Legacy; InName (str "a")].
Definition args1 : list (list Z) := [str "-xdf"; str "12"; str "-i"; str "a"].
Definition args2 : list (list Z) := [str "-i"; str "b"; str "-d"; str "-f12"; str "-x"; str "-ia"; str "--"; str "-h"].
Lemma writes1 : writes args1 ss1.
Proof.
  apply (W_detached [Legacy; Decimal] (Corr (str "12")) (str "12") [str "-i"; str "a"] [InName (str "a")]); [repeat constructor|reflexivity|].
  apply (W_detached [] (InName (str "a")) (str "a") [] []); [constructor|reflexivity|]. constructor. exact I.
Qed.
Lemma writes2 : writes args2 ss2.
Proof.
  apply (W_detached [] (InName (str "b")) (str "b") (skipn 2 args2) (skipn 1 ss2)); [constructor|reflexivity|].
  apply (W_flags [Decimal] (skipn 3 args2) (skipn 2 ss2)); [repeat constructor|discriminate|].
  apply (W_attached [] (Corr (str "12")) (str "12") (skipn 4 args2) (skipn 3 ss2)); [constructor|reflexivity|discriminate|].
  apply (W_flags [Legacy] (skipn 5 args2) (skipn 4 ss2)); [repeat constructor|discriminate|].
  apply (W_attached [] (InName (str "a")) (str "a") (skipn 6 args2) []); [constructor|reflexivity|discriminate|].
  constructor. right. exists []. reflexivity.
Qed.
Lemma good_12 : good_number (str "12") 12. Proof. apply number; [vm_compute; reflexivity|lia]. Qed.
Lemma good_short_name t : forallb (fun c => negb (is_space c) && negb (c =? 0)) t = true -> t <> [] -> len t <= 199 -> good_name t.
Proof.
  intros F N L. split; [assumption|]. split; [assumption|]. apply Forall_forall. intros c I.
  rewrite forallb_forall in F. specialize (F c I). apply andb_prop in F as [F1 F2]. split; [lia|].
  intros B. apply is_space_blank in B. rewrite B in F1. discriminate.
Qed.
Lemma good_a : good_name (str "a"). Proof. apply good_short_name; [reflexivity|discriminate|vm_compute; discriminate]. Qed.
Lemma good_b : good_name (str "b"). Proof. apply good_short_name; [reflexivity|discriminate|vm_compute; discriminate]. Qed.
Lemma good1 : Forall good ss1.
Proof. exact (Forall_cons Legacy I (Forall_cons Decimal I (Forall_cons (Corr _) (ex_intro _ 12 good_12) (Forall_cons (InName _) good_a (Forall_nil _))))). Qed.
Lemma good2 : Forall good ss2.
Proof. exact (Forall_cons (InName _) good_b (Forall_cons Decimal I (Forall_cons (Corr _) (ex_intro _ 12 good_12) (Forall_cons Legacy I (Forall_cons (InName _) good_a (Forall_nil _)))))). Qed.
Lemma short_str w : len w <= 199 -> short_runs w.
Proof. intros L a m b -> _. rewrite !len_app in L. pose proof (len_nonneg a). pose proof (len_nonneg b). lia. Qed.
