(** Proof of C189. *)
From Verif Require Import Base TimestampsModel WidthSpec.
Import ListNotations.
Local Open Scope Z_scope.

Lemma mapM_len {A B} (h : A -> pyres B) : forall l r, mapM h l = Ok r -> length r = length l.
Proof.
  induction l as [|x l IH]; intros r H; cbn [mapM] in H; [now inv H|]. destruct (h x); [|discriminate]. cbn [bind] in H. destruct (mapM h l) eqn:E; [|discriminate]. cbn [bind] in H. inv H. cbn [length]. f_equal. now apply IH.
Qed.
Lemma broadcast_misfit n pats : len pats <> n -> len pats <> 1 -> broadcast n pats = Err ValueError.
Proof. intros N O. unfold broadcast. destruct (Z.eqb_spec (len pats) n); [congruence|]. destruct pats as [|v [|w r]]; [reflexivity|now destruct O|reflexivity]. Qed.
Lemma broadcast_one n v : broadcast (Z.of_nat n) [v] = Ok (repeat v n).
Proof.
  unfold broadcast. destruct (Z.eqb_spec (len [v]) (Z.of_nat n)) as [E|]; [|now rewrite Nat2Z.id]. unfold len in E. cbn [length] in E. assert (n = 1%nat) as -> by lia. reflexivity.
Qed.
Lemma broadcast_all v n : broadcast (Z.of_nat n) (repeat v n) = Ok (repeat v n).
Proof. unfold broadcast, len. now rewrite repeat_length, Z.eqb_refl. Qed.
Lemma c189 p f t pats r : misfit t pats -> (forall file, write p f t pats r <> Ok file) /\ (forall n, writable p f t r n -> write p f t pats r = Err ValueError).
Proof.
  intros [N O]. unfold writable, write, consolidate. destruct (mapM _ (tvalues t)) as [ts|e] eqn:M; cbn [bind].
  - apply mapM_len in M. rewrite (broadcast_misfit (len ts) pats) by (unfold len; lia). cbn [bind]. split; [discriminate|reflexivity].
  - split; [discriminate|]. intros n (ps & file & _ & H). discriminate H.
Qed.
Lemma c189_one p f t v r : write p f t [v] r = write p f t (repeat v (length (tvalues t))) r.
Proof.
  unfold write, consolidate. destruct (mapM _ (tvalues t)) as [ts|e] eqn:M; cbn [bind]; [|reflexivity]. apply mapM_len in M. rewrite <- M. unfold len at 1 2. now rewrite broadcast_one, broadcast_all.
Qed.
