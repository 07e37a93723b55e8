(** Proof of C194. *)
From Coq Require Import QArith Qabs Lqa.
From Coq Require Import ZifyBool.
From Verif Require Import Float Base TimestampsModel UtilsModel UtilsSpec UtilsProofs UtilsProofs2.
Import ListNotations.
Local Open Scope Z_scope.

Lemma getitem_over {A} (l : list A) i : len l <= i -> getitem l i = Err IndexError.
Proof.
  intros H. unfold getitem. assert (0 <= len l) by (unfold len; lia). replace (i <? 0) with false by lia. replace (i <? 0) with false by lia.
  rewrite (proj2 (nth_error_None l (Z.to_nat i))); [reflexivity|]. unfold len in H. lia.
Qed.
Lemma inject_abs z : (inject_Z (Z.abs z) == Qabs (inject_Z z))%Q.
Proof. unfold Qabs, inject_Z. reflexivity. Qed.
Lemma c194 xs res p : (0 < res)%Q -> even_axis res xs ->
  (p < 0 -> get_delay_at_index_fft xs p = Err AssertionError) /\ (len xs <= p -> get_delay_at_index_fft xs p = Err IndexError) /\
  (p = 0 -> 0 < len xs -> exists a b, get_delay_at_index_fft xs p = Ok (a, b) /\ (a == 0)%Q /\ (b == 0)%Q) /\
  (0 < p < len xs -> exists a b, get_delay_at_index_fft xs p = Ok (a, b) /\ (Qabs a <= Qabs b)%Q /\
     ((a == inject_Z p * res /\ b == inject_Z (p - len xs) * res)%Q \/ (a == inject_Z (p - len xs) * res /\ b == inject_Z p * res)%Q)).
Proof.
  intros R E. assert (L0 : 0 <= len xs) by (unfold len; lia). split; [|split; [|split]].
  - intros N. unfold get_delay_at_index_fft. now replace (p <? 0) with true by lia.
  - intros N. unfold get_delay_at_index_fft, delay_at. replace (p <? 0) with false by lia. now rewrite getitem_over.
  - intros -> N. destruct (delay_value (len xs) xs res 0 ltac:(lia) eq_refl E) as (a & b & D & D0 & _). exists a, b. unfold get_delay_at_index_fft. change (0 <? 0) with false. split; [exact D|]. exact (D0 eq_refl).
  - intros P. destruct (delay_value (len xs) xs res p ltac:(lia) eq_refl E) as (a & b & D & _ & D1 & D2). exists a, b. unfold get_delay_at_index_fft. replace (p <? 0) with false by lia. split; [exact D|].
    assert (AB : forall z, (Qabs (inject_Z z * res) == inject_Z (Z.abs z) * res)%Q).
    { intros z. rewrite Qabs_Qmult, (Qabs_pos res) by lra. rewrite inject_abs. reflexivity. }
    assert (LE : forall x y, x <= y -> (inject_Z x * res <= inject_Z y * res)%Q) by (intros x y H; apply Qmult_le_compat_r; [now rewrite <- Zle_Qle|lra]).
    destruct (Z.lt_ge_cases (2 * p) (len xs)) as [C|C].
    + destruct (D1 ltac:(lia) C) as [A B]. split; [rewrite A, B, !AB; apply LE; lia|left; now split].
    + destruct (D2 ltac:(lia) C) as [A B]. split; [rewrite A, B, !AB; apply LE; lia|right; now split].
Qed.
Lemma c194_top part order hist xs k : (k < 1 -> get_top_k_delays_fft part order hist xs k = Err AssertionError) /\ (1 < k -> len hist < k -> get_top_k_delays_fft part order hist xs k = Err ValueError).
Proof.
  unfold get_top_k_delays_fft. split; intros; [now replace (k <? 1) with true by lia|]. replace (k <? 1) with false by lia. replace (k =? 1) with false by lia. now replace (len hist <? k) with true by lia.
Qed.
