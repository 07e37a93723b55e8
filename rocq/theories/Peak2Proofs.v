(** Proofs about significance2 and g2. *)
From Coq Require Import QArith Qabs Qround Lqa.
From Coq Require Import ZifyBool.
From Verif Require Import Float Base TimestampsModel UtilsModel UtilsSpec UtilsProofs UtilsProofs2 UtilsProofs3 Peak2Model Peak2Spec.
Local Open Scope Z_scope.

(** ** Means and variances of lists with equal values *)
Lemma sum_same l l' : Forall2 Qeq l l' -> (fold_right Qplus 0 l == fold_right Qplus 0 l')%Q.
Proof. induction 1 as [|x y l l' E F IH]; cbn [fold_right]; [reflexivity|]. now rewrite E, IH. Qed.
Lemma len_same l l' : Forall2 Qeq l l' -> len l = len l'.
Proof. intros F. unfold len. f_equal. induction F; cbn [length]; congruence. Qed.
Lemma mean_same l l' m m' : Forall2 Qeq l l' -> (m == m')%Q -> is_mean l m -> is_mean l' m'.
Proof. intros F E. unfold is_mean. now rewrite (sum_same _ _ F), (len_same _ _ F), E. Qed.
Lemma squares_same l l' m : Forall2 Qeq l l' -> Forall2 Qeq (map (fun x => (x - m) * (x - m))%Q l) (map (fun x => (x - m) * (x - m))%Q l').
Proof. induction 1 as [|x y l l' E F IH]; cbn [map]; constructor; [now rewrite E|assumption]. Qed.
Lemma variance_same l l' v : Forall2 Qeq l l' -> is_variance l v -> is_variance l' v.
Proof.
  intros F (m & M & V). exists m. split; [exact (mean_same _ _ _ _ F (Qeq_refl m) M)|].
  exact (mean_same _ _ _ _ (squares_same _ _ m F) (Qeq_refl v) V).
Qed.
Lemma variance_unique l v v' : l <> [] -> is_variance l v -> is_variance l v' -> (v == v')%Q.
Proof.
  intros N (m & M & V) (m' & M' & V'). assert (E : (m == m')%Q) by exact (mean_unique l m m' N M M').
  assert (NM : map (fun x => (x - m) * (x - m))%Q l <> []) by (destruct l; cbn; congruence).
  apply (mean_unique _ _ _ NM); [assumption|]. revert V'. apply mean_same; [|reflexivity].
  clear - E. induction l as [|x l IH]; cbn [map]; constructor; [now rewrite E|assumption].
Qed.
Lemma constant_same l l' : Forall2 Qeq l l' -> constant l -> constant l'.
Proof.
  intros F C x y X Y.
  assert (G : forall z, In z l' -> exists w, In w l /\ (w == z)%Q).
  { clear - F. induction F as [|a b l l' E F IH]; intros z []; [subst; exists a; split; [now left|assumption]|].
    destruct (IH z H) as (w & I & W). exists w. split; [now right|assumption]. }
  destruct (G x X) as (a & A & <-). destruct (G y Y) as (b & B & <-). now apply C.
Qed.
Lemma Forall2_sym l l' : Forall2 Qeq l l' -> Forall2 Qeq l' l.
Proof. induction 1; constructor; [now symmetry|assumption]. Qed.
Lemma same_nth : forall (l l' : list Q), length l = length l' -> (forall i, (i < length l)%nat -> (nth i l 0 == nth i l' 0)%Q) -> Forall2 Qeq l l'.
Proof.
  induction l as [|x l IH]; intros [|y l'] L H; cbn [length] in *; try discriminate; constructor.
  - exact (H 0%nat ltac:(lia)).
  - apply IH; [lia|]. intros i I. exact (H (S i) ltac:(lia)).
Qed.

(** ** The groups *)
Lemma skipn_skipn {A} (l : list A) : forall a b, skipn a (skipn b l) = skipn (b + a) l.
Proof. intros a b. revert l. induction b as [|b IH]; intros l; [reflexivity|]. destruct l as [|x l]; [now rewrite !skipn_nil|]. apply IH. Qed.
Lemma groups_spec n : (0 < n)%nat -> forall q fuel (l : list Q), length l = (q * n)%nat -> (length l <= fuel)%nat ->
  length (groups fuel (Z.of_nat n) l) = q /\
  forall i, (i < q)%nat -> nth i (groups fuel (Z.of_nat n) l) [] = firstn n (skipn (i * n) l).
Proof.
  intros N. induction q as [|q IH]; intros fuel l L F.
  - destruct l; [|discriminate]. destruct fuel; cbn; (split; [reflexivity|lia]).
  - destruct fuel as [|fuel]; [cbn in L; lia|]. destruct l as [|x l]; [cbn in L; lia|].
    change (groups (S fuel) (Z.of_nat n) (x :: l)) with (take (Z.of_nat n) (x :: l) :: groups fuel (Z.of_nat n) (drop (Z.of_nat n) (x :: l))).
    set (l0 := x :: l) in *. unfold take, drop. rewrite Nat2Z.id.
    destruct (IH fuel (skipn n l0)) as [A B]; [rewrite skipn_length, L; cbn [Nat.mul]; lia|rewrite skipn_length, L; cbn [Nat.mul]; rewrite L in F; cbn [Nat.mul] in F; lia|].
    split; [cbn [length]; now rewrite A|]. intros [|i] I; [reflexivity|]. cbn [nth]. rewrite B by lia. rewrite skipn_skipn. f_equal.
Qed.
Lemma window_nth (l : list Q) k n : (k + n <= length l)%nat -> firstn n (skipn k l) = map (fun j => nth (k + j) l 0%Q) (seq 0 n).
Proof.
  revert k. induction n as [|n IH]; intros k L; [reflexivity|].
  destruct (skipn k l) as [|x t] eqn:E. { assert (X := skipn_length k l). rewrite E in X. cbn in X. lia. }
  assert (X : nth k l 0%Q = x). { rewrite <- (Nat.add_0_r k), <- nth_skipn', E. reflexivity. }
  assert (T : t = skipn (S k) l). { rewrite <- (Nat.add_1_r k), <- skipn_skipn, E. reflexivity. }
  cbn [firstn seq map]. rewrite Nat.add_0_r, X. f_equal. rewrite T, IH by lia. rewrite <- seq_shift, map_map. apply map_ext. intros j. f_equal. lia.
Qed.
Definition rebinned (n : Z) (bg : list Q) : list Q := map qsum (groups (length bg) n (slice bg 0 (len bg / n * n))).
Lemma rebinned_sums n bg : 0 < n -> group_sums n bg (rebinned n bg).
Proof.
  intros N. assert (B := len_nonneg bg). set (q := len bg / n). assert (Q0 : 0 <= q) by (subst q; apply Z.div_pos; lia).
  assert (QL : q * n <= len bg) by (subst q; pose proof (Z.mul_div_le (len bg) n N); lia).
  unfold rebinned. fold q. rewrite slice_0 by nia.
  assert (LB : Z.of_nat (length bg) = len bg) by reflexivity.
  destruct (groups_spec (Z.to_nat n) ltac:(lia) (Z.to_nat q) (length bg) (firstn (Z.to_nat (q * n)) bg)) as [A G].
  { rewrite firstn_length_le by lia. rewrite Z2Nat.inj_mul by lia. reflexivity. }
  { rewrite firstn_length. lia. }
  rewrite Z2Nat.id in A, G by lia.
  assert (R : len (map qsum (groups (length bg) n (firstn (Z.to_nat (q * n)) bg))) = q) by (unfold len; rewrite map_length, A; lia).
  split; [exact R|]. rewrite R. intros i I. change 0%Q with (qsum []) at 1. rewrite map_nth, G by lia.
  rewrite window_nth.
  2:{ rewrite firstn_length_le by lia. rewrite <- Z2Nat.inj_mul, <- Z2Nat.inj_add by nia. apply Z2Nat.inj_le; nia. }
  unfold qsum. apply sum_same.
  assert (W : forall j, (j < Z.to_nat n)%nat -> nth (Z.to_nat i * Z.to_nat n + j) (firstn (Z.to_nat (q * n)) bg) 0%Q = nth (Z.to_nat (i * n) + j) bg 0%Q).
  { intros j J. rewrite <- Z2Nat.inj_mul by lia. rewrite nth_firstn'; [reflexivity|]. assert (i * n + n <= q * n) by nia. rewrite <- (Nat2Z.id j), <- Z2Nat.inj_add by nia.
    apply Z2Nat.inj_lt; nia. }
  rewrite (map_ext_in _ (fun j => nth (Z.to_nat (i * n) + j) bg 0%Q)).
  - generalize (map (fun j => nth (Z.to_nat (i * n) + j) bg 0%Q) (seq 0 (Z.to_nat n))). intros l. induction l; constructor; [reflexivity|assumption].
  - intros j J. apply in_seq in J. apply W. lia.
Qed.
Lemma group_sums_same n bg r r' : group_sums n bg r -> group_sums n bg r' -> Forall2 Qeq r r'.
Proof.
  intros [L H] [L' H']. apply same_nth; [unfold len in *; lia|]. intros i I. assert (J : 0 <= Z.of_nat i < len r) by (unfold len; lia).
  specialize (H _ J). specialize (H' (Z.of_nat i) ltac:(lia)). rewrite Nat2Z.id in H, H'. now rewrite H, H'.
Qed.
Lemma constant_sums n bg r : 0 < n -> group_sums n bg r -> constant bg -> constant r.
Proof.
  intros N [L H] C. assert (V : exists c, forall i, 0 <= i < len r -> (nth (Z.to_nat i) r 0 == c)%Q).
  { destruct bg as [|b bg0] eqn:E.
    { exists 0%Q. intros i I. exfalso. rewrite L in I. change (len (@nil Q)) with 0 in I. rewrite Z.div_0_l in I by lia. lia. }
    rewrite <- E in *. exists (inject_Z n * b)%Q. intros i I. rewrite H by assumption.
    assert (QL : (i + 1) * n <= len bg) by (pose proof (Z.mul_div_le (len bg) n N); nia).
    assert (X := qsum_const (map (fun j => nth (Z.to_nat (i * n) + j) bg 0%Q) (seq 0 (Z.to_nat n))) b). unfold qsum in X. rewrite X.
    - unfold len. rewrite map_length, seq_length, Z2Nat.id by lia. reflexivity.
    - intros x IX. apply in_map_iff in IX as (j & <- & J). apply in_seq in J. apply C; [|rewrite E; now left]. apply nth_In.
      unfold len in QL. nia. }
  destruct V as (c & V). intros x y X Y.
  assert (G : forall z, In z r -> (z == c)%Q).
  { intros z Z. destruct (In_nth _ _ 0%Q Z) as (k & K & <-). rewrite <- (V (Z.of_nat k)); [now rewrite Nat2Z.id|unfold len; lia]. }
  rewrite (G x X), (G y Y). reflexivity.
Qed.

(** ** significance2 *)
Lemma const_var l : l <> [] -> Qeq_bool (qvar l) 0 = true <-> constant l.
Proof. intros N. rewrite Qeq_bool_iff. apply qvar_zero, N. Qed.
Lemma total_eq sg mean m : (m == mean)%Q -> (qsum sg - inject_Z (len sg) * m == excess sg mean)%Q.
Proof.
  intros E. unfold excess, qsum. induction sg as [|x sg IH]; [change (inject_Z (len (@nil Q))) with 0%Q; cbn [map fold_right]; ring|]. cbn [map fold_right]. rewrite <- IH, len_cons, inject_Z_plus, E.
  change (inject_Z 1) with 1%Q. ring.
Qed.
Lemma parts_cases s : background s <> [] -> signal s <> [] ->
  significance2_parts s =
    if Qeq_bool (qvar (background s)) 0 then Ok None
    else if len (background s) <? len (signal s) then Ok None
    else if Qeq_bool (qvar (rebinned (len (signal s)) (background s))) 0 then Ok None
    else Ok (Some (qsum (signal s) - inject_Z (len (signal s)) * qmean (background s), qvar (rebinned (len (signal s)) (background s))))%Q.
Proof.
  intros NB NS. unfold significance2_parts, peak_total, peak_mean. destruct (background s) as [|b bg] eqn:EB; [congruence|].
  destruct (signal s) as [|x sg] eqn:ES; [congruence|].
  assert (P : 0 < len (x :: sg)) by (rewrite len_cons; pose proof (len_nonneg sg); lia).
  set (n := len (x :: sg)) in *. set (l := b :: bg) in *. destruct (Qeq_bool (qvar l) 0); [reflexivity|].
  replace (n =? 0) with false by lia. pose proof (len_nonneg l).
  assert (D : (len l / n * n =? 0) = (len l <? n)).
  { destruct (len l <? n) eqn:C; [rewrite Z.div_small by lia; reflexivity|]. assert (1 <= len l / n) by (apply Z.div_le_lower_bound; lia). nia. }
  rewrite D. destruct (len l <? n); [reflexivity|]. unfold rebinned. destruct (Qeq_bool _ 0); reflexivity.
Qed.
Lemma ratio_spec t var t' var' : (t == t')%Q -> (var == var')%Q -> (0 < var')%Q ->
  exists k, near_sqrt (t' * t' / var' * 1000000)%Q k /\ (0 <= t' -> exact_ratio t var = inject_Z k / 1000)%Q /\ (t' < 0 -> exact_ratio t var = inject_Z (- k) / 1000)%Q.
Proof.
  intros ET EV P. unfold exact_ratio. assert (EX : (t * t * 1000000 / var == t' * t' / var' * 1000000)%Q) by (rewrite ET, EV; field; lra).
  assert (NN : (0 <= t' * t' / var')%Q) by (apply Qle_shift_div_l; [assumption|]; rewrite Qmult_0_l; apply Qsq_nonneg).
  assert (SP := rsqrt_spec (t * t * 1000000 / var)%Q). revert SP. generalize (rsqrt (t * t * 1000000 / var)%Q). intros n SP.
  destruct SP as (A & B & C); [rewrite EX; lra|].
  exists n. split; [|split].
  - split; [exact A|]. rewrite EX in B, C. split; [exact B|exact C].
  - intros G. replace (Qle_bool 0 t) with true by (symmetry; apply Qle_bool_iff; lra). reflexivity.
  - intros G. replace (Qle_bool 0 t) with false; [reflexivity|]. symmetry. destruct (Qle_bool 0 t) eqn:L; [apply Qle_bool_iff in L; lra|reflexivity].
Qed.
Lemma rebinned_nonempty n bg : 0 < n <= len bg -> rebinned n bg <> [].
Proof.
  intros N E. destruct (rebinned_sums n bg) as [L _]; [lia|]. rewrite E in L. change (len (@nil Q)) with 0 in L.
  assert (1 <= len bg / n) by (apply Z.div_le_lower_bound; lia). lia.
Qed.
Lemma qvar_nonneg l : l <> [] -> (0 <= qvar l)%Q.
Proof.
  intros N. unfold qvar. destruct l as [|x l]; [congruence|]. apply Qle_shift_div_l; [apply inject_len_pos|].
  rewrite Qmult_0_l. apply qsum_nonneg. intros y Y. apply in_map_iff in Y as (z & <- & _). apply Qsq_nonneg.
Qed.
Lemma c175 s mean r var : 0 < len (signal s) <= len (background s) -> is_mean (background s) mean ->
  group_sums (len (signal s)) (background s) r -> is_variance r var -> ~ (var == 0)%Q ->
  exists k, near_sqrt (excess (signal s) mean * excess (signal s) mean / var * 1000000)%Q k /\
    (0 <= excess (signal s) mean -> significance2 s = Ok (Some (inject_Z k / 1000)))%Q /\
    (excess (signal s) mean < 0 -> significance2 s = Ok (Some (inject_Z (- k) / 1000)))%Q.
Proof.
  intros [N L] M G V NZ. set (n := len (signal s)) in *. set (bg := background s) in *.
  assert (NB : bg <> []) by (intros E; rewrite E in L; change (len (@nil Q)) with 0 in L; lia).
  assert (NS : signal s <> []) by (intros E; subst n; rewrite E in N; change (len (@nil Q)) with 0 in N; lia).
  assert (NR : rebinned n bg <> []) by (apply rebinned_nonempty; lia).
  pose proof (group_sums_same n bg r _ G (rebinned_sums n bg N)) as F.
  assert (EV : (qvar (rebinned n bg) == var)%Q).
  { apply (variance_unique (rebinned n bg)); [assumption|now apply qvar_spec|]. exact (variance_same _ _ _ F V). }
  assert (Z1 : Qeq_bool (qvar (rebinned n bg)) 0 = false).
  { destruct (Qeq_bool _ 0) eqn:E; [apply Qeq_bool_iff in E; rewrite EV in E; contradiction|reflexivity]. }
  assert (Z0 : Qeq_bool (qvar bg) 0 = false).
  { destruct (Qeq_bool (qvar bg) 0) eqn:E; [|reflexivity]. apply (const_var bg NB) in E.
    assert (C : constant (rebinned n bg)) by exact (constant_sums n bg _ N (rebinned_sums n bg N) E).
    apply (const_var _ NR) in C. congruence. }
  assert (EM : (qmean bg == mean)%Q) by (apply (mean_unique bg); [assumption|now apply qmean_spec|assumption]).
  destruct (ratio_spec (qsum (signal s) - inject_Z n * qmean bg) (qvar (rebinned n bg)) (excess (signal s) mean) var) as (k & K & A & B).
  { now apply total_eq. } { assumption. } { pose proof (qvar_nonneg _ NR). lra. }
  exists k. split; [exact K|]. unfold significance2. rewrite (parts_cases s NB NS). fold n bg. rewrite Z0, Z1. replace (len bg <? n) with false by lia. cbn [bind].
  split; intros H; [rewrite (A H)|rewrite (B H)]; reflexivity.
Qed.
Lemma c175_none s r : group_sums (len (signal s)) (background s) r ->
  significance2 s = Ok None <-> (signal s <> [] /\ constant r) \/ (background s <> [] /\ constant (background s)).
Proof.
  intros G. assert (BN : background s = [] \/ background s <> []) by (destruct (background s); [now left|right; discriminate]).
  assert (SN : signal s = [] \/ signal s <> []) by (destruct (signal s); [now left|right; discriminate]).
  destruct BN as [EB|NB].
  - unfold significance2, significance2_parts. rewrite EB. destruct SN as [ES|NS].
    + rewrite ES. cbn. split; [discriminate|]. intros [[X _]|[X _]]; congruence.
    + assert (P : 0 < len (signal s)) by (destruct (signal s) as [|x l]; [congruence|rewrite len_cons; pose proof (len_nonneg l); lia]).
      replace (len (signal s) =? 0) with false by lia. cbn [bind]. split; [|reflexivity]. intros _. left. split; [assumption|].
      rewrite EB in G. destruct G as [L _]. change (len (@nil Q)) with 0 in L. rewrite Z.div_0_l in L by lia.
      destruct r as [|y r]; [intros ? ? []|rewrite len_cons in L; pose proof (len_nonneg r); lia].
  - pose proof (const_var _ NB) as CB. destruct SN as [ES|NS].
    + unfold significance2, significance2_parts. destruct (background s) as [|b bg]; [congruence|]. rewrite ES.
      destruct (Qeq_bool (qvar (b :: bg)) 0) eqn:E; cbn.
      * split; [|reflexivity]. intros _. right. split; [assumption|now apply CB].
      * split; [discriminate|]. intros [[X _]|[_ X]]; [congruence|]. apply CB in X. congruence.
    + assert (P : 0 < len (signal s)) by (destruct (signal s) as [|x l]; [congruence|rewrite len_cons; pose proof (len_nonneg l); lia]).
      unfold significance2. rewrite (parts_cases s NB NS). destruct (Qeq_bool (qvar (background s)) 0) eqn:E.
      { cbn. split; [|reflexivity]. intros _. right. split; [assumption|now apply CB]. }
      destruct (len (background s) <? len (signal s)) eqn:C.
      { cbn. split; [|reflexivity]. intros _. left. split; [assumption|]. destruct G as [L _]. pose proof (len_nonneg (background s)).
        rewrite Z.div_small in L by lia. destruct r as [|y r]; [intros ? ? []|rewrite len_cons in L; pose proof (len_nonneg r); lia]. }
      assert (NR : rebinned (len (signal s)) (background s) <> []) by (apply rebinned_nonempty; lia).
      pose proof (const_var _ NR) as CR. pose proof (group_sums_same _ _ _ _ G (rebinned_sums _ (background s) P)) as F.
      destruct (Qeq_bool (qvar (rebinned _ _)) 0) eqn:E2; cbn [bind].
      * split; [|reflexivity]. intros _. left. split; [assumption|]. apply (constant_same _ _ (Forall2_sym _ _ F)). now apply CR.
      * split; [discriminate|]. intros [[_ X]|[_ X]]; [|apply CB in X; congruence].
        apply (constant_same _ _ F) in X. apply CR in X. congruence.
Qed.
Lemma c175_error s : significance2 s = Err ZeroDivisionError <-> signal s = [] /\ ~ (background s <> [] /\ constant (background s)).
Proof.
  assert (SN : signal s = [] \/ signal s <> []) by (destruct (signal s); [now left|right; discriminate]).
  assert (BN : background s = [] \/ background s <> []) by (destruct (background s); [now left|right; discriminate]).
  destruct SN as [ES|NS].
  - unfold significance2, significance2_parts. destruct BN as [EB|NB].
    + rewrite EB, ES. cbn. split; [intros _; split; [reflexivity|intros [X _]; congruence]|reflexivity].
    + pose proof (const_var _ NB) as CB. destruct (background s) as [|b bg]; [congruence|]. rewrite ES. destruct (Qeq_bool (qvar (b :: bg)) 0) eqn:E; cbn.
      * split; [discriminate|]. intros [_ X]. exfalso. apply X. split; [assumption|now apply CB].
      * split; [|reflexivity]. intros _. split; [reflexivity|]. intros [_ X]. apply CB in X. congruence.
  - split; [|intros [X _]; congruence]. intros H. exfalso. revert H. destruct BN as [EB|NB].
    + unfold significance2, significance2_parts. rewrite EB. destruct (signal s) as [|x l]; [congruence|]. rewrite len_cons. pose proof (len_nonneg l).
      replace (len l + 1 =? 0) with false by lia. replace (1 + len l =? 0) with false by lia. discriminate.
    + unfold significance2. rewrite (parts_cases s NB NS). repeat (destruct (_ : bool); [discriminate|]). discriminate.
Qed.

(** ** g2 *)
Lemma c176 s m : background s <> [] -> is_mean (background s) m ->
  (m == 0 -> UtilsModel.g2 s = Ok None)%Q /\
  (~ m == 0 -> signal s = [] -> UtilsModel.g2 s = Err TypeError)%Q /\
  (forall x, ~ m == 0 -> largest x (signal s) -> exists v, UtilsModel.g2 s = Ok (Some v) /\ v == x / m)%Q.
Proof.
  intros N M. assert (E : (qmean (background s) == m)%Q) by (apply (mean_unique (background s)); [assumption|now apply qmean_spec|assumption]).
  unfold UtilsModel.g2, peak_mean, peak_max. destruct (background s) as [|b bg] eqn:B; [congruence|].
  assert (ZB : Qeq_bool (qmean (b :: bg)) 0 = true <-> (m == 0)%Q) by (rewrite Qeq_bool_iff, E; reflexivity).
  destruct (Qeq_bool (qmean (b :: bg)) 0) eqn:Z0.
  - assert (m == 0)%Q by now apply ZB. split; [reflexivity|]. split; intros; contradiction.
  - assert (NM : ~ (m == 0)%Q) by (intros X; apply ZB in X; congruence). split; [contradiction|]. split; [intros _ ->; reflexivity|].
    intros x _ L. destruct (signal s) as [|y l]; [destruct L as [[] _]|]. eexists. split; [reflexivity|].
    assert (G := qmax_list_spec l y). assert (X : (qmax_list y l == x)%Q) by (apply Qle_antisym; [apply L, G|apply G, L]). now rewrite X, E.
Qed.
Lemma c176_empty s : background s = [] -> UtilsModel.g2 s = Err TypeError.
Proof. intros B. unfold UtilsModel.g2, peak_mean. rewrite B. reflexivity. Qed.
