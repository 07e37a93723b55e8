(** Slicing, normalisation, overlap, binning. *)
From Coq Require Import QArith Qabs Qround Lqa.
From Coq Require Import ZifyBool.
From Verif Require Import Float Base TimestampsModel TimestampsSpec EpochsModel TimestampsProofs2 EpochsProofs2 EpochsProofs4 EpochsProofs5 UtilsModel UtilsSpec.
Local Open Scope Z_scope.

Lemma Qltb_lt x y : Qltb x y = true <-> (x < y)%Q.
Proof.
  unfold Qltb. rewrite negb_true_iff. split; intros H.
  - apply Qnot_le_lt. intros L. apply Qle_bool_iff in L. congruence.
  - destruct (Qle_bool y x) eqn:E; [|reflexivity]. apply Qle_bool_iff in E. exfalso. lra.
Qed.
Lemma Qltb_ge x y : Qltb x y = false <-> (y <= x)%Q.
Proof. unfold Qltb. rewrite negb_false_iff. apply Qle_bool_iff. Qed.
Lemma fl_nonneg p x : 1 <= p -> (0 <= fl p x <-> 0 <= x)%Q.
Proof.
  intros P. split; intros H.
  - apply Qnot_lt_le. intros L. assert (E : (0 < fl p (- x))%Q) by (apply fl_pos; [assumption|lra]).
    rewrite fl_opp in E. lra.
  - pose proof (fl_mono p 0 x P H) as E. rewrite (fl_0 p 0) in E by reflexivity. exact E.
Qed.
Lemma Qle_bool_cong a b c d : ((a <= b)%Q <-> (c <= d)%Q) -> Qle_bool a b = Qle_bool c d.
Proof.
  intros H. destruct (Qle_bool c d) eqn:E.
  - apply Qle_bool_iff, H, Qle_bool_iff, E.
  - destruct (Qle_bool a b) eqn:E2; [|reflexivity]. apply Qle_bool_iff, H, Qle_bool_iff in E2. congruence.
Qed.
Lemma filter_map {A B} (g : A -> B) f l : filter f (map g l) = map g (filter (fun x => f (g x)) l).
Proof. induction l as [|x l IH]; cbn; [reflexivity|]. destruct (f (g x)); cbn; now rewrite IH. Qed.
Lemma slice_from p ts s : 1 <= p ->
  filter (fun t => Qle_bool 0 t) (map (fun t => fl p (t - s)%Q) ts) = map (fun t => fl p (t - s)%Q) (from s ts).
Proof.
  intros P. rewrite filter_map. f_equal. unfold from. apply filter_ext. intros t.
  apply Qle_bool_cong. rewrite fl_nonneg by assumption. split; lra.
Qed.
Lemma getitem_last {A} (l : list A) : (exists x, getitem l (-1) = Ok x /\ l <> []) \/ (getitem l (-1) = Err IndexError /\ l = []).
Proof.
  unfold getitem. cbn [Z.ltb Z.compare]. destruct l as [|a l].
  - right. split; [|reflexivity]. reflexivity.
  - left. rewrite len_cons. pose proof (len_nonneg l). destruct (-1 + (1 + len l) <? 0) eqn:E; [lia|].
    destruct (nth_error (a :: l) (Z.to_nat (-1 + (1 + len l)))) eqn:N.
    + eexists; split; [reflexivity|discriminate].
    + apply nth_error_None in N. cbn [length] in N. unfold len in *. lia.
Qed.
Lemma getitem_nth {A} (l : list A) i d : 0 <= i < len l -> getitem l i = Ok (nth (Z.to_nat i) l d).
Proof.
  intros H. unfold getitem. replace (i <? 0) with false by lia.
  replace (i <? 0) with false by lia.
  rewrite (nth_error_nth' l d); [reflexivity|]. unfold len in H. lia.
Qed.
Lemma getitem_out {A} (l : list A) i : len l <= i -> getitem l i = Err IndexError.
Proof.
  intros H. unfold getitem. pose proof (len_nonneg l). replace (i <? 0) with false by lia.
  replace (i <? 0) with false by lia.
  destruct (nth_error l (Z.to_nat i)) eqn:E; [|reflexivity].
  assert (Z.to_nat i < length l)%nat by (apply nth_error_Some; congruence). unfold len in *. lia.
Qed.

(** ** C46 *)
Lemma c46 p ts s d : 1 <= p ->
  slice_timestamps (fl p) ts (Some s) None = Ok (map (fun t => fl p (t - s)%Q) (from s ts)) /\
  slice_timestamps (fl p) ts (Some s) (Some d) =
    match from s ts with
    | [] => Err IndexError
    | l => Ok (filter (fun t => Qltb t d) (map (fun t => fl p (t - s)%Q) l))
    end.
Proof.
  intros P. unfold slice_timestamps. rewrite slice_from by assumption. cbn [bind]. split; [reflexivity|].
  destruct (from s ts) as [|x l] eqn:E; [reflexivity|].
  match goal with |- context[getitem ?a (-1)] => destruct (getitem_last a) as [(y & G & _)|(G & N)] end.
  - rewrite G. reflexivity.
  - discriminate.
Qed.
Lemma same_map {A} (g h : A -> Q) l : (forall x, In x l -> (g x == h x)%Q) -> same_values (map g l) (map h l).
Proof. induction l as [|x l IH]; intros H; cbn; constructor; [apply H; now left|]. apply IH; intros; apply H; now right. Qed.
Lemma c46_exact p ts s d : 1 <= p -> Forall (fun t => fl p (t - s) == t - s)%Q ts -> (exists t, In t ts /\ (s <= t)%Q) ->
  exists l, slice_timestamps (fl p) ts (Some s) (Some d) = Ok l /\ same_values l (map (fun t => t - s)%Q (window s d ts)).
Proof.
  intros P E (t & I & L). rewrite (proj2 (c46 p ts s d P)).
  assert (I' : In t (from s ts)) by (apply filter_In; split; [assumption|now apply Qle_bool_iff]).
  destruct (from s ts) as [|x l] eqn:F; [easy|]. eexists; split; [reflexivity|]. rewrite <- F in *. clear t I L I' x l F.
  rewrite filter_map. unfold from, window.
  induction ts as [|t ts IH]; cbn [filter map]; [constructor|]. apply Forall_cons_iff in E as [E1 E2].
  destruct (Qle_bool s t) eqn:L; cbn [andb filter map]; [|now apply IH].
  replace (Qltb (fl p (t - s)) d) with (negb (Qle_bool (s + d) t)).
  - destruct (negb (Qle_bool (s + d) t)); cbn [map]; [constructor; [exact E1|]|]; now apply IH.
  - unfold Qltb. f_equal. apply Qle_bool_cong. rewrite E1. split; lra.
Qed.
Lemma device_sub b p t s : 1 <= p -> b <= p -> device_time b t -> device_time b s -> (fl p (t - s) == t - s)%Q.
Proof.
  intros P B (k & Et & Hk) (m & Es & Hm).
  assert (E : (t - s == inject_Z (k - m) * pow2 (-8))%Q).
  { rewrite Et, Es. unfold Z.sub. rewrite inject_Z_plus, inject_Z_opp. change (pow2 (-8)) with (1 # 256)%Q. change (inject_Z 256) with 256%Q. field. }
  rewrite (fl_eq _ _ _ E), E. apply fl_exact; [assumption|].
  assert (0 <= b) by (destruct (Z.le_gt_cases 0 b); [assumption|rewrite Z.pow_neg_r in Hk by lia; lia]).
  assert (2 ^ b <= 2 ^ p) by (apply Z.pow_le_mono_r; lia). lia.
Qed.
Lemma c46_device b p ts s d : 1 <= p -> b <= p -> Forall (device_time b) ts -> device_time b s -> (exists t, In t ts /\ (s <= t)%Q) ->
  exists l, slice_timestamps (fl p) ts (Some s) (Some d) = Ok l /\ same_values l (map (fun t => t - s)%Q (window s d ts)).
Proof.
  intros P B D S. apply c46_exact; [assumption|]. apply Forall_forall. intros t I. rewrite Forall_forall in D.
  now apply (device_sub b); auto.
Qed.

(** ** C45 *)
Lemma qmax_list_spec l : forall x, largest (qmax_list x l) (x :: l).
Proof.
  unfold qmax_list. induction l as [|y l IH]; intros x; cbn [fold_left].
  - split; [now left|]. intros z [->|[]]; lra.
  - destruct (IH (if Qltb x y then y else x)) as [I M]. destruct (Qltb x y) eqn:L.
    + apply Qltb_lt in L. split; [right; exact I|]. intros z [->|Hz].
      * apply Qle_trans with y; [lra|apply M; now left].
      * now apply M.
    + apply Qltb_ge in L. split; [destruct I as [<-|I]; [now left|right; now right]|]. intros z [->|[->|Hz]].
      * apply M; now left.
      * apply Qle_trans with x; [lra|apply M; now left].
      * apply M; now right.
Qed.
Lemma mapM_ok {A B} (g : A -> pyres B) (h : A -> B) l : (forall x, In x l -> g x = Ok (h x)) -> mapM g l = Ok (map h l).
Proof.
  induction l as [|x l IH]; intros H; cbn [mapM map]; [reflexivity|].
  rewrite (H x) by now left. cbn [bind]. rewrite IH by (intros; apply H; now right). reflexivity.
Qed.
Lemma firsts_ok (T : list (list Q)) : Forall (fun ts => ts <> []) T -> mapM (fun ts => getitem ts 0) T = Ok (map (fun ts => hd 0%Q ts) T).
Proof.
  intros H. apply mapM_ok. intros ts I. rewrite Forall_forall in H. specialize (H ts I).
  destruct ts as [|x ts]; [congruence|]. reflexivity.
Qed.
Lemma c45 p T skip : 1 <= p -> T <> [] -> Forall (fun ts => ts <> []) T ->
  exists m S, largest m (map (fun ts => hd 0%Q ts) T) /\ S = fl p (m + fl 53 (skip * 1000000000))%Q /\
    normalize_timestamps (fl p) (fl 53) T skip true = Ok (map (fun ts => map (fun t => fl p (t - S)%Q) (from S ts)) T).
Proof.
  intros P N H. unfold normalize_timestamps. cbn [bind]. rewrite firsts_ok by assumption. cbn [bind].
  destruct (map (fun ts => hd 0%Q ts) T) as [|x r] eqn:F; [apply map_eq_nil in F; congruence|].
  exists (qmax_list x r), (fl p (qmax_list x r + fl 53 (skip * 1000000000))%Q).
  split; [|split; [reflexivity|]].
  - apply qmax_list_spec.
  - apply mapM_ok. intros ts _. apply (proj1 (c46 p ts _ 0 P)).
Qed.
Lemma c45_exact b p T skip n : 1 <= p -> b <= p -> T <> [] -> Forall (fun ts => ts <> []) T -> Forall (Forall (device_time b)) T ->
  (fl 53 (skip * 1000000000) == n)%Q ->
  (forall m, largest m (map (fun ts => hd 0%Q ts) T) -> device_time b (m + n)) ->
  exists m R, largest m (map (fun ts => hd 0%Q ts) T) /\
    normalize_timestamps (fl p) (fl 53) T skip true = Ok R /\
    Forall2 same_values R (map (fun ts => map (fun t => t - (m + n))%Q (from (m + n)%Q ts)) T).
Proof.
  intros P B N H D En Dn. destruct (c45 p T skip P N H) as (m & S & L & ES & R).
  exists m. eexists. split; [exact L|]. split; [exact R|]. specialize (Dn m L).
  assert (E : (S == m + n)%Q).
  { subst S. rewrite (fl_eq p _ (m + n)%Q) by now rewrite En.
    destruct Dn as (k & Ek & Hk).
    assert (E : (m + n == inject_Z k * pow2 (-8))%Q) by (rewrite Ek; change (pow2 (-8)) with (1 # 256)%Q; change (inject_Z 256) with 256%Q; field).
    rewrite (fl_eq _ _ _ E), E. apply fl_exact; [assumption|].
    assert (0 <= b) by (destruct (Z.le_gt_cases 0 b); [assumption|rewrite Z.pow_neg_r in Hk by lia; lia]).
    assert (2 ^ b <= 2 ^ p) by (apply Z.pow_le_mono_r; lia). lia. }
  assert (DS : device_time b S) by (destruct Dn as (k & Ek & Hk); exists k; split; [now rewrite E|assumption]).
  clear R ES N H En. induction T as [|ts T IH]; cbn [map]; [constructor|].
  apply Forall_cons_iff in D as [D1 D2]. constructor.
  - replace (from (m + n) ts) with (from S ts).
    + apply same_map. intros t I. apply filter_In in I as [I _]. rewrite Forall_forall in D1.
      rewrite (device_sub b) by auto. now rewrite E.
    + unfold from. apply filter_ext. intros t. apply Qle_bool_cong. now rewrite E.
  - clear IH D1. assert (G : forall T', Forall (Forall (device_time b)) T' ->
      Forall2 same_values (map (fun ts => map (fun t => fl p (t - S)%Q) (from S ts)) T')
        (map (fun ts => map (fun t => t - (m + n))%Q (from (m + n)%Q ts)) T')).
    { induction T' as [|u T' IH]; intros G; cbn [map]; [constructor|]. apply Forall_cons_iff in G as [G1 G2]. constructor; [|now apply IH].
      replace (from (m + n) u) with (from S u).
      + apply same_map. intros t I. apply filter_In in I as [I _]. rewrite Forall_forall in G1.
        rewrite (device_sub b) by auto. now rewrite E.
      + unfold from. apply filter_ext. intros t. apply Qle_bool_cong. now rewrite E. }
    now apply G.
Qed.
(** without preserve_relative every array is first moved to start at 0 *)
Lemma c45_separate p T skip : 1 <= p -> Forall (fun ts => ts <> []) T ->
  normalize_timestamps (fl p) (fl 53) T skip false =
  normalize_timestamps (fl p) (fl 53) (map (fun ts => map (fun t => fl p (t - hd 0%Q ts)%Q) ts) T) skip true.
Proof.
  intros P H. unfold normalize_timestamps at 1.
  rewrite (mapM_ok _ (fun ts => map (fun t => fl p (t - hd 0%Q ts)%Q) ts)).
  - reflexivity.
  - intros ts I. rewrite Forall_forall in H. specialize (H ts I). destruct ts as [|x ts]; [congruence|]. reflexivity.
Qed.

(** ** C47 *)
Lemma slice_0 {A} (l : list A) n : 0 <= n <= len l -> slice l 0 n = firstn (Z.to_nat n) l.
Proof.
  intros H. unfold slice, slice_index. cbn [Z.ltb Z.compare]. replace (n <? 0) with false by lia.
  rewrite Z.min_l, Z.min_l by lia. rewrite drop_0 by lia. unfold take. now rewrite Z.sub_0_r.
Qed.
Lemma fold_min l : forall x, (fold_left Z.min l x = x \/ In (fold_left Z.min l x) l) /\ fold_left Z.min l x <= x /\
  forall v, In v l -> fold_left Z.min l x <= v.
Proof.
  induction l as [|y l IH]; intros x; cbn [fold_left]; [split; [now left|split; [lia|easy]]|].
  destruct (IH (Z.min x y)) as (A & B & C). split; [|split; [lia|]].
  - destruct A as [A|A]; [|right; now right]. rewrite A. destruct (Z.min_spec x y) as [[_ ->]|[_ ->]]; [now left|right; now left].
  - intros v [->|I]; [lia|now apply C].
Qed.
Lemma c47 {A} (arrays : list (list A)) : arrays <> [] ->
  exists n, (exists a, In a arrays /\ len a = n) /\ (forall a, In a arrays -> n <= len a) /\
    get_overlap arrays = Ok (n, map (firstn (Z.to_nat n)) arrays).
Proof.
  intros N. unfold get_overlap. destruct arrays as [|a0 r]; [congruence|]. cbn [map].
  destruct (fold_min (map len r) (len a0)) as (A1 & B & C). set (n := fold_left Z.min (map len r) (len a0)) in *.
  assert (M : forall a, In a (a0 :: r) -> n <= len a).
  { intros a [<-|I]; [exact B|]. apply C, in_map, I. }
  assert (X : exists a, In a (a0 :: r) /\ len a = n).
  { destruct A1 as [E|E]; [exists a0; split; [now left|now symmetry]|]. apply in_map_iff in E as (a & E & I). exists a. split; [now right|assumption]. }
  exists n. split; [exact X|]. split; [exact M|].
  assert (0 <= n) by (destruct X as (a & _ & <-); apply len_nonneg).
  change (slice a0 0 n :: map (fun a => slice a 0 n) r) with (map (fun a => slice a 0 n) (a0 :: r)).
  change (firstn (Z.to_nat n) a0 :: map (firstn (Z.to_nat n)) r) with (map (firstn (Z.to_nat n)) (a0 :: r)).
  do 2 f_equal. apply map_ext_in. intros a I. apply slice_0. specialize (M a I). lia.
Qed.

(** ** C48 *)
Lemma bin_bounds n res t : 0 < n -> (0 < res)%Q -> in_bin n res (bin_index n res t) t.
Proof.
  intros N R. unfold bin_index. exists (Qfloor (t / res) / n).
  replace (Qfloor (t / res) / n * n + Qfloor (t / res) mod n) with (Qfloor (t / res)) by (pose proof (Z.div_mod (Qfloor (t / res)) n); lia).
  pose proof (Qfloor_le (t / res)) as A. pose proof (Qlt_floor (t / res)) as B.
  assert (E : (t == t / res * res)%Q) by (field; lra). split.
  - rewrite E at 2. apply Qmult_le_compat_r; lra.
  - rewrite E at 1. apply Qmult_lt_compat_r; assumption.
Qed.
Lemma in_bin_unique n res t i j : 0 < n -> (0 < res)%Q -> 0 <= i < n -> 0 <= j < n -> in_bin n res i t -> in_bin n res j t -> i = j.
Proof.
  intros N R I J (q & A & B) (r & C & D).
  assert (L1 : q * n + i < r * n + j + 1).
  { rewrite Zlt_Qlt. apply (Qmult_lt_r _ _ res); [assumption|]. lra. }
  assert (L2 : r * n + j < q * n + i + 1).
  { rewrite Zlt_Qlt. apply (Qmult_lt_r _ _ res); [assumption|]. lra. }
  assert (E : q * n + i = r * n + j) by lia.
  assert (i = (q * n + i) mod n) by (rewrite Z.add_comm, Z.mod_add, Z.mod_small by lia; reflexivity).
  assert (j = (r * n + j) mod n) by (rewrite Z.add_comm, Z.mod_add, Z.mod_small by lia; reflexivity).
  congruence.
Qed.
Lemma bin_range n res t : 0 < n -> 0 <= bin_index n res t < n.
Proof. intros. apply Z.mod_pos_bound. assumption. Qed.
Lemma in_bin_iff n res t k : 0 < n -> (0 < res)%Q -> 0 <= k < n -> in_bin n res k t <-> bin_index n res t = k.
Proof.
  intros N R K. split; [|intros <-; now apply bin_bounds].
  intros H. apply (in_bin_unique n res t); auto using bin_range, bin_bounds.
Qed.
Fixpoint hits (n : Z) (res : Q) (k : Z) (l : list Q) : Z :=
  match l with [] => 0 | t :: r => (if bin_index n res t =? k then 1 else 0) + hits n res k r end.
Lemma hits_counts n res k l : 0 < n -> (0 < res)%Q -> 0 <= k < n -> counts (in_bin n res k) l (hits n res k l).
Proof.
  intros N R K. induction l as [|t l IH]; cbn [hits]; [constructor|].
  destruct (bin_index n res t =? k) eqn:E.
  - rewrite Z.add_comm. constructor; [|exact IH]. apply in_bin_iff; [assumption..|lia].
  - rewrite Z.add_0_l. constructor; [|exact IH]. rewrite in_bin_iff by assumption. lia.
Qed.
Lemma fold_incr n res arr : 0 < n -> forall h, length h = Z.to_nat n ->
  length (fold_left (fun h t => incr (Z.to_nat (bin_index n res t)) h) arr h) = Z.to_nat n /\
  (forall k, 0 <= k < n -> nth (Z.to_nat k) (fold_left (fun h t => incr (Z.to_nat (bin_index n res t)) h) arr h) 0 =
     nth (Z.to_nat k) h 0 + hits n res k arr).
Proof.
  intros N. induction arr as [|t arr IH]; intros h L; cbn [fold_left hits].
  - split; [assumption|]. intros; lia.
  - pose proof (bin_range n res t N) as B.
    destruct (IH (incr (Z.to_nat (bin_index n res t)) h)) as [IL IN]; [now rewrite incr_length|].
    split; [exact IL|]. intros k K. rewrite IN, incr_nth by lia.
    destruct (bin_index n res t =? k) eqn:E; [replace (Nat.eqb _ _) with true|replace (Nat.eqb _ _) with false]; try lia.
    all: symmetry; [apply Nat.eqb_eq|apply Nat.eqb_neq]; lia.
Qed.
Lemma sum_incr i : forall l, (i < length l)%nat -> sumZ (incr i l) = 1 + sumZ l.
Proof.
  induction i as [|i IH]; intros [|x l] H; cbn [incr sumZ fold_right length] in *; try lia.
  unfold sumZ in *. rewrite IH by lia. lia.
Qed.
Lemma sum_fold_incr n res arr : 0 < n -> forall h, length h = Z.to_nat n ->
  sumZ (fold_left (fun h t => incr (Z.to_nat (bin_index n res t)) h) arr h) = sumZ h + len arr.
Proof.
  intros N. induction arr as [|t arr IH]; intros h L; cbn [fold_left]; [autorewrite with lens; lia|].
  pose proof (bin_range n res t N) as B.
  rewrite IH by now rewrite incr_length. rewrite sum_incr by lia. autorewrite with lens. lia.
Qed.
Lemma sumZ_repeat k : sumZ (repeat 0 k) = 0.
Proof. induction k; cbn; [reflexivity|]. exact IHk. Qed.
Lemma histogram_ok arr n res : arr <> [] -> 0 < n -> (0 < res)%Q -> exists h, histogram arr n res = Ok h /\ len h = n /\
  (forall k, 0 <= k < n -> nth (Z.to_nat k) h 0 = hits n res k arr) /\ sumZ h = len arr.
Proof.
  intros A N R. unfold histogram. destruct arr as [|t arr]; [congruence|].
  replace (n <=? 0) with false by lia. cbn [orb].
  destruct (Qeq_bool res 0) eqn:E; [apply Qeq_bool_iff in E; lra|].
  eexists; split; [reflexivity|].
  destruct (fold_incr n res (t :: arr) N (repeat 0 (Z.to_nat n))) as [L H]; [apply repeat_length|].
  split; [unfold len; rewrite L; lia|]. split.
  - intros k K. rewrite H by assumption. rewrite nth_repeat. lia.
  - rewrite sum_fold_incr by (try assumption; apply repeat_length). rewrite sumZ_repeat. lia.
Qed.
Lemma c48 arr n res : arr <> [] -> 0 < n -> (0 < res)%Q -> exists h, histogram arr n res = Ok h /\ len h = n /\
  (forall k, 0 <= k < n -> counts (in_bin n res k) arr (nth (Z.to_nat k) h 0)) /\
  (forall t, exists k, 0 <= k < n /\ in_bin n res k t /\ forall j, 0 <= j < n -> in_bin n res j t -> j = k) /\
  fold_right Z.add 0 h = len arr.
Proof.
  intros A N R. destruct (histogram_ok arr n res A N R) as (h & E & L & H & S).
  exists h. split; [exact E|]. split; [exact L|]. split; [|split; [|exact S]].
  - intros k K. rewrite H by assumption. now apply hits_counts.
  - intros t. exists (bin_index n res t). split; [now apply bin_range|]. split; [now apply bin_bounds|].
    intros j J I. apply (in_bin_unique n res t); auto using bin_range, bin_bounds.
Qed.
