(** Proofs about main. *)
From Coq Require Import QArith Qabs Qround Lqa.
From Verif Require Import Float Base TimestampsModel TimestampsSpec TimestampsProofs TimestampsProofs2 TimestampsProofs5 TimestampsProofs6 EpochsModel UtilsModel UtilsSpec UtilsProofs FpfindModel FpfindSpec MainModel.
Local Open Scope Z_scope.

(** ** Equal values give the same search *)
Definition respects (r : Q -> Q) : Prop := forall x y, (x == y)%Q -> r x = r y.
Lemma same_map_eq (g : Q -> Q) l l' : (forall x y, (x == y)%Q -> g x = g y) -> same_values l l' -> map g l = map g l'.
Proof. intros R. induction 1 as [|x y l l' E S IH]; [reflexivity|]. cbn [map]. now rewrite (R x y E), IH. Qed.
Lemma same_getitem l l' i : same_values l l' ->
  match getitem l i, getitem l' i with Ok x, Ok y => (x == y)%Q | Err e, Err e' => e = e' | _, _ => False end.
Proof.
  intros S. assert (L : len l = len l').
  { unfold len. f_equal. induction S; cbn; congruence. }
  unfold getitem. rewrite L. cbv zeta.
  set (j := if i <? 0 then i + len l' else i). destruct (j <? 0); [reflexivity|]. clearbody j. revert j.
  assert (G : forall k, match nth_error l k, nth_error l' k with Some x, Some y => (x == y)%Q | None, None => True | _, _ => False end).
  { clear L. induction S as [|x y l l' E S IH]; intros [|k]; cbn; auto. apply IH. }
  intros j. specialize (G (Z.to_nat j)). destruct (nth_error l (Z.to_nat j)), (nth_error l' (Z.to_nat j)); tauto.
Qed.
Lemma slice_same r l l' s d : respects r -> same_values l l' -> slice_timestamps r l (Some s) d = slice_timestamps r l' (Some s) d.
Proof.
  intros R S. unfold slice_timestamps. cbn [bind]. rewrite (same_map_eq (fun t => r (t - s)%Q) l l'); [reflexivity| |exact S].
  intros x y E. apply R. now rewrite E.
Qed.
Lemma correlate_same M P a a' b b' s d res : respects (rt M) -> same_values a a' -> same_values b b' ->
  correlate M P a b s d res = correlate M P a' b' s d res.
Proof. intros R A B. unfold correlate. now rewrite (slice_same (rt M) a a' s _ R A), (slice_same (rt M) b b' s _ R B). Qed.
Lemma iteration_same M P a a' b b' e e' d s res' dt' f' i' : respects (rt M) -> same_values a a' -> same_values b b' -> (e == e')%Q ->
  s = (res', dt', f', i') ->
  iteration M P a e d (mkS b res' dt' f' i') = iteration M P a' e' d (mkS b' res' dt' f' i').
Proof.
  intros R A B E _. unfold iteration. cbn [bts resolution dt f is_first].
  assert (U : used_duration M P e d res' = used_duration M P e' d res').
  { unfold used_duration. cbv zeta. rewrite (R (e / rs M (res' * inject_Z (num_bins P)))%Q (e' / rs M (res' * inject_Z (num_bins P)))%Q); [reflexivity|]. now rewrite E. }
  rewrite U. cbv zeta. rewrite (correlate_same M P a a' b b' 0 _ res' R A B).
  destruct (correlate M P a' b' 0 (used_duration M P e' d res') res') as [ys|]; [|reflexivity]. cbn [bind].
  destruct (delay_of M (num_bins P) ys res') as [dt1|]; [|reflexivity]. cbn [bind].
  destruct (sig_of M ys res') as [sig|]; [|reflexivity]. cbn [bind].
  destruct (if i' then confirm (S (length ys)) M P ys res' dt1 sig else Ok (res', dt1)) as [[res d1]|]; [|reflexivity]. cbn [bind].
  destruct (Qltb NTP_MAXDELAY_NS (Qabs d1)); [reflexivity|].
  rewrite (correlate_same M P a a' b b' (separation_duration P) _ res R A B).
  destruct (correlate M P a' b' (separation_duration P) (used_duration M P e' d res') res) as [ys2|]; [|reflexivity]. cbn [bind].
  destruct (delay_of M (num_bins P) ys2 res) as [d2|]; [|reflexivity]. cbn [bind].
  destruct (negb i' && _); [reflexivity|]. destruct (Qle_bool MAX_FCORR _); [reflexivity|].
  destruct (Qeq_bool res (target_resolution P)); [reflexivity|].
  rewrite (same_map_eq (fun t => rt M (rt M (t - d1) / rs M (1 + rs M (rs M (d2 - d1) / separation_duration P)))%Q) b b'); [reflexivity| |exact B].
  intros x y XY. apply R. rewrite (R (x - d1)%Q (y - d1)%Q); [reflexivity|]. now rewrite XY.
Qed.
Lemma iterate_same M P a a' e e' d : respects (rt M) -> same_values a a' -> (e == e')%Q ->
  forall fuel b b' r0 d0 f0 i0, same_values b b' ->
  iterate fuel M P a e d (mkS b r0 d0 f0 i0) = iterate fuel M P a' e' d (mkS b' r0 d0 f0 i0).
Proof.
  intros R A E. assert (RF : forall l, same_values l l) by (induction l; constructor; [reflexivity|assumption]).
  induction fuel as [|k IH]; intros b b' r0 d0 f0 i0 B; [reflexivity|]. cbn [iterate].
  rewrite (iteration_same M P a a' b b' e e' d _ r0 d0 f0 i0 R A B E eq_refl).
  destruct (iteration M P a' e' d (mkS b' r0 d0 f0 i0)) as [[|[b1 r1 d1 f1 i1]]|]; cbn [bind]; try reflexivity. apply IH. apply RF.
Qed.
Lemma qmin_same x x' y y' : (x == x')%Q -> (y == y')%Q -> (qmin x y == qmin x' y')%Q.
Proof.
  intros X Y. unfold qmin, Qltb. rewrite (Qle_bool_cong x y x' y') by (rewrite X, Y; tauto). destruct (Qle_bool x' y'); cbn [negb]; assumption.
Qed.
Lemma time_freq_same fuel M P a a' b b' res : respects (rt M) -> same_values a a' -> same_values b b' ->
  time_freq fuel M P a b res = time_freq fuel M P a' b' res.
Proof.
  intros R A B. unfold time_freq. pose proof (same_getitem a a' (-1) A) as GA. pose proof (same_getitem b b' (-1) B) as GB.
  destruct (getitem a (-1)) as [x|], (getitem a' (-1)) as [x'|]; try tauto; cbn [bind]; [|now subst].
  destruct (getitem b (-1)) as [y|], (getitem b' (-1)) as [y'|]; try tauto; cbn [bind]; [|now subst].
  apply iterate_same; try assumption. now apply qmin_same.
Qed.
Lemma fpfind_same fuel M P a a' b b' res df0s fs : respects (rt M) -> same_values a a' -> same_values b b' ->
  fpfind fuel M P a b res df0s fs = fpfind fuel M P a' b' res df0s fs.
Proof.
  intros R A B. unfold fpfind. assert (RF : forall l, same_values l l) by (induction l; constructor; [reflexivity|assumption]).
  induction df0s as [|df0 df0s IH]; [reflexivity|]. cbn [scan]. cbv zeta.
  rewrite (same_map_eq (fun t => rt M (rt M (t - 0) / rs M (1 + df0))%Q) b b'); [| |exact B].
  2:{ intros x y XY. apply R. rewrite (R (x - 0)%Q (y - 0)%Q); [reflexivity|]. now rewrite XY. }
  rewrite (time_freq_same fuel M P a a' _ _ res R A (RF _)). rewrite IH. reflexivity.
Qed.
Lemma search_same fuel M repr o n a b a' b' skip skip' T T' : respects (rt M) ->
  normalize_timestamps (rt M) (rs M) [a; b] skip true = Ok T -> normalize_timestamps (rt M) (rs M) [a'; b'] skip' true = Ok T' ->
  Forall2 same_values T T' -> search_and_print fuel M repr o n a b skip = search_and_print fuel M repr o n a' b' skip'.
Proof.
  intros R H H' S. unfold search_and_print. rewrite H, H'. cbn [bind].
  assert (N : forall i, same_values (nth i T []) (nth i T' [])).
  { clear -S. induction S as [|x y T T' E S IH]; intros [|i]; cbn; try constructor; [exact E|apply IH]. }
  pose proof (same_getitem _ _ 0 (N 0%nat)) as G0. pose proof (same_getitem _ _ 0 (N 1%nat)) as G1.
  destruct (getitem (nth 0 T []) 0), (getitem (nth 0 T' []) 0); try tauto; cbn [bind]; [|now subst].
  destruct (getitem (nth 1 T []) 0), (getitem (nth 1 T' []) 0); try tauto; cbn [bind]; [|now subst].
  now rewrite (fpfind_same fuel M _ _ _ _ _ _ _ _ R (N 0%nat) (N 1%nat)).
Qed.

(** ** Both clocks moved *)
Definition later (c : Z) (evs : list event) : list event := map (fun e => (fst e + c, snd e)) evs.
Lemma from_shift c s ts : from (s + c)%Q (map (fun t => t + c)%Q ts) = map (fun t => t + c)%Q (from s ts).
Proof.
  unfold from. rewrite filter_map. f_equal. apply filter_ext. intros t. apply Qle_bool_cong. split; intros H; lra.
Qed.
Lemma device_bits b b' t : b <= b' -> device_time b t -> device_time b' t.
Proof.
  intros H (k & E & K). exists k. split; [exact E|]. split; [lia|].
  destruct (Z_lt_le_dec b 0) as [N|N]; [rewrite (Z.pow_neg_r 2 b) in K by assumption; lia|].
  assert (2 ^ b <= 2 ^ b') by (apply Z.pow_le_mono_r; lia). lia.
Qed.
Lemma same_trans a b c : same_values a b -> same_values b c -> same_values a c.
Proof. intros H. revert c. induction H as [|x y a b E S IH]; intros c K; inv K; constructor; [etransitivity; eassumption|now apply IH]. Qed.
Lemma same_sym a b : same_values a b -> same_values b a.
Proof. induction 1; constructor; [now symmetry|assumption]. Qed.
Lemma largest_max m m' l : largest m l -> largest m' l -> (m == m')%Q.
Proof. intros [I B] [I' B']. apply Qle_antisym; auto. Qed.
Lemma from_eq s s' ts : (s == s')%Q -> from s ts = from s' ts.
Proof. intros E. unfold from. apply filter_ext. intros t. apply Qle_bool_cong. now rewrite E. Qed.
Lemma read_times_values p lg evs : 54 <= p -> Forall event_ok evs -> exists t ps,
  read_a1 p (encode (A1 lg) (map word_of evs)) lg NS1 true = Ok (t, ps) /\ same_values (tvalues t) (map (fun e => inject_Z (fst e) / 256)%Q evs).
Proof.
  intros P O. rewrite read_a1_encode by now apply words_of_ok. unfold out, raw_t. cbn [format_timestamps]. eexists. eexists. split; [reflexivity|].
  cbn [tvalues]. rewrite !map_map. clear -P O. induction O as [|e evs E O IH]; cbn [map]; constructor; [|exact IH].
  rewrite (proj1 (time_word e E)). destruct E as [E _].
  rewrite (fl_eq p _ (in_units NS1 (fst e))); [|rewrite (fl_time p (fst e) P E); apply in_units_div].
  rewrite fl_units by assumption. unfold in_units. cbn [rvalue]. rewrite Z.mul_1_r. reflexivity.
Qed.
Lemma event_device evs : Forall event_ok evs -> Forall (device_time 54) (map (fun e => inject_Z (fst e) / 256)%Q evs).
Proof.
  intros O. apply Forall_map. eapply Forall_impl; [|exact O]. intros e [E _]. exists (fst e). split; [reflexivity|assumption].
Qed.
Lemma device_same b l l' : same_values l l' -> Forall (device_time b) l' -> Forall (device_time b) l.
Proof.
  induction 1 as [|x y l l' E S IH]; intros F; inv F; constructor; [|now apply IH].
  destruct H1 as (k & K & B). exists k. split; [now rewrite E|assumption].
Qed.
Lemma device_add b c x y : 0 <= b < c -> device_time b x -> device_time b y -> device_time c (x + y).
Proof.
  intros C (i & I & IB) (j & J & JB). exists (i + j). split; [rewrite I, J, inject_Z_plus; field|].
  assert (2 ^ (b + 1) <= 2 ^ c) by (apply Z.pow_le_mono_r; lia). rewrite Z.pow_add_r in H by lia. lia.
Qed.
(** arrays of device times and the same moved by [c] *)
Lemma normalize_shift p T T' skip n c : 63 <= p -> T <> [] -> Forall (fun ts => ts <> []) T ->
  Forall (Forall (device_time 54)) T -> Forall (Forall (device_time 54)) T' -> (fl 53 (skip * 1000000000) == n)%Q -> device_time 62 n ->
  Forall2 (fun ts ts' => same_values ts' (map (fun t => t + c)%Q ts)) T T' ->
  exists R R', normalize_timestamps (fl p) (fl 53) T skip true = Ok R /\ normalize_timestamps (fl p) (fl 53) T' skip true = Ok R' /\
    Forall2 same_values R R'.
Proof.
  intros P NE NS D D' N DN S.
  assert (NE' : T' <> []) by (inv S; congruence).
  assert (NS' : Forall (fun ts => ts <> []) T').
  { clear -NS S. induction S as [|x y T T' E S IH]; inv NS; constructor; [|now apply IH]. intros ->. inv E. destruct x; [congruence|discriminate]. }
  assert (MX : forall X, Forall (fun ts => ts <> []) X -> Forall (Forall (device_time 54)) X ->
    forall m, largest m (map (fun ts => hd 0%Q ts) X) -> device_time 63 (m + n)).
  { intros X XN XD m [I _]. apply in_map_iff in I. destruct I as (ts & <- & I). rewrite Forall_forall in XN, XD. specialize (XN ts I). specialize (XD ts I).
    destruct ts as [|x ts]; [congruence|]. cbn [hd]. inv XD. apply (device_add 62); [lia| |exact DN]. eapply device_bits; [|eassumption]. lia. }
  assert (W : forall X, Forall (Forall (device_time 54)) X -> Forall (Forall (device_time 63)) X).
  { intros X. apply Forall_impl. intros l. apply Forall_impl. intros t. apply device_bits. lia. }
  destruct (c45_exact 63 p T skip n) as (m & R & L & E & V); try assumption; try lia; [now apply W|now apply MX|].
  destruct (c45_exact 63 p T' skip n) as (m' & R' & L' & E' & V'); try assumption; try lia; [now apply W|now apply MX|].
  exists R, R'. split; [exact E|]. split; [exact E'|].
  assert (M : (m' == m + c)%Q).
  { assert (HS : Forall2 (fun x y => y == x + c)%Q (map (fun ts => hd 0%Q ts) T) (map (fun ts => hd 0%Q ts) T')).
    { clear -S NS. induction S as [|x y T T' E S IH]; inv NS; cbn [map]; constructor; [|now apply IH].
      destruct x as [|x0 x]; [congruence|]. inv E. cbn [hd]. assumption. }
    destruct L as [I B], L' as [I' B']. revert HS. generalize dependent (map (fun ts => hd 0%Q ts) T). generalize dependent (map (fun ts => hd 0%Q ts) T').
    intros l' I' B' l I B HS. apply Qle_antisym.
    - assert (exists x, In x l /\ (m' == x + c)%Q) as (x & X & Y).
      { clear -HS I'. induction HS as [|x y l l' E S IH]; [destruct I'|]. destruct I' as [<-|I']; [exists x; split; [now left|exact E]|].
        destruct (IH I') as (z & Z1 & Z2). exists z. split; [now right|exact Z2]. }
      specialize (B x X). lra.
    - assert (exists y, In y l' /\ (y == m + c)%Q) as (y & X & Y).
      { clear -HS I. induction HS as [|x y l l' E S IH]; [destruct I|]. destruct I as [<-|I]; [exists y; split; [now left|exact E]|].
        destruct (IH I) as (z & Z1 & Z2). exists z. split; [now right|exact Z2]. }
      specialize (B' y X). lra. }
  clear -S V V' M. revert R R' V V'. induction S as [|x y T T' E S IH]; intros R R' V V'; cbn [map] in *; inv V; inv V'; constructor; [|now apply IH].
  eapply same_trans; [eassumption|]. apply same_sym. eapply same_trans; [eassumption|]. clear -E M.
  assert (F : same_values (from (m' + n)%Q y) (map (fun t => t + c)%Q (from (m + n)%Q x))).
  { rewrite (from_eq (m' + n) ((m + n) + c)) by (rewrite M; ring). rewrite <- from_shift. clear M.
    revert E. generalize (map (fun t => t + c)%Q x) as w. intros w E.
    induction E as [|u v y w E S IH]; cbn [from filter]; [constructor|].
    rewrite (Qle_bool_cong ((m + n) + c) u ((m + n) + c) v) by now rewrite E.
    destruct (Qle_bool ((m + n) + c) v); [constructor; [exact E|exact IH]|exact IH]. }
  revert F. generalize (from (m' + n)%Q y) as u, (from (m + n)%Q x) as v. intros u v. revert u.
  induction v as [|b v IH]; intros u F; inv F; cbn [map]; constructor; [rewrite H2, M; ring|now apply IH].
Qed.
Lemma later_values c evs : same_values (map (fun e => inject_Z (fst e) / 256)%Q (later c evs)) (map (fun t => t + inject_Z c / 256)%Q (map (fun e => inject_Z (fst e) / 256)%Q evs)).
Proof.
  unfold later. rewrite !map_map. apply same_map. intros e _. cbn [fst]. rewrite inject_Z_plus. field.
Qed.
Lemma c80 fuel M p repr o lg skip n c evA evB : 63 <= p -> rt M = fl p -> rs M = fl 53 ->
  Forall event_ok evA -> Forall event_ok evB -> Forall event_ok (later c evA) -> Forall event_ok (later c evB) ->
  (fl 53 (skip * 1000000000) == n)%Q -> device_time 62 n ->
  let file evs := encode (A1 lg) (map word_of evs) in
  main_files fuel M p repr o (file evA) (file evB) lg skip = main_files fuel M p repr o (file (later c evA)) (file (later c evB)) lg skip.
Proof.
  intros P RT RS A B A' B' N DN. cbv zeta. unfold main_files. destruct (bins o) as [k|]; [|reflexivity]. cbn [bind].
  assert (P54 : 54 <= p) by lia.
  destruct (read_times_values p lg evA P54 A) as (a & pa & EA & VA). destruct (read_times_values p lg evB P54 B) as (b & pb & EB & VB).
  destruct (read_times_values p lg _ P54 A') as (a' & pa' & EA' & VA'). destruct (read_times_values p lg _ P54 B') as (b' & pb' & EB' & VB').
  rewrite EA, EB, EA', EB'. cbn [bind].
  assert (DA := device_same 54 _ _ VA (event_device _ A)). assert (DB := device_same 54 _ _ VB (event_device _ B)).
  assert (DA' := device_same 54 _ _ VA' (event_device _ A')). assert (DB' := device_same 54 _ _ VB' (event_device _ B')).
  assert (SH : forall x x' evs, same_values x (map (fun e => inject_Z (fst e) / 256)%Q evs) -> same_values x' (map (fun e => inject_Z (fst e) / 256)%Q (later c evs)) ->
    same_values x' (map (fun t => t + inject_Z c / 256)%Q x)).
  { intros x x' evs X X'. eapply same_trans; [exact X'|]. eapply same_trans; [apply later_values|]. apply same_sym.
    clear -X. revert x X. generalize (map (fun e : event => (inject_Z (fst e) / 256)%Q) evs) as y. intros y x X. induction X as [|u v x y E S IH]; cbn [map]; constructor; [now rewrite E|exact IH]. }
  pose proof (SH _ _ _ VA VA') as SA. pose proof (SH _ _ _ VB VB') as SB. clear SH.
  destruct (tvalues a) as [|a0 ta] eqn:TA.
  { inv SA. unfold search_and_print, normalize_timestamps. cbn [bind mapM getitem]. reflexivity. }
  destruct (tvalues b) as [|b0 tb] eqn:TB.
  { inv SB. inv SA. unfold search_and_print, normalize_timestamps. cbn [bind mapM]. unfold getitem. reflexivity. }
  rewrite <- TA, <- TB in *.
  destruct (normalize_shift p [tvalues a; tvalues b] [tvalues a'; tvalues b'] skip n (inject_Z c / 256)%Q P) as (R & R' & E & E' & S);
    try assumption; try discriminate; repeat (constructor; try assumption; try (rewrite TA || rewrite TB; discriminate)).
  apply (search_same fuel M repr o k _ _ _ _ skip skip R R'); rewrite ?RT, ?RS; try assumption. intros x y XY. apply fl_eq. exact XY.
Qed.
