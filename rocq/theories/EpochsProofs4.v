(** T2 and T4 files. *)
From Coq Require Import QArith Lqa ZifyBool.
From Verif Require Import Float Base TimestampsModel TimestampsSpec EpochsModel EpochsSpec EpochsStatements EpochsProofs EpochsProofs2 EpochsProofs3.
Local Open Scope Z_scope.
Ltac Zify.zify_post_hook ::= Z.div_mod_to_equations.

Lemma T2_header_ok tag e n timeorder basebits protocol body :
  1 <= timeorder <= 2 ^ 31 - 1 -> 0 <= basebits <= 2 ^ 31 - 1 ->
  exists w, read_T2_header [] (t2_header tag e n timeorder basebits protocol ++ body) =
    Ok (mkHead (s32 tag) (e mod 2 ^ 32) (n mod 2 ^ 32) timeorder basebits (s32 protocol), w).
Proof.
  intros T B. eexists. unfold read_T2_header.
  rewrite take_app_exact by (unfold t2_header; autorewrite with lens; rewrite !le_enc_len; reflexivity).
  unfold unpack. replace (len (t2_header tag e n timeorder basebits protocol)) with 24
    by (unfold t2_header; autorewrite with lens; rewrite !le_enc_len; reflexivity).
  change (24 =? 4 * len [true; false; false; true; true; true]) with true. cbv iota. cbn [bind].
  unfold t2_header. rewrite !fields_cons. rewrite <- (app_nil_r (le_enc 4 protocol)), fields_cons.
  rewrite (s32_small timeorder), (s32_small basebits) by lia. reflexivity.
Qed.
Lemma T4_header_ok tag e n timeorder basebits body :
  0 <= timeorder < 2 ^ 32 -> 0 <= basebits < 2 ^ 32 ->
  exists w, read_T4_header [] (t4_header tag e n timeorder basebits ++ body) =
    Ok (mkHead (tag mod 2 ^ 32) (e mod 2 ^ 32) (n mod 2 ^ 32) timeorder basebits 0, w).
Proof.
  intros T B. eexists. unfold read_T4_header.
  rewrite take_app_exact by (unfold t4_header; autorewrite with lens; rewrite !le_enc_len; reflexivity).
  unfold unpack. replace (len (t4_header tag e n timeorder basebits)) with 20
    by (unfold t4_header; autorewrite with lens; rewrite !le_enc_len; reflexivity).
  change (20 =? 4 * len [false; false; false; false; false]) with true. cbv iota. cbn [bind].
  unfold t4_header. rewrite !fields_cons. rewrite <- (app_nil_r (le_enc 4 basebits)), fields_cons.
  rewrite (Z.mod_small timeorder), (Z.mod_small basebits) by lia. reflexivity.
Qed.
Lemma T2_drop tag e n timeorder basebits protocol body :
  drop 24 (t2_header tag e n timeorder basebits protocol ++ body) = body.
Proof. apply drop_app_exact. unfold t2_header; autorewrite with lens; rewrite !le_enc_len; reflexivity. Qed.
Lemma T4_drop tag e n timeorder basebits body : drop 20 (t4_header tag e n timeorder basebits ++ body) = body.
Proof. apply drop_app_exact. unfold t4_header; autorewrite with lens; rewrite !le_enc_len; reflexivity. Qed.
Lemma sums_length ds : forall t, length (sums t ds) = length ds.
Proof. induction ds; intros; cbn; auto. Qed.
Lemma fsums_length ds : forall t, length (fsums t ds) = length ds.
Proof. induction ds; intros; cbn [fsums length]; auto. Qed.

(** ** Any file with a usable header *)
Lemma T2_any fuel tag e n timeorder basebits protocol body full r fr :
  bytes_ok body -> 1 <= timeorder <= 32 -> 0 <= basebits <= 32 ->
  read_T2 fuel (t2_header tag e n timeorder basebits protocol ++ body) full r fr =
    let* xs := decode fuel body timeorder basebits 0 in
    if negb (n mod 2 ^ 32 =? 0) && negb (len xs =? n mod 2 ^ 32) then Err ValueError
    else let* t := t2_convert (e mod 2 ^ 32) (fsums (inject_Z ((e mod 2 ^ 17) * 2 ^ 32)) (map e_diff xs)) full r fr in
         Ok (t, map e_base xs).
Proof.
  intros B T BB. unfold read_T2.
  destruct (T2_header_ok tag e n timeorder basebits protocol body) as [w E]; [lia|lia|]. rewrite E. cbn [bind].
  cbn [h_epoch h_timeorder h_basebits h_length]. rewrite T2_drop.
  rewrite (t2_decode body timeorder basebits B T BB fuel 0) by apply St_0.
  rewrite land_low by lia. rewrite mod_mod_pow by lia. rewrite Z.shiftl_mul_pow2 by lia.
  destruct (decode fuel body timeorder basebits 0) as [xs|x]; cbn [bind]; [|reflexivity].
  replace (len (fsums (inject_Z ((e mod 2 ^ 17) * 2 ^ 32)) (map e_diff xs))) with (len xs); [reflexivity|].
  unfold len. now rewrite fsums_length, map_length.
Qed.
Lemma T4_any fuel tag e n timeorder basebits body :
  bytes_ok body -> 1 <= timeorder <= 32 -> 0 <= basebits <= 32 ->
  read_T4 fuel (t4_header tag e n timeorder basebits ++ body) =
    let* xs := decode fuel body timeorder basebits 0 in
    if negb (n mod 2 ^ 32 =? 0) && negb (len xs =? n mod 2 ^ 32) then Err ValueError
    else Ok (sums 0 (map (fun x => e_diff x - 2) xs), map e_base xs).
Proof.
  intros B T BB. unfold read_T4.
  destruct (T4_header_ok tag e n timeorder basebits body) as [w E]; [lia|lia|]. rewrite E. cbn [bind].
  cbn [h_epoch h_timeorder h_basebits h_length]. rewrite T4_drop.
  rewrite (t4_decode body timeorder basebits B T BB fuel 0) by apply St_0.
  destruct (decode fuel body timeorder basebits 0) as [xs|x]; cbn [bind]; [|reflexivity].
  replace (len (sums 0 (map (fun x => e_diff x - 2) xs))) with (len xs); [reflexivity|].
  unfold len. now rewrite sums_length, map_length.
Qed.
Lemma starts_from body l : starts_with body l <-> bits_from body 0 l.
Proof. unfold starts_with, bits_from. split; intros H i I; [rewrite Z.add_0_l|rewrite <- (H i I), Z.add_0_l]; auto. Qed.
Lemma decode_encoded body timeorder basebits xs k : bytes_ok body -> 1 <= timeorder <= 32 -> 0 <= basebits <= 32 ->
  Forall (entry_ok timeorder basebits) xs ->
  starts_with body (entries_bits timeorder basebits xs ++ terminator timeorder basebits) ->
  decode (S (length xs) + k) body timeorder basebits 0 = Ok xs.
Proof.
  intros B T BB F H. apply (proj1 (starts_from _ _)) in H. unfold terminator in H.
  pose proof (decode_term body timeorder basebits T BB xs 0 (bits basebits 0) F H k) as D. cbn zeta in D. rewrite D.
  rewrite app_assoc in H. apply bits_from_app in H. destruct H as [_ H]. rewrite len_app, len_bits in H by lia.
  apply bits_field in H; [|lia|apply zero_ok; lia]. rewrite Z.add_assoc in H. now rewrite H.
Qed.

(** ** Exact sums *)
Lemma sums_nonneg ds : forall t, 0 <= t -> Forall (fun d => 0 <= d) ds -> Forall (fun s => t <= s) (sums t ds).
Proof.
  induction ds as [|d ds IH]; intros t T F; cbn [sums]; inv F; constructor; [lia|].
  eapply Forall_impl; [|apply IH; [lia|assumption]]. cbn beta. intros; lia.
Qed.
Lemma fsums_exact ds : forall t q, (q == inject_Z t)%Q -> 0 <= t -> Forall (fun d => 0 <= d) ds ->
  Forall (fun s => s < 2 ^ 53) (sums t ds) -> Forall2 (fun x v => x == inject_Z v)%Q (fsums q ds) (sums t ds).
Proof.
  induction ds as [|d ds IH]; intros t q E T F L; cbn [sums fsums]; inv F; inv L; constructor.
  - assert (X : (q + inject_Z d == inject_Z (t + d))%Q) by (rewrite E, inject_Z_plus; reflexivity).
    rewrite (fl_eq 53 _ _ X). apply fl_int; lia.
  - apply IH; try assumption; [|lia].
    assert (X : (q + inject_Z d == inject_Z (t + d))%Q) by (rewrite E, inject_Z_plus; reflexivity).
    rewrite (fl_eq 53 _ _ X). apply fl_int; lia.
Qed.
Lemma sums_shift c ds : forall t, sums (t + c) ds = map (fun s => s + c) (sums t ds).
Proof.
  induction ds as [|d ds IH]; intros t; cbn [sums map]; [reflexivity|].
  replace (t + c + d) with (t + d + c) by lia. now rewrite IH.
Qed.
Lemma entry_diff_nonneg timeorder basebits xs : Forall (entry_ok timeorder basebits) xs -> Forall (fun d => 0 <= d) (map e_diff xs).
Proof. intros H. apply Forall_map. eapply Forall_impl; [|exact H]. intros [d b|d b] [_ K]; cbn [e_diff]; lia. Qed.
Lemma units125_pow r v : (in_units125 r v == inject_Z v * pow2 (rlog r - 3))%Q.
Proof.
  unfold in_units125. rewrite inject_Z_mult. unfold Qdiv. rewrite <- Qmult_assoc. apply Qmult_comp; [reflexivity|].
  destruct r; reflexivity.
Qed.
Lemma scale_ld_8 r x v : (x == inject_Z v)%Q -> Z.abs v <= 2 ^ 64 -> (scale_ld 8 r x == in_units125 r v)%Q.
Proof.
  intros E A. change 8 with (2 ^ 3). rewrite (scale_ld_pow 3 r x v 0); [|rewrite E; change (pow2 0) with 1%Q; ring|lia|lia].
  rewrite units125_pow. reflexivity.
Qed.
Lemma full_split e : 0 <= e < 2 ^ 32 -> e * 2 ^ 32 = (e mod 2 ^ 17) * 2 ^ 32 + e / 2 ^ 17 * 2 ^ 49.
Proof. intros. lia. Qed.
Lemma to_uint64_exact x v : (x == inject_Z v)%Q -> 0 <= v < 2 ^ 64 -> to_uint64 x = Ok v.
Proof.
  intros E R. unfold to_uint64. fold (qtrunc x). rewrite (qtrunc_int x v E).
  replace ((0 <=? v) && (v <? 2 ^ 64)) with true by lia. reflexivity.
Qed.

Lemma same_refl (l : list Q) : same_values l l.
Proof. induction l; constructor; [reflexivity|assumption]. Qed.
Lemma convert_t2 e (r : TSRES) full fr qs vs : 0 <= e < 2 ^ 32 ->
  Forall2 (fun x v => x == inject_Z v)%Q qs vs -> Forall (fun v => 0 <= v < 2 ^ 53) vs ->
  (full = true -> Forall (fun v => v + e / 2 ^ 17 * 2 ^ 49 < 2 ^ 64) vs) ->
  (fr = true \/ r <> PS4 \/ vs = []) ->
  exists T, t2_convert e qs full r fr = Ok T /\
    same_values (evalues T)
      (map (fun t => if fr then in_units125 r t else inject_Z (floor125 r t))
         (map (fun v => if full then v + e / 2 ^ 17 * 2 ^ 49 else v) vs)).
Proof.
  intros HE F R U C. unfold t2_convert. rewrite Z.shiftr_div_pow2 by lia.
  set (m := e / 2 ^ 17) in *. assert (M : 0 <= m < 2 ^ 15) by (subst m; lia). clearbody m. clear HE.
  destruct fr.
  - clear C. eexists; split; [reflexivity|]. cbn [evalues].
    assert (EM : (scale_ld 8 r (inject_Z (Z.shiftl m 49)) == in_units125 r (m * 2 ^ 49))%Q).
    { rewrite Z.shiftl_mul_pow2 by lia. apply scale_ld_8; [reflexivity|lia]. }
    revert R U. induction F as [|x v qs vs E F IH]; intros R U; [destruct full; constructor|].
    assert (R1 := Forall_inv R). apply Forall_inv_tail in R. cbn beta in R1.
    assert (U2 : full = true -> Forall (fun v => v + m * 2 ^ 49 < 2 ^ 64) vs)
      by (intros Y; exact (Forall_inv_tail (U Y))).
    specialize (IH R U2). pose proof (scale_ld_8 r x v E ltac:(lia)) as EX.
    destruct full; cbn [map]; constructor; try exact IH; [|exact EX].
    assert (U1 := Forall_inv (U eq_refl)). cbn beta in U1.
    assert (X : (scale_ld 8 r x + scale_ld 8 r (inject_Z (Z.shiftl m 49)) == inject_Z (v + m * 2 ^ 49) * pow2 (rlog r - 3))%Q).
    { rewrite EX, EM, !units125_pow, inject_Z_plus. ring. }
    rewrite (fl_eq 64 _ _ X). rewrite fl_exact by lia. rewrite units125_pow. reflexivity.
  - assert (M1 : mapM to_uint64 qs = Ok vs).
    { clear C U. revert R. induction F as [|x v qs vs E F IH]; intros R; [reflexivity|].
      assert (R1 := Forall_inv R). apply Forall_inv_tail in R. cbn beta in R1. cbn [mapM].
      rewrite (to_uint64_exact x v E) by lia. cbn [bind]. rewrite (IH R). reflexivity. }
    destruct vs as [|v0 vs0] eqn:EV.
    + inv F. destruct r; destruct full; (eexists; split; [reflexivity|constructor]).
    + rewrite <- EV in *. assert (NE : vs <> []) by (rewrite EV; discriminate). clear EV v0 vs0.
      assert (NP : r <> PS4) by (destruct C as [C|[C|C]]; [discriminate|exact C|contradiction]).
      rewrite M1. cbn [bind].
      assert (R8 : (8 <? rvalue r) = false) by (destruct r; [reflexivity..|contradiction]). rewrite R8.
      eexists; split; [reflexivity|]. cbn [evalues].
      assert (G : (if full
        then map (fun v => u64 (v + u64 (Z.shiftl m (49 - bitdiff 8 (rvalue r))))) (map (fun v => Z.shiftr v (bitdiff 8 (rvalue r))) vs)
        else map (fun v => Z.shiftr v (bitdiff 8 (rvalue r))) vs) =
        map (fun t => floor125 r t) (map (fun v => if full then v + m * 2 ^ 49 else v) vs)).
      { clear M1 NE F C. assert (BD : bitdiff 8 (rvalue r) = 3 /\ rvalue r = 1 \/ bitdiff 8 (rvalue r) = 0 /\ rvalue r = 8)
          by (destruct r; [left|right|contradiction]; split; reflexivity).
        unfold floor125. destruct full; rewrite !map_map; apply map_ext_in; intros v I;
          assert (Rv := proj1 (Forall_forall _ _) R v I); cbn beta in Rv; destruct BD as [[-> ->]|[-> ->]];
          rewrite ?Z.shiftr_div_pow2, ?Z.shiftl_mul_pow2 by lia; unfold u64;
          try (assert (Uv := proj1 (Forall_forall _ _) (U eq_refl) v I); cbn beta in Uv); lia. }
      rewrite G. rewrite !map_map. apply same_refl.
Qed.

(** ** C36, C38 *)
Lemma same_shift (g : Z -> Q) l : same_values (map g l) (map g l).
Proof. apply same_refl. Qed.
Lemma n_check n (xs : list entry) : n = 0 \/ n = len xs /\ n < 2 ^ 32 ->
  negb (n mod 2 ^ 32 =? 0) && negb (len xs =? n mod 2 ^ 32) = false.
Proof. intros [-> | [-> H]]; [reflexivity|]. pose proof (len_nonneg xs). rewrite Z.mod_small by lia. lia. Qed.
Lemma t2_full_shift e xs : 0 <= e < 2 ^ 32 -> t2_full_times e xs = map (fun v => v + e / 2 ^ 17 * 2 ^ 49) (t2_times e xs).
Proof. intros H. unfold t2_full_times, t2_times. rewrite (full_split e H). apply sums_shift. Qed.
Lemma read_T2_encoded file e timeorder basebits xs full r fr :
  1 <= timeorder <= 32 -> 0 <= basebits <= 32 -> 0 <= e < 2 ^ 32 -> t2_encodes file e timeorder basebits xs ->
  forall fuel, (length xs < fuel)%nat -> read_T2 fuel file full r fr =
    let* t := t2_convert e (fsums (inject_Z ((e mod 2 ^ 17) * 2 ^ 32)) (map e_diff xs)) full r fr in Ok (t, map e_base xs).
Proof.
  intros T BB HE (tag & n & pr & body & -> & B & N & F & W) fuel L.
  rewrite T2_any by assumption.
  pose proof (decode_encoded body timeorder basebits xs (fuel - S (length xs)) B T BB F W) as D.
  replace (S (length xs) + (fuel - S (length xs)))%nat with fuel in D by lia. rewrite D. cbn [bind].
  rewrite n_check by assumption. now rewrite (Z.mod_small e) by lia.
Qed.
Lemma c38 file e timeorder basebits xs full r fr :
  1 <= timeorder <= 32 -> 0 <= basebits <= 32 -> 0 <= e < 2 ^ 32 -> t2_encodes file e timeorder basebits xs ->
  (full = true -> Forall (fun t => t < 2 ^ 64) (t2_full_times e xs)) -> t2_bounded e xs ->
  fr = true \/ r <> PS4 \/ xs = [] -> t2_result file e xs full r fr.
Proof.
  intros T BB HE EN U TB C.
  pose proof (read_T2_encoded file e timeorder basebits xs full r fr T BB HE EN) as R.
  assert (F : Forall (fun d => 0 <= d) (map e_diff xs)).
  { destruct EN as (tag & n & pr & body & _ & _ & _ & F & _). eapply entry_diff_nonneg; eassumption. }
  assert (S0 : 0 <= e mod 2 ^ 17 * 2 ^ 32) by lia.
  destruct (convert_t2 e r full fr (fsums (inject_Z (e mod 2 ^ 17 * 2 ^ 32)) (map e_diff xs)) (t2_times e xs)) as (A & E1 & E2).
  - assumption.
  - apply fsums_exact; [reflexivity|exact S0|exact F|exact TB].
  - pose proof (sums_nonneg _ _ S0 F) as P. apply Forall_forall. intros v I.
    assert (X := proj1 (Forall_forall _ _) P v I). assert (Y := proj1 (Forall_forall _ _) TB v I). cbn beta in X, Y. lia.
  - intros Y. specialize (U Y). rewrite t2_full_shift in U by assumption. apply Forall_map in U. exact U.
  - destruct C as [C|[C|C]]; auto. right; right. subst xs. reflexivity.
  - exists A. split.
    + intros fuel L. rewrite R by assumption. rewrite E1. reflexivity.
    + replace (if full then t2_full_times e xs else t2_times e xs)
        with (map (fun v => if full then v + e / 2 ^ 17 * 2 ^ 49 else v) (t2_times e xs)); [exact E2|].
      destruct full; [now rewrite t2_full_shift|apply map_id].
Qed.
Lemma c38_ps4 file e timeorder basebits xs full :
  1 <= timeorder <= 32 -> 0 <= basebits <= 32 -> 0 <= e < 2 ^ 32 -> t2_encodes file e timeorder basebits xs ->
  xs <> [] -> forall fuel, (length xs < fuel)%nat -> read_T2 fuel file full PS4 false = Err TypeError.
Proof.
  intros T BB HE EN NE fuel L. rewrite (read_T2_encoded file e timeorder basebits xs full PS4 false T BB HE EN fuel L).
  destruct xs; [contradiction|]. reflexivity.
Qed.
Lemma c36 file e timeorder basebits xs :
  1 <= timeorder <= 32 -> 0 <= basebits <= 32 -> 0 <= e < 2 ^ 32 -> t2_encodes file e timeorder basebits xs ->
  t2_bounded e xs ->
  exists T, (forall fuel, (length xs < fuel)%nat -> read_T2 fuel file false PS125 false = Ok (T, map e_base xs)) /\
    same_values (evalues T) (map inject_Z (t2_times e xs)).
Proof.
  intros T BB HE EN TB.
  destruct (c38 file e timeorder basebits xs false PS125 false T BB HE EN ltac:(discriminate) TB ltac:(right; left; discriminate))
    as (A & E1 & E2).
  exists A. split; [exact E1|]. cbv iota in E2.
  replace (map inject_Z (t2_times e xs)) with (map (fun t => inject_Z (floor125 PS125 t)) (t2_times e xs)); [exact E2|].
  apply map_ext. intros t. f_equal. unfold floor125. cbn [rvalue]. apply Z.div_mul. discriminate.
Qed.

(** ** C39 *)
Lemma c39 file timeorder basebits xs :
  1 <= timeorder <= 32 -> 0 <= basebits <= 32 -> t4_encodes file timeorder basebits xs ->
  forall fuel, (length xs < fuel)%nat ->
    read_T4 fuel file = Ok (sums 0 (map (fun x => e_diff x - 2) xs), map e_base xs).
Proof.
  intros T BB (tag & e & n & body & -> & B & N & F & W) fuel L.
  rewrite T4_any by assumption.
  pose proof (decode_encoded body timeorder basebits xs (fuel - S (length xs)) B T BB F W) as D.
  replace (S (length xs) + (fuel - S (length xs)))%nat with fuel in D by lia. rewrite D. cbn [bind].
  now rewrite n_check by assumption.
Qed.

(** ** C37 *)
Lemma convert_no_fuel e ts full r fr : t2_convert e ts full r fr <> Err OutOfFuel.
Proof.
  unfold t2_convert. destruct fr; [discriminate|]. destruct (8 <? rvalue r).
  - destruct ts; discriminate.
  - assert (H : mapM to_uint64 ts <> Err OutOfFuel).
    { induction ts as [|x ts IH]; cbn [mapM]; [discriminate|]. unfold to_uint64 at 1.
      destruct (_ && _); cbn [bind]; [|discriminate]. destruct (mapM to_uint64 ts); cbn [bind]; [discriminate|].
      intros X. apply IH. congruence. }
    destruct (mapM to_uint64 ts); cbn [bind]; [discriminate|]. intros X. apply H. congruence.
Qed.
Lemma c37_T2_stops tag e n timeorder basebits protocol body full r fr :
  1 <= timeorder <= 32 -> 0 <= basebits <= 32 -> bytes_ok body -> has_terminator body timeorder basebits ->
  exists res, res <> Err OutOfFuel /\ forall fuel, 8 * len body + 32 <= Z.of_nat fuel ->
    read_T2 fuel (t2_header tag e n timeorder basebits protocol ++ body) full r fr = res.
Proof.
  intros T BB B H. destruct (decode_enough body timeorder basebits T BB H) as (d & D1 & D2).
  exists (let* xs := d in
    if negb (n mod 2 ^ 32 =? 0) && negb (len xs =? n mod 2 ^ 32) then Err ValueError
    else let* t := t2_convert (e mod 2 ^ 32) (fsums (inject_Z ((e mod 2 ^ 17) * 2 ^ 32)) (map e_diff xs)) full r fr in
         Ok (t, map e_base xs)).
  split.
  - destruct d as [xs|x]; cbn [bind]; [|intros X; apply D1; congruence].
    destruct (_ && _); [discriminate|].
    pose proof (convert_no_fuel (e mod 2 ^ 32) (fsums (inject_Z ((e mod 2 ^ 17) * 2 ^ 32)) (map e_diff xs)) full r fr) as K.
    destruct (t2_convert _ _ _ _ _); cbn [bind]; [discriminate|]. intros X; apply K; congruence.
  - intros fuel L. rewrite T2_any by assumption. now rewrite D2.
Qed.
Lemma c37_T2_loops tag e n timeorder basebits protocol body full r fr :
  1 <= timeorder <= 32 -> 0 <= basebits <= 32 -> bytes_ok body -> ~ has_terminator body timeorder basebits ->
  forall fuel, read_T2 fuel (t2_header tag e n timeorder basebits protocol ++ body) full r fr = Err OutOfFuel.
Proof. intros T BB B H fuel. rewrite T2_any by assumption. now rewrite (decode_forever body timeorder basebits T BB H). Qed.
Lemma c37_T4_stops tag e n timeorder basebits body :
  1 <= timeorder <= 32 -> 0 <= basebits <= 32 -> bytes_ok body -> has_terminator body timeorder basebits ->
  exists res, res <> Err OutOfFuel /\ forall fuel, 8 * len body + 32 <= Z.of_nat fuel ->
    read_T4 fuel (t4_header tag e n timeorder basebits ++ body) = res.
Proof.
  intros T BB B H. destruct (decode_enough body timeorder basebits T BB H) as (d & D1 & D2).
  exists (let* xs := d in
    if negb (n mod 2 ^ 32 =? 0) && negb (len xs =? n mod 2 ^ 32) then Err ValueError
    else Ok (sums 0 (map (fun x => e_diff x - 2) xs), map e_base xs)).
  split.
  - destruct d as [xs|x]; cbn [bind]; [|intros X; apply D1; congruence]. destruct (_ && _); discriminate.
  - intros fuel L. rewrite T4_any by assumption. now rewrite D2.
Qed.
Lemma c37_T4_loops tag e n timeorder basebits body :
  1 <= timeorder <= 32 -> 0 <= basebits <= 32 -> bytes_ok body -> ~ has_terminator body timeorder basebits ->
  forall fuel, read_T4 fuel (t4_header tag e n timeorder basebits ++ body) = Err OutOfFuel.
Proof. intros T BB B H fuel. rewrite T4_any by assumption. now rewrite (decode_forever body timeorder basebits T BB H). Qed.
(** cut anywhere before the terminator starts, and padded with nothing *)
Lemma zeros_no_terminator body timeorder basebits xs : 1 <= timeorder <= 32 -> 0 <= basebits <= 32 ->
  Forall (entry_ok timeorder basebits) xs -> starts_with body (entries_bits timeorder basebits xs) ->
  (forall i, len (entries_bits timeorder basebits xs) <= i -> bit_at body i = false) ->
  ~ has_terminator body timeorder basebits.
Proof.
  intros T BB F W Z0 H. destruct (decode_enough body timeorder basebits T BB H) as (d & D1 & D2).
  apply D1. rewrite <- (D2 (Z.to_nat (8 * len body + 32))) by (pose proof (len_nonneg body); lia).
  apply (decode_zeros body timeorder basebits T BB xs 0 F); [now apply (proj1 (starts_from _ _))|].
  rewrite Z.add_0_l. exact Z0.
Qed.
Lemma T2_short file full r fr fuel : len file < 24 -> read_T2 fuel file full r fr = Err StructError.
Proof.
  intros L. unfold read_T2, read_T2_header, unpack. rewrite take_all by lia.
  replace (len file =? 4 * len [true; false; false; true; true; true]) with false; [reflexivity|].
  change (4 * len [true; false; false; true; true; true]) with 24. lia.
Qed.
Lemma T4_short file fuel : len file < 20 -> read_T4 fuel file = Err StructError.
Proof.
  intros L. unfold read_T4, read_T4_header, unpack. rewrite take_all by lia.
  replace (len file =? 4 * len [false; false; false; false; false]) with false; [reflexivity|].
  change (4 * len [false; false; false; false; false]) with 20. lia.
Qed.
Lemma T2_wide tag e n timeorder basebits protocol body full r fr k :
  33 <= timeorder < 2 ^ 31 -> 0 <= basebits < 2 ^ 31 ->
  read_T2 (S k) (t2_header tag e n timeorder basebits protocol ++ body) full r fr = Err ValueError.
Proof.
  intros T B. unfold read_T2.
  destruct (T2_header_ok tag e n timeorder basebits protocol body) as [w E]; [lia|lia|]. rewrite E. cbn [bind].
  cbn [h_epoch h_timeorder h_basebits h_length t2_loop]. unfold extract_bits, fread.
  replace (0 <? timeorder) with true by lia. cbv iota. replace (0 + 32 - timeorder <? 0) with true by lia. reflexivity.
Qed.
Lemma T4_wide tag e n timeorder basebits body k :
  33 <= timeorder < 2 ^ 32 -> 0 <= basebits < 2 ^ 32 ->
  read_T4 (S k) (t4_header tag e n timeorder basebits ++ body) = Err ValueError.
Proof.
  intros T B. unfold read_T4.
  destruct (T4_header_ok tag e n timeorder basebits body) as [w E]; [lia|lia|]. rewrite E. cbn [bind].
  cbn [h_epoch h_timeorder h_basebits h_length t4_loop]. unfold extract_bits, fread.
  replace (0 <? timeorder) with true by lia. cbv iota. replace (0 + 32 - timeorder <? 0) with true by lia. reflexivity.
Qed.
