(** write_T1 on numpy arrays, read_T1 on every file. *)
From Coq Require Import QArith Lqa ZifyBool Qabs.
From Verif Require Import Float Base TimestampsModel TimestampsSpec TimestampsProofs TimestampsProofs2 EpochsModel EpochsSpec EpochsStatements EpochsProofs EpochsProofs2 EpochsProofs6.
Local Open Scope Z_scope.
Ltac Zify.zify_post_hook ::= Z.div_mod_to_equations.

(** ** C67 *)
Lemma s64_small v : 0 <= v < 2 ^ 63 -> s64 v = v.
Proof. intros. unfold s64. lia. Qed.
Lemma write_event_i64 l e ev : t1_ok e ev -> e mod 2 ^ 17 < 2 ^ 16 ->
  t1_event (WI64 l) ((e mod 2 ^ 17) * 2 ^ 37) (fst ev) (snd ev) = Ok (encode_t1 (t1_word e ev)).
Proof.
  intros O H. rewrite <- (write_event_py l e ev O). destruct O as [O1 O2]. unfold t1_event. rewrite !Z.shiftl_mul_pow2 by lia.
  rewrite (s64_small ((e mod 2 ^ 17) * 2 ^ 37 + fst ev)) by lia.
  rewrite (s64_small (((e mod 2 ^ 17) * 2 ^ 37 + fst ev) * 2 ^ 10)) by lia.
  rewrite s64_small by lia. reflexivity.
Qed.
Lemma write_event_i64_bad l e ev : t1_ok e ev -> 2 ^ 16 <= e mod 2 ^ 17 ->
  t1_event (WI64 l) ((e mod 2 ^ 17) * 2 ^ 37) (fst ev) (snd ev) = Err StructError.
Proof.
  intros [O1 O2] H. unfold t1_event. rewrite !Z.shiftl_mul_pow2 by lia.
  rewrite (s64_small ((e mod 2 ^ 17) * 2 ^ 37 + fst ev)) by lia.
  set (t := (e mod 2 ^ 17) * 2 ^ 37 + fst ev). assert (T : 2 ^ 53 <= t < 2 ^ 54) by lia. clearbody t.
  assert (E : s64 (t * 2 ^ 10) = t * 2 ^ 10 - 2 ^ 64) by (unfold s64; lia). rewrite E.
  assert (F : s64 (t * 2 ^ 10 - 2 ^ 64 + snd ev) = t * 2 ^ 10 - 2 ^ 64 + snd ev) by (unfold s64; lia). rewrite F.
  cbn [bind]. unfold pack_I at 1. rewrite Z.shiftr_div_pow2 by lia.
  replace (0 <=? (t * 2 ^ 10 - 2 ^ 64 + snd ev) / 2 ^ 32) with false by lia. reflexivity.
Qed.
Lemma write_T1_kind e kind evs : wvals kind = map fst evs -> len evs < 2 ^ 32 ->
  write_T1 e kind (DSeq (map snd evs)) =
    let '(out, x) := write_events kind ((e mod 2 ^ 17) * 2 ^ 37) evs in
    Ok (int2epoch (e mod 2 ^ 32), t1_header e (len evs) ++ out, x).
Proof.
  intros K L. unfold write_T1. rewrite K, !land_low by lia. rewrite !len_map, Z.eqb_refl. cbn [bind].
  rewrite pack_header by (split; [apply len_nonneg|exact L]).
  rewrite mod_mod_pow by lia. rewrite Z.shiftl_mul_pow2 by lia. change (32 + 5) with 37.
  rewrite combine_fst_snd, int2epoch_hexs by lia. reflexivity.
Qed.
Lemma c67 e evs : Forall (t1_ok e) evs -> len evs < 2 ^ 32 ->
  write_T1 e (WPy (map fst evs)) (DSeq (map snd evs)) = Ok (int2epoch (e mod 2 ^ 32), t1_file e evs, None) /\
  (e mod 2 ^ 17 < 2 ^ 16 -> write_T1 e (WI64 (map fst evs)) (DSeq (map snd evs)) = Ok (int2epoch (e mod 2 ^ 32), t1_file e evs, None)) /\
  (2 ^ 16 <= e mod 2 ^ 17 -> evs <> [] -> write_T1 e (WI64 (map fst evs)) (DSeq (map snd evs)) =
     Ok (int2epoch (e mod 2 ^ 32), t1_header e (len evs), Some StructError)) /\
  (evs <> [] -> write_T1 e (WU64 (map fst evs)) (DSeq (map snd evs)) =
     Ok (int2epoch (e mod 2 ^ 32), t1_header e (len evs), Some TypeError)).
Proof.
  intros O L. repeat match goal with |- _ /\ _ => split end.
  - rewrite write_T1_seq, int2epoch_hexs by (assumption || lia). reflexivity.
  - intros H. rewrite (write_T1_kind e (WI64 (map fst evs)) evs eq_refl L).
    replace (write_events (WI64 (map fst evs)) (e mod 2 ^ 17 * 2 ^ 37) evs) with (t1_body e evs ++ repeat 0 8, @None exn); [reflexivity|].
    generalize (map fst evs). intros l. unfold t1_body. induction O as [|ev evs' O1 _ IH]; cbn [write_events map concat]; [reflexivity|].
    destruct ev as [t d]. pose proof (write_event_i64 l e (t, d) O1 H) as W. cbn [fst snd] in W.
    rewrite W, <- app_assoc. rewrite <- IH; [reflexivity|]. rewrite len_cons in L. lia.
  - intros H NE. rewrite (write_T1_kind e (WI64 (map fst evs)) evs eq_refl L).
    destruct evs as [|[t d] evs']; [contradiction|]. cbn [write_events].
    pose proof (write_event_i64_bad (map fst ((t, d) :: evs')) e (t, d) (Forall_inv O) H) as W. cbn [fst snd] in W.
    cbn [map fst] in *. rewrite W. now rewrite app_nil_r.
  - intros NE. rewrite (write_T1_kind e (WU64 (map fst evs)) evs eq_refl L).
    destruct evs as [|[t d] evs']; [contradiction|]. cbn [write_events t1_event bind]. now rewrite app_nil_r.
Qed.
(** what an interrupted write leaves behind is not read as a file *)
Lemma c67_left e (evs : list event) full r fr : 0 < len evs < 2 ^ 32 -> read_T1 (t1_header e (len evs)) full r fr = Err ValueError.
Proof.
  intros L. rewrite <- (app_nil_r (t1_header e (len evs))).
  destruct (read_T1_any (t1_header e (len evs) ++ []) full r fr _ _ (T1_header_ok [] e (len evs) [])) as (n & E & NZ & _).
  cbn zeta in *. rewrite T1_drop in *. destruct n as [|n].
  - rewrite E. cbn [h_length]. rewrite Z.mod_small by lia.
    replace (negb (len evs =? 0) && negb (Z.of_nat 0 =? len evs)) with true by lia. reflexivity.
  - exfalso. apply Forall_inv in NZ. apply NZ. reflexivity.
Qed.

(** ** C68 *)
Lemma c68 file full r fr :
  (len file < 20 -> read_T1 file full r fr = Err StructError) /\
  (20 <= len file ->
    exists h w n, read_T1_header [] file = Ok (h, w) /\
      (forall i, 0 <= i < n -> word_at (drop 20 file) i <> 0) /\ word_at (drop 20 file) n = 0 /\ 0 <= n /\
      let ws := map (fun i => word_at (drop 20 file) (Z.of_nat i)) (seq 0 (Z.to_nat n)) in
      read_T1 file full r fr =
        if negb (h_length h =? 0) && negb (n =? h_length h) then Err ValueError
        else Ok (t1_convert (h_epoch h) (map (fun v => v / 2 ^ 10) ws) full r fr, map (fun v => v mod 2 ^ 4) ws)).
Proof.
  split; intros L.
  - unfold read_T1, read_T1_header, unpack. rewrite take_all by lia.
    replace (len file =? 4 * len [true; false; false; true; true]) with false; [reflexivity|].
    change (4 * len [true; false; false; true; true]) with 20. lia.
  - assert (H : exists h w, read_T1_header [] file = Ok (h, w)).
    { unfold read_T1_header, unpack. rewrite len_take by lia. replace (Z.min 20 (len file)) with 20 by lia.
      change (20 =? 4 * len [true; false; false; true; true]) with true. cbv iota. cbn [bind]. eexists. eexists. reflexivity. }
    destruct H as (h & w & H). destruct (read_T1_any file full r fr h w H) as (n & E & NZ & Z0). cbn zeta in *.
    exists h, w, (Z.of_nat n). split; [exact H|]. split; [|split; [exact Z0|split; [lia|]]].
    + intros i I. unfold nwords in NZ. rewrite Forall_map in NZ. rewrite Forall_forall in NZ.
      specialize (NZ (Z.to_nat i) ltac:(apply in_seq; lia)). now rewrite Z2Nat.id in NZ by lia.
    + rewrite Nat2Z.id. exact E.
Qed.
(** an event whose word is zero ends the file *)
Lemma c31_zero e evs rest full r fr : Forall (t1_ok e) evs -> Forall (fun ev => t1_word e ev <> 0) evs ->
  e mod 2 ^ 17 = 0 -> len evs + 1 + len rest < 2 ^ 32 -> Forall (t1_ok e) rest ->
  read_T1 (t1_file e (evs ++ (0, 0) :: rest)) full r fr = Err ValueError.
Proof.
  intros O N M L O2. assert (OK : Forall (t1_ok e) (evs ++ (0, 0) :: rest)).
  { apply Forall_app. split; [assumption|]. constructor; [|assumption]. split; cbn [fst snd]; lia. }
  set (all := evs ++ (0, 0) :: rest) in *.
  assert (LA : len all = len evs + 1 + len rest) by (unfold all; rewrite len_app, len_cons; lia).
  unfold t1_file.
  destruct (read_T1_any (t1_header e (len all) ++ t1_body e all ++ repeat 0 8) full r fr _ _ (T1_header_ok [] e (len all) _)) as (n & E & NZ & Z0).
  cbn zeta in *. rewrite T1_drop in *. unfold t1_body in *.
  assert (W : Forall (fun v => 0 <= v < 2 ^ 64) (map (t1_word e) evs)).
  { apply Forall_map. eapply Forall_impl; [|exact O]. intros; now apply t1_word_range. }
  assert (B : concat (map (fun ev => encode_t1 (t1_word e ev)) all) ++ repeat 0 8 =
    concat (map (fun ev => encode_t1 (t1_word e ev)) evs) ++ (repeat 0 8 ++ concat (map (fun ev => encode_t1 (t1_word e ev)) rest) ++ repeat 0 8)).
  { unfold all. rewrite map_app, concat_app. cbn [map concat]. rewrite <- !app_assoc. f_equal.
    replace (encode_t1 (t1_word e (0, 0))) with (repeat 0 8); [reflexivity|].
    unfold t1_word, lsb_time. rewrite M. reflexivity. }
  rewrite B in *. set (tail := concat (map (fun ev => encode_t1 (t1_word e ev)) rest) ++ repeat 0 8) in *.
  destruct (nwords_encode _ (repeat 0 8 ++ tail) W) as [W1 W2]. rewrite map_map, map_length in W1. rewrite map_map in W2.
  assert (n = length evs) as ->.
  { eapply nwords_unique; [exact NZ|exact Z0| |].
    - rewrite W1. now apply Forall_map.
    - specialize (W2 0 ltac:(lia)). rewrite Z.add_0_r, len_map in W2. unfold len in W2. rewrite W2. reflexivity. }
  rewrite E. cbn [h_length]. pose proof (len_nonneg evs). pose proof (len_nonneg rest). rewrite Z.mod_small by lia.
  replace (negb (len all =? 0) && negb (Z.of_nat (length evs) =? len all)) with true; [reflexivity|]. unfold len in *. lia.
Qed.
