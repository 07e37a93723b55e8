From Coq Require Import String Lia.
From Coq Require Import ZifyBool.
From Verif Require Import Base TimestampsModel MiscModel ReportModel LoggersModel LoggersSpec.
Local Open Scope Z_scope.

Lemma same_spec a : forall b, same a b = true <-> a = b.
Proof.
  induction a as [|x a IH]; intros [|y b]; cbn [same]; try (split; [discriminate|discriminate]); [tauto|].
  rewrite andb_true_iff, IH. split; [intros [H ->]; f_equal; lia|]. intros H. injection H as -> ->. split; [lia|reflexivity].
Qed.
Lemma same_refl a : same a a = true.
Proof. now apply same_spec. Qed.
(** a logger with handlers that does not pass on *)
Lemma emit_own isspace W n r lv hs : W n = mkLogger lv hs false -> lv <> 0 -> hs <> [] ->
  emit isspace W n r = if lv <=? r_level r then map (fun h => (goes h, formatted isspace (readable_by_humans h) r)) hs else [].
Proof.
  intros E L H. unfold emit. cbn [first_level all_handlers]. rewrite E. cbn [level handlers propagate]. rewrite app_nil_r.
  replace (lv =? 0) with false by lia. destruct (Z.ltb_spec (r_level r) lv); destruct (Z.leb_spec lv (r_level r)); try lia; [reflexivity|].
  destruct hs; [congruence|reflexivity].
Qed.

(** ** fpfind *)
Lemma wanted_level v : 0 <= v -> verbosity2level v = Ok (wanted v).
Proof.
  intros H. unfold verbosity2level, wanted. change (len [WARNING; INFO; DEBUG] - 1) with 2.
  destruct (Z.eqb_spec v 0) as [->|]; [reflexivity|]. destruct (Z.eqb_spec v 1) as [->|]; [reflexivity|]. replace (Z.min v 2) with 2 by lia. reflexivity.
Qed.
Definition own_handlers (p : option (list Z)) : list handler :=
  mkH Stderr true :: match p with Some p => [mkH (LogFile p) true] | None => [] end.
Definition ready (lv : Z) (p : option (list Z)) (W : registry) : Prop :=
  W FPFIND = mkLogger lv (own_handlers p) false /\ W EPOCHS = mkLogger 30 [mkH Stderr false] false.
Lemma set_up_ready v p q : 0 <= v -> exists W, set_up (mkOptions v p q) = Ok W /\ ready (wanted v) p W.
Proof.
  intros H. unfold set_up. cbn [verbosity logging]. rewrite (wanted_level v H). cbn [bind]. eexists. split; [reflexivity|].
  destruct p as [p|]; split; reflexivity.
Qed.
Lemma root_ready lv p W : ready lv p W -> ready lv p (root_debug W).
Proof. intros [A B]. unfold root_debug. destruct (handlers (W [])); split; assumption. Qed.
Lemma wanted_pos v : wanted v <> 0.
Proof. unfold wanted. destruct (v =? 0), (v =? 1); discriminate. Qed.
Definition both (p : option (list Z)) (t : list Z) : list (stream * list Z) :=
  (Stderr, t) :: match p with Some p => [(LogFile p, t)] | None => [] end.
Lemma speaks_out isspace lv p : lv <> 0 -> forall l W, ready lv p W ->
  speaks isspace W l = flat_map (fun s => match s with
    | Main r => if passes lv r then both p (formatted isspace true r) else []
    | Epochs r => if passes 30 r then [(Stderr, formatted isspace false r)] else []
    | Root => [] end) l.
Proof.
  intros N. induction l as [|s l IH]; intros W R; [reflexivity|]. cbn [speaks flat_map]. destruct s as [r|r|]; cbn [speak].
  - rewrite (IH W R). f_equal. destruct R as [A _]. rewrite (emit_own isspace W FPFIND r _ _ A N) by discriminate. unfold passes.
    destruct (lv <=? r_level r); [|reflexivity]. now destruct p.
  - rewrite (IH W R). f_equal. destruct R as [_ B]. rewrite (emit_own isspace W EPOCHS r _ _ B) by discriminate. reflexivity.
  - apply IH. now apply root_ready.
Qed.
Lemma written_app t a b : written_to t (a ++ b) = written_to t a ++ written_to t b.
Proof. unfold written_to. now rewrite filter_app, map_app. Qed.
Lemma run_out isspace v p q l out : 0 <= v -> run isspace (mkOptions v p q) l = Ok out ->
  written_to Stderr out = flat_map (stderr_texts isspace (wanted v)) l /\
  forall f, p = Some f -> written_to (LogFile f) out = map (formatted isspace true) (flat_map (main_records (wanted v)) l).
Proof.
  intros H R. destruct (set_up_ready v p q H) as (W & S & RD). unfold run in R. rewrite S in R. cbn [bind] in R. injection R as <-.
  rewrite (speaks_out isspace _ p (wanted_pos v) l W RD). clear S RD W. split.
  - induction l as [|s l IH]; [reflexivity|]. cbn [flat_map]. rewrite written_app, IH. f_equal.
    destruct s as [r|r|]; cbn [stderr_texts]; [destruct (passes _ r); [now destruct p|reflexivity]|destruct (passes 30 r); reflexivity|reflexivity].
  - intros f ->. induction l as [|s l IH]; [reflexivity|]. cbn [flat_map]. rewrite written_app, map_app, IH. f_equal.
    destruct s as [r|r|]; cbn [main_records]; [destruct (passes _ r); [|reflexivity]|destruct (passes 30 r); reflexivity|reflexivity].
    unfold both, written_to. cbn [filter is_to fst]. rewrite same_refl. reflexivity.
Qed.
Lemma c156_stderr isspace v p q l out : 0 <= v -> run isspace (mkOptions v p q) l = Ok out -> written_to Stderr out = flat_map (stderr_texts isspace (wanted v)) l.
Proof. intros H R. now destruct (run_out _ _ _ _ _ _ H R). Qed.
Lemma c156_partial isspace v p q l out : 0 <= v -> run isspace (mkOptions v (Some p) q) l = Ok out ->
  written_to (LogFile p) out = map (formatted isspace true) (flat_map (main_records (wanted v)) l).
Proof. intros H R. destruct (run_out _ _ _ _ _ _ H R) as [_ F]. now apply F. Qed.
Definition warn156 : record := mkR 30 (text "20240123_075924") (text "aabbccdd is not a Type2 header file") NoDetails [].
Definition tabs (c : Z) : bool := (c =? 32) || (c =? 9).
Lemma c156_refuted : ~ C156_statement.
Proof.
  intros C. specialize (C tabs 0 (text "log") false [Epochs warn156] _ ltac:(lia) eq_refl (Epochs warn156) warn156 (or_introl eq_refl) (or_introl eq_refl) ltac:(vm_compute; discriminate)).
  destruct C as (human & I). vm_compute in I. exact I.
Qed.
Definition err157 : record := mkR 40 (text "20240123_075924") (text "Timestamp files/epochs must be supplied with -tT/-dD") NoDetails [].
Lemma c157_refuted : ~ C157_statement.
Proof.
  intros C. apply (C tabs 0 None [Main err157] _ ltac:(lia) eq_refl (Main err157) err157 true (or_introl eq_refl) (or_introl eq_refl)); [vm_compute; discriminate|].
  vm_compute. left. reflexivity.
Qed.
Lemma c157_actual isspace v p q l : run isspace (mkOptions v p q) l = run isspace (mkOptions v p false) l.
Proof. reflexivity. Qed.

(** ** get_logger *)
Definition got (n : list Z) (o : option (Z * bool)) (W : registry) : Prop :=
  match o with Some (lv, h) => W n = mkLogger lv [mkH Stderr h] false | None => W n = fresh n end.
Definition track (n : list Z) (o : option (Z * bool)) (c : call) : option (Z * bool) :=
  let '(m, lv, h) := c in if same n m then Some (label2level lv, match o with Some (_, h0) => h0 | None => h end) else o.
Lemma got_step n o W c : got n o W -> got n (track n o c) (let '(m, lv, h) := c in get_logger W m lv h).
Proof.
  destruct c as [[m lv] h]. intros G. unfold got, track, get_logger, set in *. destruct (same n m) eqn:E; [|destruct o as [(a, b)|]; exact G].
  apply same_spec in E. subst m. destruct o as [(a, b)|]; rewrite G; reflexivity.
Qed.
Lemma got_calls n : forall cs o W, got n o W -> got n (fold_left (track n) cs o) (calls W cs).
Proof.
  induction cs as [|c cs IH]; intros o W G; [exact G|]. cbn [fold_left calls]. apply (IH (track n o c)). exact (got_step n o W c G).
Qed.
Lemma same_sym a b : same a b = same b a.
Proof. destruct (same a b) eqn:E; symmetry; [apply same_spec in E as ->; apply same_refl|]. destruct (same b a) eqn:F; [apply same_spec in F as ->; rewrite same_refl in E; discriminate|reflexivity]. Qed.
Lemma last_first {A} (l : list A) : forall x d, last (x :: l) d = last l x.
Proof. induction l as [|y l IH]; intros x d; [reflexivity|]. rewrite (IH y x), <- (IH y d). reflexivity. Qed.
Lemma track_first n : forall cs o, fold_left (track n) cs o =
  match o, for_name n cs with
  | Some (lv, h), l => Some (last (map (fun c => label2level (snd (fst c))) l) lv, h)
  | None, (_, lv, h) :: l => Some (last (map (fun c => label2level (snd (fst c))) l) (label2level lv), h)
  | None, [] => None
  end.
Proof.
  induction cs as [|[[m lv] h] cs IH]; intros o; [now destruct o as [(a, b)|]|]. cbn [fold_left]. rewrite IH.
  change (for_name n ((m, lv, h) :: cs)) with (if same m n then (m, lv, h) :: for_name n cs else for_name n cs).
  unfold track. rewrite (same_sym n m). destruct (same m n); [|now destruct o as [(a, b)|]].
  destruct o as [(a, b)|]; [|reflexivity]. cbn [map snd fst]. now rewrite last_first.
Qed.
Lemma stands_level lv lvl : stands_for lv lvl -> label2level lv = lvl /\ lvl <> 0.
Proof. intros []; split; (reflexivity || discriminate). Qed.
Lemma c158_partial isspace cs n lv h lvl r : stands_for lv lvl ->
  emit isspace (calls fresh (cs ++ [(n, lv, h)])) n r = if lvl <=? r_level r then [(Stderr, formatted isspace (first_form n cs h) r)] else [].
Proof.
  intros S. destruct (stands_level lv lvl S) as [L N]. unfold calls. rewrite fold_left_app. cbn [fold_left]. fold (calls fresh cs).
  assert (G : got n (Some (lvl, first_form n cs h)) (get_logger (calls fresh cs) n lv h)).
  { pose proof (got_step n _ _ (n, lv, h) (got_calls n cs None fresh eq_refl)) as G. unfold track at 1 in G. rewrite same_refl, L in G.
    assert (E : first_form n cs h = match fold_left (track n) cs None with Some (_, h0) => h0 | None => h end).
    { rewrite track_first. unfold first_form. now destruct (for_name n cs) as [|[[a b] c] l]. }
    rewrite E. exact G. }
  cbn [got] in G. rewrite (emit_own isspace _ n r _ _ G N) by discriminate. reflexivity.
Qed.
Definition detail158 : record := mkR 30 (text "t") (text "Interrupted") (DetailList [text "late dt = 0 ns"]) (text "['late dt = 0 ns']").
Lemma c158_refuted : ~ C158_statement.
Proof.
  intros C. specialize (C tabs [(FPFIND, NoLabel, false)] FPFIND NoLabel true 30 detail158 is_none). vm_compute in C. discriminate.
Qed.
Lemma c157_partial isspace v p l out : 0 <= v -> run isspace (mkOptions v (Some p) true) l = Ok out ->
  written_to (LogFile p) out = map (formatted isspace true) (flat_map (main_records (wanted v)) l).
Proof. apply c156_partial. Qed.
