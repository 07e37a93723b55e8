(** Proofs about the command line. *)
From Verif Require Import Base FreqcdModel FreqcdSpec FreqcdProofs FreqcdProofs6 Float FreqcdCli FreqcdCliSpec FreqcdCliStatements.
From Coq Require Import ZifyBool Lqa QArith.Qabs.
Local Open Scope Z_scope.

(** ** getopt on the remaining words *)
Lemma argn_drop argv i : argn argv i = hd [] (drop i argv).
Proof.
  unfold argn, drop. generalize (Z.to_nat i) as n. clear. intros n. revert argv.
  induction n as [|n IH]; intros [|w r]; cbn; auto.
Qed.
Lemma drop_S {A} i (l : list A) w r : 0 <= i -> drop i l = w :: r -> drop (i + 1) l = r.
Proof.
  intros Hi. unfold drop. replace (Z.to_nat (i + 1)) with (S (Z.to_nat i)) by lia.
  generalize (Z.to_nat i) as n. clear. intros n. revert l.
  induction n as [|n IH]; intros [|x l]; cbn; try congruence.
  intros H. apply IH in H. exact H.
Qed.
Lemma drop_nil {A} i (l : list A) : 0 <= i -> (drop i l = [] <-> len l <= i).
Proof.
  intros Hi. split.
  - intros E. pose proof (len_drop i l Hi) as L. rewrite E, len_nil in L. lia.
  - apply drop_all.
Qed.
Definition size (ws : list (list Z)) : nat := fold_right (fun a n => (1 + length a + n)%nat) O ws.
Lemma size_cons w r : size (w :: r) = (1 + length w + size r)%nat. Proof. reflexivity. Qed.
(** what is left to read *)
Definition todo (argv : list (list Z)) (g : gstate) : nat :=
  match place g with
  | [] => size (drop (optind g) argv)
  | p => (length p + size (drop (optind g + 1) argv))%nat
  end.
Definition gok (argv : list (list Z)) (g : gstate) : Prop :=
  0 <= optind g /\ (place g <> [] -> optind g < len argv).
Lemma size_drop_S argv i : (size (drop (i + 1) argv) <= size (drop i argv))%nat.
Proof.
  unfold drop. destruct (Z_lt_ge_dec i 0).
  - replace (Z.to_nat i) with O by lia. destruct (Z.to_nat (i + 1)) eqn:E; [lia|]. lia.
  - replace (Z.to_nat (i + 1)) with (S (Z.to_nat i)) by lia.
    generalize (Z.to_nat i) as n. clear. intros n. revert argv.
    induction n as [|n IH]; intros [|x l]; cbn; try lia. apply IH.
Qed.
Lemma strchr_in s c r : strchr s c = Some r -> hd 0 r = c /\ r <> [].
Proof.
  induction s as [|x s IH]; cbn; [discriminate|]. destruct (x =? c) eqn:E; [|assumption].
  intros H; inv H. cbn. split; [lia|discriminate].
Qed.
Lemma getopt_decr argv ostr g opt arg g' : gok argv g -> getopt argv ostr g = (Some opt, arg, g') ->
  gok argv g' /\ (todo argv g' < todo argv g)%nat.
Proof.
  intros [G1 G2]. unfold getopt.
  set (st := match place g with [] => _ | _ :: _ => _ end).
  assert (ST : match st with
               | inr _ => True
               | inl p => p <> [] -> optind g < len argv /\
                          (length p + size (drop (optind g + 1) argv) <= todo argv g)%nat
               end).
  { subst st. unfold todo. destruct (place g) as [|c p] eqn:P.
    - destruct (len argv <=? optind g) eqn:L; [exact I|]. rewrite argn_drop.
      destruct (drop (optind g) argv) as [|w r] eqn:D; [cbn; exact I|].
      pose proof (drop_S _ _ _ _ G1 D) as D2. rewrite D2. cbn [hd].
      destruct w as [|a w]; [exact I|]. destruct (a =? DASH); [|exact I].
      destruct w as [|b w]; [intros _; rewrite size_cons; cbn [length]; lia|].
      destruct (b =? DASH); [exact I|]. intros _. rewrite size_cons; cbn [length]; lia.
    - intros _. split; [apply G2; discriminate|]. lia. }
  clearbody st. destruct st as [p|g0]; [|discriminate].
  destruct p as [|c pl]; [discriminate|]. destruct (ST ltac:(discriminate)) as [L T]. clear ST.
  cbn [length] in T.
  assert (Q : forall pl' oi, (pl' = [] /\ (oi = optind g + 1 \/ oi = optind g + 2)) \/ (pl' = pl /\ pl <> [] /\ oi = optind g) ->
            gok argv (mkG pl' oi) /\ (todo argv (mkG pl' oi) < todo argv g)%nat).
  { intros pl' oi [[-> O]|[-> [N ->]]]; unfold gok; cbn [place optind].
    - pose proof (size_drop_S argv (optind g + 1)). replace (optind g + 1 + 1) with (optind g + 2) in H by lia.
      change (todo argv (mkG [] oi)) with (size (drop oi argv)). split; [split; [lia|congruence]|]. destruct O as [-> | ->]; lia.
    - split; [split; [lia|intros _; lia]|]. unfold todo at 1. cbn [place optind]. destruct pl; [congruence|]. cbn [length] in *. lia. }
  destruct (if c =? COLON then None else strchr ostr c) as [oli|] eqn:S.
  - destruct (tl oli) as [|k ks].
    + intros E; injection E as <- <- <-. apply Q. destruct pl; [left; auto|right; split; [reflexivity|split; [discriminate|reflexivity]]].
    + destruct (k =? COLON).
      * destruct pl as [|b pl].
        -- destruct (len argv <=? optind g + 1); intros E; injection E as <- <- <-; apply Q; left; split; auto. right; lia.
        -- intros E; injection E as <- <- <-. apply Q. auto.
      * intros E; injection E as <- <- <-. apply Q. destruct pl; [left; auto|right; split; [reflexivity|split; [discriminate|reflexivity]]].
  - destruct (c =? DASH); [discriminate|]. intros E; injection E as <- <- <-. apply Q.
    destruct pl; [left; auto|right; split; [reflexivity|split; [discriminate|reflexivity]]].
Qed.
Lemma option_loop_fuel argv : forall fuel g c, gok argv g -> (todo argv g < fuel)%nat -> option_loop fuel argv g c <> None.
Proof.
  induction fuel as [|fuel IH]; intros g c G L; [lia|]. cbn [option_loop].
  destruct (getopt argv OPTS g) as [[[opt|] arg] g'] eqn:E; [|discriminate].
  destruct (getopt_decr _ _ _ _ _ _ G E) as [G' L'].
  destruct (option_step c opt arg) as [[c'|k]|e]; try discriminate. apply IH; [assumption|lia].
Qed.
Lemma size_drop argv i : (size (drop i argv) <= size argv)%nat.
Proof.
  unfold drop. generalize (Z.to_nat i) as n. clear. intros n. revert argv.
  induction n as [|n IH]; intros [|x l]; cbn [skipn]; rewrite ?size_cons; try lia. specialize (IH l). lia.
Qed.
Lemma cli_total argv : cli argv <> None.
Proof.
  unfold cli. pose proof (option_loop_fuel argv (cli_fuel argv) (mkG [] 1) config0) as H.
  assert (G : gok argv (mkG [] 1)) by (split; cbn; [lia|congruence]).
  specialize (H G). unfold todo in H. cbn [place optind] in H. unfold cli_fuel in *. fold (size argv) in *.
  pose proof (size_drop argv 1). specialize (H ltac:(lia)).
  destruct (option_loop _ _ _ _) as [[[c|k]|e]|]; congruence.
Qed.
(** more fuel does not change an answer *)
Lemma option_loop_mono argv : forall fuel g c r, option_loop fuel argv g c = Some r ->
  forall fuel', (fuel <= fuel')%nat -> option_loop fuel' argv g c = Some r.
Proof.
  induction fuel as [|fuel IH]; intros g c r H fuel' L; [discriminate|].
  destruct fuel' as [|fuel']; [lia|]. cbn [option_loop] in *.
  destruct (getopt argv OPTS g) as [[[opt|] arg] g']; [|assumption].
  destruct (option_step c opt arg) as [[c'|k]|e]; try assumption. eapply IH; [eassumption|lia].
Qed.

(** ** Rendered settings *)
Lemma getopt_flag argv g s pl : place g = letter s :: pl -> flag s ->
  getopt argv OPTS g = (Some (letter s), None, mkG pl (match pl with [] => optind g + 1 | _ => optind g end)).
Proof.
  intros P F. unfold getopt. rewrite P. destruct s; try discriminate F; reflexivity.
Qed.
Lemma getopt_arg argv g s t pl : place g = letter s :: pl -> argument s = Some t ->
  getopt argv OPTS g =
  match pl with
  | _ :: _ => (Some (letter s), Some pl, mkG [] (optind g + 1))
  | [] => if len argv <=? optind g + 1 then (Some QUESTION, None, mkG [] (optind g + 1))
          else (Some (letter s), Some (argn argv (optind g + 1)), mkG [] (optind g + 1 + 1))
  end.
Proof.
  intros P F. unfold getopt. rewrite P. destruct s; try discriminate F; reflexivity.
Qed.
(** Starting a word is the same as having its letters as [place]. *)
Lemma getopt_word argv i w r : 0 <= i -> drop i argv = (45 :: w) :: r -> w <> [] -> hd 0 w <> 45 ->
  getopt argv OPTS (mkG [] i) = getopt argv OPTS (mkG w i).
Proof.
  intros Hi D N H. unfold getopt. cbn [place optind].
  destruct (len argv <=? i) eqn:L.
  { apply Z.leb_le, (drop_nil i argv Hi) in L. congruence. }
  rewrite argn_drop, D. cbn [hd]. replace (45 =? DASH) with true by reflexivity.
  destruct w as [|c w]; [congruence|]. cbn [hd] in H. unfold DASH at 1. replace (c =? 45) with false by lia. reflexivity.
Qed.
Lemma getopt_end argv i : 0 <= i -> no_options (drop i argv) -> fst (fst (getopt argv OPTS (mkG [] i))) = None.
Proof.
  intros Hi N. unfold getopt. cbn [place optind]. destruct (len argv <=? i) eqn:L; [reflexivity|].
  rewrite argn_drop. destruct (drop i argv) as [|w r] eqn:D; [reflexivity|]. cbn [hd].
  cbn in N. destruct N as [N|[q ->]]; [|reflexivity].
  destruct w as [|c w]; [reflexivity|]. destruct (c =? DASH) eqn:E; [|reflexivity].
  exfalso. apply (N w). unfold DASH in E. f_equal. lia.
Qed.

(** the effect of a list of settings *)
Fixpoint apply_all (c : config) (ss : list setting) : cres (config + Z) :=
  match ss with
  | [] => Ok (inl c)
  | s :: r =>
      match option_step c (letter s) (argument s) with
      | Err e => Err e
      | Ok (inr k) => Ok (inr k)
      | Ok (inl c') => apply_all c' r
      end
  end.

Definition loops argv g c r : Prop := exists fuel, option_loop fuel argv g c = Some r.
Lemma loops_step argv g c opt arg g' r : getopt argv OPTS g = (Some opt, arg, g') ->
  match option_step c opt arg with
  | Err e => r = Err e
  | Ok (inr k) => r = Ok (inr k)
  | Ok (inl c') => loops argv g' c' r
  end -> loops argv g c r.
Proof.
  intros E H. destruct (option_step c opt arg) as [[c'|k]|e] eqn:ST.
  - destruct H as [n H]. exists (S n). cbn [option_loop]. now rewrite E, ST.
  - exists 1%nat. cbn [option_loop]. rewrite E, ST. congruence.
  - exists 1%nat. cbn [option_loop]. rewrite E, ST. congruence.
Qed.
Lemma loops_apply argv g s g' c ss : getopt argv OPTS g = (Some (letter s), argument s, g') ->
  (forall c', loops argv g' c' (apply_all c' ss)) -> loops argv g c (apply_all c (s :: ss)).
Proof.
  intros E H. eapply loops_step; [exact E|]. cbn [apply_all].
  destruct (option_step c (letter s) (argument s)) as [[c'|k]|e]; auto.
Qed.
Lemma loops_flags argv i pl ss :
  (forall c', loops argv (match pl with [] => mkG [] (i + 1) | _ => mkG pl i end) c' (apply_all c' ss)) ->
  forall fs c, Forall flag fs -> fs <> [] \/ pl <> [] ->
  loops argv (mkG (map letter fs ++ pl) i) c (apply_all c (fs ++ ss)).
Proof.
  intros H. induction fs as [|f fs IH]; intros c F N.
  - cbn [map app]. destruct pl; [destruct N; congruence|]. apply H.
  - inv F. cbn [map app]. eapply loops_apply.
    + rewrite H2. apply getopt_flag; [reflexivity|assumption].
    + intros c'. destruct fs as [|f2 fs].
      * cbn [map app optind]. specialize (H c'). destruct pl; exact H.
      * cbn [map app optind] in *. apply IH; [assumption|left; discriminate].
Qed.
Lemma letter_not_dash s : letter s <> 45. Proof. destruct s; discriminate. Qed.
Lemma loops_word argv i w r c ss : 0 <= i -> drop i argv = (45 :: w) :: r -> w <> [] -> hd 0 w <> 45 ->
  loops argv (mkG w i) c ss -> loops argv (mkG [] i) c ss.
Proof.
  intros Hi D N H [fuel E]. exists fuel. destruct fuel as [|fuel]; [discriminate|].
  cbn [option_loop] in *. now rewrite (getopt_word argv i w r Hi D N H).
Qed.
Lemma loops_writes argv args ss : writes args ss -> forall i c, 0 <= i -> drop i argv = args ->
  loops argv (mkG [] i) c (apply_all c ss).
Proof.
  induction 1 as [args N|fs args ss F N W IH|fs s t args ss F A N W IH|fs s t args ss F A W IH]; intros i c Hi D.
  - exists 1%nat. cbn [option_loop apply_all]. rewrite <- D in N. pose proof (getopt_end argv i Hi N) as E.
    destruct (getopt argv OPTS (mkG [] i)) as [[o a] g']. cbn in E. now rewrite E.
  - eapply loops_word; [assumption|exact D| | |].
    + destruct fs; [congruence|discriminate].
    + destruct fs; [congruence|apply letter_not_dash].
    + rewrite <- (app_nil_r (map letter fs)). apply loops_flags; auto.
      intros c'. apply IH; [lia|]. eapply drop_S; [assumption|exact D].
  - eapply loops_word; [assumption|exact D| | |].
    + destruct fs; discriminate.
    + destruct fs; apply letter_not_dash.
    + apply loops_flags; [|assumption|right; discriminate]. intros c'.
      eapply loops_apply.
      * rewrite (getopt_arg _ _ s t t); [|reflexivity|assumption]. destruct t; [congruence|]. rewrite A. reflexivity.
      * intros c2. cbn [optind]. apply IH; [lia|]. eapply drop_S; [assumption|exact D].
  - pose proof (drop_S _ _ _ _ Hi D) as D1. pose proof (drop_S _ _ _ _ (ltac:(lia) : 0 <= i + 1) D1) as D2.
    eapply loops_word; [assumption|exact D| | |].
    + destruct fs; discriminate.
    + destruct fs; apply letter_not_dash.
    + apply loops_flags; [|assumption|right; discriminate]. intros c'.
      eapply loops_apply.
      * rewrite (getopt_arg _ _ s t []); [|reflexivity|assumption]. cbn [optind].
        destruct (len argv <=? i + 1) eqn:L.
        { apply Z.leb_le, (drop_nil (i + 1) argv ltac:(lia)) in L. congruence. }
        rewrite argn_drop, D1, A. reflexivity.
      * intros c2. cbn [optind]. apply IH; [lia|]. exact D2.
Qed.
Lemma cli_writes prog args ss : writes args ss ->
  cli (prog :: args) = Some (match apply_all config0 ss with
                             | Err e => Err e
                             | Ok (inr k) => Ok (Exit k)
                             | Ok (inl c) => Ok (check_fcorr c)
                             end).
Proof.
  intros W. destruct (loops_writes (prog :: args) args ss W 1 config0 ltac:(lia) eq_refl) as [fuel E].
  unfold cli. pose proof (option_loop_fuel (prog :: args) (cli_fuel (prog :: args)) (mkG [] 1) config0) as H.
  assert (G : gok (prog :: args) (mkG [] 1)) by (split; cbn; [lia|congruence]).
  specialize (H G). unfold todo in H. cbn [place optind] in H.
  unfold cli_fuel in *. fold (size (prog :: args)) in *.
  pose proof (size_drop (prog :: args) 1). specialize (H ltac:(lia)).
  destruct (option_loop (S (size (prog :: args))) (prog :: args) (mkG [] 1) config0) as [r|] eqn:R; [|congruence].
  assert (r = apply_all config0 ss).
  { pose proof (option_loop_mono _ _ _ _ _ R (Nat.max fuel (S (size (prog :: args)))) ltac:(lia)) as R1.
    pose proof (option_loop_mono _ _ _ _ _ E (Nat.max fuel (S (size (prog :: args)))) ltac:(lia)) as R2. congruence. }
  subst r. destruct (apply_all config0 ss) as [[?|?]|?]; reflexivity.
Qed.

(** ** Names and numbers *)
Lemma skip_spaces_nonblank t : Forall (fun c => c <> 0 /\ ~ blank c) t -> skip_spaces t = t.
Proof.
  intros F. destruct t as [|c t]; [reflexivity|]. inv F. cbn [skip_spaces].
  destruct (is_space c) eqn:E; [|reflexivity]. apply is_space_blank in E. easy.
Qed.
Lemma span_nonblank_all : forall n t, Forall (fun c => c <> 0 /\ ~ blank c) t -> (length t <= n)%nat -> span_nonblank n t = t.
Proof.
  induction n as [|n IH]; intros [|c t] F L; cbn [length] in *; try reflexivity; try lia.
  inv F. cbn [span_nonblank]. destruct (is_space c) eqn:E; [apply is_space_blank in E; easy|].
  f_equal. apply IH; [assumption|lia].
Qed.
Lemma sscanf_good t : good_name t -> sscanf_s FNAMEWIDTH t = Some t.
Proof.
  intros (N & L & F). unfold sscanf_s. rewrite skip_spaces_nonblank, span_nonblank_all; [|assumption| |assumption].
  - destruct t; [congruence|reflexivity].
  - unfold len in L. unfold FNAMEWIDTH. lia.
Qed.
Lemma upto0_app t r : Forall (fun c => c <> 0 /\ ~ blank c) t -> upto0 (t ++ 0 :: r) = t.
Proof.
  induction 1 as [|c t [H _] F IH]; [reflexivity|]. cbn [app upto0]. replace (c =? 0) with false by lia. now rewrite IH.
Qed.
Lemma store_name_spec buf w : len buf = 200 -> len w <= 199 -> Forall (fun c => c <> 0 /\ ~ blank c) w ->
  exists b, store_name buf w = Ok b /\ len b = 200 /\ upto0 b = w.
Proof.
  intros LB LW F. unfold store_name. pose proof (len_nonneg w).
  set (b := (w ++ [0]) ++ drop (0 + (len w + (1 + 0))) buf).
  assert (ST : store buf 0 (w ++ [0]) = Ok b).
  { unfold store. replace (len (w ++ [0])) with (len w + (1 + 0)) by (rewrite len_app; reflexivity).
    rewrite LB. replace ((0 <=? 0) && _) with true by lia. now rewrite take_0 by lia. }
  rewrite ST. cbn [bind]. clear ST.
  assert (L : len b = 200). { subst b. rewrite !len_app, len_drop, len_cons, len_nil by lia. lia. }
  unfold store, FNAMELENGTH. replace (len [0]) with 1 by reflexivity. rewrite L.
  replace ((0 <=? 200 - 1) && _) with true by lia.
  eexists. split; [reflexivity|]. split.
  - rewrite !len_app, len_take, len_drop, len_cons, len_nil by lia. lia.
  - rewrite (drop_all (200 - 1 + 1)) by lia. subst b.
    destruct (Z.eq_dec (len w) 199) as [E|E].
    + rewrite <- app_assoc, take_app_le by lia. rewrite take_all by lia. now apply upto0_app.
    + rewrite take_app_ge by (rewrite len_app, len_cons, len_nil; lia). rewrite <- !app_assoc. cbn [app].
      now apply upto0_app.
Qed.

(** ** The effect of good settings *)
Lemma sscanf_number t n : good_number t n -> sscanf_d t = Some n.
Proof.
  intros [D R]. unfold sscanf_d. rewrite (strtol_denotes _ _ D). f_equal.
  unfold clampl, LONG_MIN, LONG_MAX, s32. rewrite Z.mod_small; lia.
Qed.
Definition upd {A} (o : option A) (d : A) : A := match o with Some v => v | None => d end.
Definition bufs_ok (c : config) : Prop := len (c_in c) = 200 /\ len (c_out c) = 200 /\ len (c_freq c) = 200.
Lemma last_of_cons0 {A} (pick : setting -> option A) s ss :
  last_of pick (s :: ss) = match last_of pick ss with Some v => Some v | None => pick s end.
Proof.
  unfold last_of. cbn [fold_left].
  set (h := fun acc s => match pick s with Some v => Some v | None => acc end).
  assert (G : forall a, fold_left h ss a = match fold_left h ss None with Some v => Some v | None => a end).
  { clear. induction ss as [|s ss IH]; intros a; cbn [fold_left]; [reflexivity|].
    rewrite (IH (h a s)), (IH (h None s)). unfold h. destruct (fold_left _ ss None); destruct (pick s); reflexivity. }
  rewrite G. destruct (fold_left h ss None); [reflexivity|]. now destruct (pick s).
Qed.
Lemma last_of_cons {A} (pick : setting -> option A) s ss d :
  upd (last_of pick (s :: ss)) d = upd (last_of pick ss) (upd (pick s) d).
Proof. rewrite last_of_cons0. now destruct (last_of pick ss). Qed.
Definition num_of (t : list Z) : Z := upd (sscanf_d t) 0.
Definition legacy_of s := match s with Legacy => Some true | _ => None end.
Definition dec_of s := match s with Decimal => Some true | _ => None end.
Lemma apply_all_good : forall ss c, Forall good ss -> ~ In Help ss -> bufs_ok c ->
  exists c', apply_all c ss = Ok (inl c') /\ bufs_ok c' /\
    c_fcorr c' = upd (option_map num_of (last_of corr_of ss)) (c_fcorr c) /\
    upto0 (c_in c') = upd (last_of in_of ss) (upto0 (c_in c)) /\
    upto0 (c_out c') = upd (last_of out_of ss) (upto0 (c_out c)) /\
    upto0 (c_freq c') = upd (last_of freq_of ss) (upto0 (c_freq c)) /\
    c_legacy c' = upd (last_of legacy_of ss) (c_legacy c) /\
    c_decimal c' = upd (last_of dec_of ss) (c_decimal c).
Proof.
  induction ss as [|s ss IH]; intros c G NH B.
  - exists c. cbn. auto 10.
  - inv G. assert (NH' : ~ In Help ss) by (intros Q; apply NH; now right).
    assert (S : exists c1, option_step c (letter s) (argument s) = Ok (inl c1) /\ bufs_ok c1 /\
      c_fcorr c1 = upd (option_map num_of (corr_of s)) (c_fcorr c) /\
      upto0 (c_in c1) = upd (in_of s) (upto0 (c_in c)) /\
      upto0 (c_out c1) = upd (out_of s) (upto0 (c_out c)) /\
      upto0 (c_freq c1) = upd (freq_of s) (upto0 (c_freq c)) /\
      c_legacy c1 = upd (legacy_of s) (c_legacy c) /\
      c_decimal c1 = upd (dec_of s) (c_decimal c)).
    { destruct B as (B1 & B2 & B3). destruct s; cbn [letter argument option_step];
        try (eexists; split; [reflexivity|]; cbn; repeat split; auto; fail).
      - exfalso. apply NH. now left.
      - cbn [Z.eqb Pos.eqb]. cbn in H1. rewrite (sscanf_good _ H1). destruct H1 as (N & L & F).
        destruct (store_name_spec (c_in c) t B1 L F) as (b & -> & Lb & U). cbn [bind].
        eexists; split; [reflexivity|]; cbn; repeat split; auto.
      - cbn [Z.eqb Pos.eqb]. cbn in H1. rewrite (sscanf_good _ H1). destruct H1 as (N & L & F).
        destruct (store_name_spec (c_out c) t B2 L F) as (b & -> & Lb & U). cbn [bind].
        eexists; split; [reflexivity|]; cbn; repeat split; auto.
      - cbn [Z.eqb Pos.eqb]. cbn in H1. rewrite (sscanf_good _ H1). destruct H1 as (N & L & F).
        destruct (store_name_spec (c_freq c) t B3 L F) as (b & -> & Lb & U). cbn [bind].
        eexists; split; [reflexivity|]; cbn; repeat split; auto.
      - cbn [Z.eqb Pos.eqb]. destruct H1 as [n Hn]. pose proof (sscanf_number _ _ Hn) as E.
        rewrite E. eexists; split; [reflexivity|]; cbn; repeat split; auto. unfold num_of. now rewrite E. }
    destruct S as (c1 & E & B' & S1 & S2 & S3 & S4 & S5 & S6).
    destruct (IH c1 H2 NH' B') as (c' & E' & B2 & T1 & T2 & T3 & T4 & T5 & T6).
    exists c'. cbn [apply_all]. rewrite E. split; [assumption|]. split; [assumption|].
    rewrite !last_of_cons, <- S2, <- S3, <- S4, <- S5, <- S6. split; [|auto 10].
    rewrite T1, S1, last_of_cons0. now destruct (last_of corr_of ss).
Qed.
Lemma apply_all_help : forall ss c, Forall good ss -> In Help ss -> bufs_ok c -> apply_all c ss = Ok (inr 1).
Proof.
  intros ss c G I B. apply in_split in I as (s1 & s2 & ->).
  revert c B. induction s1 as [|s s1 IH]; intros c B; [reflexivity|]. inv G. cbn [app apply_all].
  destruct s; try (apply IH; assumption); try reflexivity.
  all: destruct (apply_all_good [_] c (Forall_cons _ H1 (Forall_nil _))) as (c' & E & B' & _);
       [intros [Q|[]]; discriminate Q|assumption|]; cbn [apply_all] in E;
       destruct (option_step _ _ _) as [[?|?]|?]; try discriminate E; inv E; now apply IH.
Qed.
Lemma config0_ok : bufs_ok config0. Proof. repeat split. Qed.

(** ** Decimal mode *)
Definition DTOB : Q := Eval vm_compute in FCORR_DTOB.
Lemma DTOB_eq : FCORR_DTOB = DTOB. Proof. vm_compute. reflexivity. Qed.
Local Open Scope Q_scope.
Lemma double_to_int_trunc x : double_to_int x = (if (- 2 ^ 31 <=? qtrunc x) && (qtrunc x <? 2 ^ 31) then qtrunc x else - 2 ^ 31)%Z.
Proof. reflexivity. Qed.
Lemma decimal_opp n : decimal_fcorr (- n) = if (decimal_fcorr n =? - 2 ^ 31)%Z then (- 2 ^ 31)%Z else (- decimal_fcorr n)%Z.
Proof.
  unfold decimal_fcorr. rewrite !double_to_int_trunc.
  assert (E : qtrunc (fl 53 (inject_Z (- n) * FCORR_DTOB)) = (- qtrunc (fl 53 (inject_Z n * FCORR_DTOB)))%Z).
  { rewrite <- qtrunc_opp. apply qtrunc_eq. rewrite <- fl_opp.
    rewrite (fl_eq 53 (inject_Z (- n) * FCORR_DTOB) (- (inject_Z n * FCORR_DTOB))); [reflexivity|].
    rewrite inject_Z_opp. ring. }
  rewrite E. set (t := qtrunc _). clearbody t.
  destruct ((- 2 ^ 31 <=? t) && (t <? 2 ^ 31))%Z eqn:E1, ((- 2 ^ 31 <=? - t) && (- t <? 2 ^ 31))%Z eqn:E2;
    match goal with |- context [if ?b then _ else _] => destruct b eqn:E3 end; lia.
Qed.
Definition X1 : Q := 16777216 # 9765625.   (* 2^34 / 10^10 *)
Lemma DTOB_close : - pow2 (-53) <= DTOB - X1 <= pow2 (-53).
Proof. split; apply Qle_bool_iff; vm_compute; reflexivity. Qed.
Lemma fl_close n : (0 <= n <= 1220703)%Z ->
  - (1 # 10000000) < fl 53 (inject_Z n * DTOB) - inject_Z n * X1 < 1 # 10000000.
Proof.
  intros Hn. pose proof (fl_err 53 (inject_Z n * DTOB)) as E. apply Qabs_Qle_condition in E.
  assert (N0 : 0 <= inject_Z n) by (rewrite <- (Zle_Qle 0); lia).
  assert (N1 : inject_Z n <= inject_Z 1220703) by (rewrite <- Zle_Qle; lia).
  assert (D2 : 0 <= DTOB <= 2) by (split; apply Qle_bool_iff; vm_compute; reflexivity).
  rewrite (Qabs_pos (inject_Z n * DTOB)) in E by nra.
  pose proof DTOB_close as C. assert (P : pow2 (- (53)) == pow2 (-53)) by reflexivity. rewrite P in E.
  assert (PB : 0 < pow2 (-53) /\ inject_Z 1220703 * pow2 (-53) < 1 # 1000000000).
  { split; vm_compute; reflexivity. }
  set (e := pow2 (-53)) in *. set (k := inject_Z n) in *.
  assert (A1 : 0 <= k * e <= 1 # 1000000000) by nra.
  assert (A2 : - (k * e) <= k * (DTOB - X1) <= k * e) by nra.
  assert (A3 : 0 <= e * (k * DTOB) <= 2 * (k * e)) by nra.
  set (y := fl 53 (k * DTOB)) in *.
  assert (A4 : y - k * X1 == (y - k * DTOB) + k * (DTOB - X1)) by ring.
  split; rewrite A4; lra.
Qed.
Lemma not_multiple n : (0 < n < 9765625)%Z -> ((n * 16777216) mod 9765625 <> 0)%Z.
Proof.
  intros H E. apply Z.mod_divide in E; [|lia].
  assert (G : (9765625 | n)%Z).
  { apply Z.gauss with 16777216%Z; [now rewrite Z.mul_comm|reflexivity]. }
  apply Z.divide_pos_le in G; lia.
Qed.
Lemma quot_scale n : (Z.quot (n * 2 ^ 34) (10 ^ 10) = Z.quot (n * 16777216) 9765625)%Z.
Proof.
  replace (n * 2 ^ 34)%Z with (n * 16777216 * 1024)%Z by lia.
  replace (10 ^ 10)%Z with (9765625 * 1024)%Z by lia. apply Z.quot_mul_cancel_r; lia.
Qed.
Lemma trunc_decimal n : (0 <= n <= 1220703)%Z ->
  qtrunc (fl 53 (inject_Z n * FCORR_DTOB)) = Z.quot (n * 2 ^ 34) (10 ^ 10).
Proof.
  intros Hn. rewrite DTOB_eq. destruct (Z.eq_dec n 0) as [->|NZ].
  { rewrite fl_0 by (rewrite Qmult_0_l; reflexivity). reflexivity. }
  rewrite quot_scale, Z.quot_div_nonneg by lia.
  pose proof (fl_close n Hn) as C. pose proof (not_multiple n ltac:(lia)) as NM.
  set (q := ((n * 16777216) / 9765625)%Z). set (y := fl 53 _) in *.
  assert (B : (q * 9765625 + 1 <= n * 16777216 <= q * 9765625 + 9765624)%Z).
  { subst q. pose proof (Z.div_mod (n * 16777216) 9765625 ltac:(lia)).
    pose proof (Z.mod_pos_bound (n * 16777216) 9765625 ltac:(lia)). lia. }
  assert (K : inject_Z n * X1 == inject_Z (n * 16777216) * (1 # 9765625)).
  { unfold X1, Qeq. cbn. lia. }
  destruct B as [B1 B2]. rewrite Zle_Qle in B1, B2. rewrite inject_Z_plus, (inject_Z_mult q) in B1, B2.
  change (inject_Z 9765625) with (9765625 # 1) in *. change (inject_Z 1) with 1 in *. change (inject_Z 9765624) with (9765624 # 1) in *.
  rewrite K in C. set (m := inject_Z (n * 16777216)) in *.
  apply qtrunc_bounds.
  - subst q. apply Z.div_pos; lia.
  - lra.
  - rewrite inject_Z_plus. change (inject_Z 1) with 1. lra.
Qed.
Lemma trunc_le n m : (0 <= n <= m)%Z -> (qtrunc (fl 53 (inject_Z n * FCORR_DTOB)) <= qtrunc (fl 53 (inject_Z m * FCORR_DTOB)))%Z.
Proof.
  intros H. assert (D2 : 0 <= FCORR_DTOB) by (apply Qle_bool_iff; vm_compute; reflexivity).
  assert (0 <= inject_Z n) by (rewrite <- (Zle_Qle 0); lia).
  assert (inject_Z n <= inject_Z m) by (rewrite <- Zle_Qle; lia).
  apply qtrunc_mono.
  - rewrite <- (fl_0 53 0) by reflexivity. apply fl_mono; [lia|]. nra.
  - apply fl_mono; [lia|]. nra.
Qed.
Local Open Scope Z_scope.
Lemma quot_bound n : 0 <= n <= 1220703 -> 0 <= Z.quot (n * 2 ^ 34) (10 ^ 10) <= 2097151.
Proof. intros H. rewrite Z.quot_div_nonneg by lia. split; [apply Z.div_pos; lia|]. apply Z.lt_succ_r, Z.div_lt_upper_bound; lia. Qed.
Lemma decimal_pos n : 0 <= n ->
  (n <= 1220703 -> decimal_fcorr n = Z.quot (n * 2 ^ 34) (10 ^ 10)) /\
  (1220703 < n < 1250000000 -> 2097152 <= decimal_fcorr n < 2 ^ 31) /\
  (1250000000 <= n -> decimal_fcorr n = - 2 ^ 31).
Proof.
  intros Hn. unfold decimal_fcorr. rewrite double_to_int_trunc. repeat split; intros; cbv zeta.
  - rewrite trunc_decimal by lia. pose proof (quot_bound n ltac:(lia)).
    match goal with |- context [if ?b then _ else _] => destruct b eqn:E end; [reflexivity|lia].
  - pose proof (trunc_le 1220704 n ltac:(lia)) as L. pose proof (trunc_le n 1249999999 ltac:(lia)) as U.
    replace (qtrunc (fl 53 (inject_Z 1220704 * FCORR_DTOB))) with 2097153 in L by (vm_compute; reflexivity).
    replace (qtrunc (fl 53 (inject_Z 1249999999 * FCORR_DTOB))) with 2147483646 in U by (vm_compute; reflexivity).
    match goal with |- context [if ?b then _ else _] => destruct b eqn:E end; lia.
  - pose proof (trunc_le 1220704 n ltac:(lia)) as L. pose proof (trunc_le n 1249999999 ltac:(lia)) as U.
    replace (qtrunc (fl 53 (inject_Z 1220704 * FCORR_DTOB))) with 2097153 in L by (vm_compute; reflexivity).
    replace (qtrunc (fl 53 (inject_Z 1249999999 * FCORR_DTOB))) with 2147483646 in U by (vm_compute; reflexivity).
    match goal with |- context [if ?b then _ else _] => destruct b eqn:E end; lia.
  - pose proof (trunc_le 1250000000 n ltac:(lia)) as L.
    replace (qtrunc (fl 53 (inject_Z 1250000000 * FCORR_DTOB))) with 2147483648 in L by (vm_compute; reflexivity).
    match goal with |- context [if ?b then _ else _] => destruct b eqn:E end; lia.
Qed.
Definition final (c : config) (f : Z) : config := mkC f (c_in c) (c_out c) (c_freq c) (c_legacy c) (c_decimal c).
Lemma check_actual c : - 2 ^ 31 <= c_fcorr c < 2 ^ 31 ->
  check_fcorr c = match actual (c_decimal c) (c_fcorr c) with Some f => Start (final c f) | None => Exit (-5) end.
Proof.
  intros R. unfold check_fcorr, actual, final. set (n := c_fcorr c) in *. clearbody n.
  change FCORR_MAX with 2097152. destruct (c_decimal c).
  - assert (D : if Z.abs n <=? 1220703 then decimal_fcorr n = Z.quot (n * 2 ^ 34) (10 ^ 10) /\ Z.abs (decimal_fcorr n) <= 2097151
                else if Z.abs n <? 1250000000 then 2097152 <= Z.abs (decimal_fcorr n) < 2 ^ 31 else decimal_fcorr n = - 2 ^ 31).
    { destruct (Z_lt_ge_dec n 0).
      - pose proof (decimal_pos (- n) ltac:(lia)) as (P1 & P2 & P3).
        pose proof (decimal_opp (- n)) as O. rewrite Z.opp_involutive in O.
        replace (Z.abs n) with (- n) by lia.
        destruct (- n <=? 1220703) eqn:E1.
        + specialize (P1 ltac:(lia)). pose proof (quot_bound (- n) ltac:(lia)). rewrite P1 in O.
          match type of O with _ = if ?b then _ else _ => destruct b eqn:E2; [lia|] end.
          rewrite O. rewrite Z.mul_opp_l, Z.quot_opp_l in * by lia. split; lia.
        + destruct (- n <? 1250000000) eqn:E3.
          * specialize (P2 ltac:(lia)). match type of O with _ = if ?b then _ else _ => destruct b eqn:E2; lia end.
          * specialize (P3 ltac:(lia)). match type of O with _ = if ?b then _ else _ => destruct b eqn:E2; lia end.
      - pose proof (decimal_pos n ltac:(lia)) as (P1 & P2 & P3). replace (Z.abs n) with n by lia.
        destruct (n <=? 1220703) eqn:E1.
        + specialize (P1 ltac:(lia)). pose proof (quot_bound n ltac:(lia)). rewrite P1. lia.
        + destruct (n <? 1250000000) eqn:E3; [specialize (P2 ltac:(lia)); lia|apply P3; lia]. }
    unfold abs32. destruct (Z.abs n <=? 1220703).
    + destruct D as [<- D]. match goal with |- context [if ?b then Exit _ else _] => destruct b eqn:E end; [|reflexivity].
      destruct (decimal_fcorr n =? - 2 ^ 31) eqn:E2; lia.
    + destruct (Z.abs n <? 1250000000).
      * match goal with |- context [if ?b then Exit _ else _] => destruct b eqn:E end; [reflexivity|].
        destruct (decimal_fcorr n =? - 2 ^ 31) eqn:E2; lia.
      * rewrite D. reflexivity.
  - unfold abs32. destruct (n =? - 2 ^ 31) eqn:E1.
    + assert (n = - 2 ^ 31) by lia. subst n. reflexivity.
    + destruct (Z.abs n <=? 2097151) eqn:E2.
      * replace (2097152 <=? Z.abs n) with false by lia. reflexivity.
      * replace (2097152 <=? Z.abs n) with true by lia. reflexivity.
Qed.

(** ** The properties *)
Lemma actual_documented dec n : (dec = false -> n <> - 2 ^ 31) -> (dec = true -> Z.abs n < 1250000000) ->
  actual dec n = documented dec n.
Proof.
  unfold actual, documented. destruct dec; intros A B.
  - specialize (B eq_refl). destruct (_ <=? _); [reflexivity|]. now replace (Z.abs n <? 1250000000) with true by lia.
  - specialize (A eq_refl). destruct (_ <=? _); [reflexivity|]. now replace (n =? - 2 ^ 31) with false by lia.
Qed.
Lemma num_of_good t n : good_number t n -> num_of t = n.
Proof. intros G. unfold num_of. now rewrite (sscanf_number _ _ G). Qed.
Lemma last_of_in {A} (pick : setting -> option A) ss v : last_of pick ss = Some v -> exists s, In s ss /\ pick s = Some v.
Proof.
  induction ss as [|s ss IH]; [discriminate|]. rewrite last_of_cons0. destruct (last_of pick ss) as [w|].
  - intros E. destruct (IH E) as (x & I & P). exists x. split; [now right|assumption].
  - intros E. exists s. split; [now left|assumption].
Qed.
Definition has_legacy (ss : list setting) : bool := upd (last_of legacy_of ss) false.
Definition has_decimal (ss : list setting) : bool := upd (last_of dec_of ss) false.
Lemma has_legacy_eq ss : has_legacy ss = existsb (fun s => match s with Legacy => true | _ => false end) ss.
Proof.
  unfold has_legacy. induction ss as [|s ss IH]; [reflexivity|]. rewrite last_of_cons0. cbn [existsb]. rewrite <- IH.
  destruct (last_of legacy_of ss) as [b|] eqn:E; destruct s; cbn; try reflexivity.
  apply last_of_in in E as (x & _ & P). destruct x; inv P. reflexivity.
Qed.
Lemma has_decimal_eq ss : has_decimal ss = existsb (fun s => match s with Decimal => true | _ => false end) ss.
Proof.
  unfold has_decimal. induction ss as [|s ss IH]; [reflexivity|]. rewrite last_of_cons0. cbn [existsb]. rewrite <- IH.
  destruct (last_of dec_of ss) as [b|] eqn:E; destruct s; cbn; try reflexivity.
  apply last_of_in in E as (x & _ & P). destruct x; inv P. reflexivity.
Qed.
Lemma cli_actual prog args ss n : writes args ss -> Forall good ss -> ~ In Help ss ->
  match last_of corr_of ss with Some t => good_number t n | None => n = 0 end ->
  answers (prog :: args)
    match actual (existsb (fun s => match s with Decimal => true | _ => false end) ss) n with
    | None => Stops (-5)
    | Some f => Runs f (name_of (last_of in_of ss)) (name_of (last_of out_of ss)) (name_of (last_of freq_of ss))
                  (existsb (fun s => match s with Legacy => true | _ => false end) ss)
    end.
Proof.
  intros W G NH N. unfold answers. rewrite (cli_writes _ _ _ W).
  destruct (apply_all_good ss config0 G NH config0_ok) as (c & -> & B & F1 & F2 & F3 & F4 & F5 & F6).
  exists (check_fcorr c). split; [reflexivity|].
  assert (Fc : c_fcorr c = n /\ - 2 ^ 31 <= n < 2 ^ 31).
  { rewrite F1. destruct (last_of corr_of ss); cbn.
    - split; [now apply num_of_good|apply N].
    - lia. }
  destruct Fc as [Fc R]. rewrite check_actual by lia. rewrite Fc, F6.
  rewrite <- has_decimal_eq, <- has_legacy_eq. unfold has_decimal, has_legacy.
  change (c_decimal config0) with false. destruct (actual _ n); [|reflexivity].
  cbn. rewrite F2, F3, F4, F5. unfold name_of, upd. 
  change (upto0 (c_in config0)) with (@nil Z). change (upto0 (c_out config0)) with (@nil Z).
  change (upto0 (c_freq config0)) with (@nil Z). reflexivity.
Qed.
Lemma cli_help prog args ss : writes args ss -> Forall good ss -> In Help ss -> answers (prog :: args) (Stops 1).
Proof.
  intros W G H. exists (Exit 1). split; [|reflexivity]. rewrite (cli_writes _ _ _ W).
  now rewrite (apply_all_help ss config0 G H config0_ok).
Qed.
Lemma good_corr ss : Forall good ss -> exists n, match last_of corr_of ss with Some t => good_number t n | None => n = 0 end.
Proof.
  intros G. destruct (last_of corr_of ss) as [t|] eqn:E; [|now exists 0].
  apply last_of_in in E as (s & I & P). rewrite Forall_forall in G. specialize (G s I). destruct s; inv P. exact G.
Qed.
Lemma setting_dec (a b : setting) : {a = b} + {a <> b}.
Proof. repeat decide equality. Defined.
Lemma cli_same prog1 args1 ss1 prog2 args2 ss2 :
  writes args1 ss1 -> writes args2 ss2 -> Forall good ss1 -> Forall good ss2 ->
  (In Help ss1 <-> In Help ss2) -> (In Legacy ss1 <-> In Legacy ss2) -> (In Decimal ss1 <-> In Decimal ss2) ->
  last_of in_of ss1 = last_of in_of ss2 -> last_of out_of ss1 = last_of out_of ss2 ->
  last_of freq_of ss1 = last_of freq_of ss2 -> last_of corr_of ss1 = last_of corr_of ss2 ->
  exists s, answers (prog1 :: args1) s /\ answers (prog2 :: args2) s.
Proof.
  intros W1 W2 G1 G2 HH HL HD E1 E2 E3 E4.
  destruct (in_dec setting_dec Help ss1) as [H|H].
  { exists (Stops 1). split; eapply cli_help; eauto. now apply HH. }
  destruct (good_corr ss1 G1) as [n N].
  eexists. split; [eapply cli_actual; eauto|].
  assert (D : existsb (fun s => match s with Decimal => true | _ => false end) ss1 = existsb (fun s => match s with Decimal => true | _ => false end) ss2).
  { apply eq_true_iff_eq. rewrite !existsb_exists. split; intros (x & I & P); destruct x; try discriminate P; exists Decimal; tauto. }
  assert (L : existsb (fun s => match s with Legacy => true | _ => false end) ss1 = existsb (fun s => match s with Legacy => true | _ => false end) ss2).
  { apply eq_true_iff_eq. rewrite !existsb_exists. split; intros (x & I & P); destruct x; try discriminate P; exists Legacy; tauto. }
  rewrite D, L, E1, E2, E3. eapply cli_actual; eauto; [tauto|]. now rewrite <- E4.
Qed.
Lemma writes_f t : writes [dash_f; t] [Corr t].
Proof. apply (W_detached [] (Corr t) t [] []); [constructor|reflexivity|constructor; exact I]. Qed.
Lemma writes_df t : writes [dash_d; dash_f; t] [Decimal; Corr t].
Proof.
  apply (W_flags [Decimal] [dash_f; t] [Corr t]); [repeat constructor|discriminate|apply writes_f].
Qed.
Lemma c14_actual prog t n : good_number t n ->
  answers [prog; dash_f; t] (run_with (actual false n)) /\
  answers [prog; dash_d; dash_f; t] (run_with (actual true n)).
Proof.
  intros G. split.
  - apply (cli_actual prog _ _ n (writes_f t)); [repeat constructor; now exists n|intros [Q|[]]; discriminate Q|exact G].
  - apply (cli_actual prog _ _ n (writes_df t)); [repeat constructor; now exists n|intros [Q|[Q|[]]]; discriminate Q|exact G].
Qed.
Lemma answers_fun argv s1 s2 : answers argv s1 -> answers argv s2 -> s1 = s2.
Proof. intros (o1 & E1 & <-) (o2 & E2 & <-). congruence. Qed.

(** ** Name buffers *)
Lemma span_nonblank_prefix : forall n t, exists r, t = span_nonblank n t ++ r /\ Forall (fun c => ~ blank c) (span_nonblank n t) /\
  (length (span_nonblank n t) <= n)%nat.
Proof.
  induction n as [|n IH]; intros [|c t]; cbn [span_nonblank].
  1,2,3: eexists; repeat split; auto; cbn; lia.
  destruct (is_space c) eqn:E; [exists (c :: t); repeat split; auto; cbn; lia|].
  destruct (IH t) as (r & E2 & F & L). exists r. split; [cbn; congruence|]. split; [|cbn; lia].
  constructor; [|assumption]. intros B. apply is_space_blank in B. congruence.
Qed.
Lemma sscanf_s_width a w : sscanf_s FNAMEWIDTH a = Some w -> len w <= 200 /\ exists u v, a = u ++ w ++ v /\ Forall (fun c => ~ blank c) w.
Proof.
  unfold sscanf_s. destruct (skip_spaces_inv a) as (ws & E & _).
  destruct (span_nonblank_prefix FNAMEWIDTH (skip_spaces a)) as (r & E2 & F & L).
  destruct (span_nonblank FNAMEWIDTH (skip_spaces a)) as [|c w0] eqn:S; [discriminate|]. intros H; inv H.
  split; [unfold len; unfold FNAMEWIDTH in L; lia|]. exists ws, r. split; [|assumption]. now rewrite E, E2 at 1.
Qed.
Lemma store_name_ok buf w : len buf = 200 -> len w <= 199 -> exists b, store_name buf w = Ok b /\ len b = 200.
Proof.
  intros LB LW. unfold store_name. pose proof (len_nonneg w).
  destruct (store buf 0 (w ++ [0])) as [b|e] eqn:E.
  - pose proof (store_len _ _ _ _ E) as L. cbn [bind].
    destruct (store b (FNAMELENGTH - 1) [0]) as [b2|e] eqn:E2.
    + exists b2. split; [reflexivity|]. apply store_len in E2. lia.
    + unfold store, FNAMELENGTH in E2. change (len [0]) with 1 in E2. rewrite L, LB in E2. discriminate E2.
  - unfold store in E. rewrite len_app in E. change (len [0]) with 1 in E. rewrite LB in E.
    replace ((0 <=? 0) && (0 + (len w + 1) <=? 200)) with true in E by lia. discriminate E.
Qed.
Lemma short_runs_suffix u w : short_runs (u ++ w) -> short_runs w.
Proof. intros S a m b ->. apply (S (u ++ a) m b). now rewrite <- app_assoc. Qed.
Lemma option_step_short c opt arg : bufs_ok c -> (forall a, arg = Some a -> short_runs a) ->
  match option_step c opt arg with Err _ => False | Ok (inl c') => bufs_ok c' | Ok (inr _) => True end.
Proof.
  intros (B1 & B2 & B3) S. destruct arg as [a|]; cbn [option_step].
  - specialize (S a eq_refl).
    assert (W : forall w, sscanf_s FNAMEWIDTH a = Some w -> len w <= 199).
    { intros w E. apply sscanf_s_width in E as (_ & u & v & E & F). exact (S u w v E F). }
    destruct (opt =? 105); [|destruct (opt =? 111); [|destruct (opt =? 70); [|destruct (opt =? 102)]]].
    1,2,3: destruct (sscanf_s FNAMEWIDTH a) as [w|]; [|exact I]; specialize (W w eq_refl);
      match goal with |- context [store_name ?b w] => destruct (store_name_ok b w) as (b' & -> & L); [assumption|assumption|] end;
      cbn; repeat split; assumption.
    + destruct (sscanf_d a); [repeat split; assumption|exact I].
    + repeat split; assumption.
  - destruct (opt =? 120); [|destruct (opt =? 100); [|destruct (opt =? 104)]]; try exact I; repeat split; assumption.
Qed.
(** optarg is a suffix of a word of argv *)
Definition sub (argv : list (list Z)) (p : list Z) : Prop := p = [] \/ exists u, In (u ++ p) argv.
Lemma argn_sub argv i : sub argv (argn argv i).
Proof.
  unfold argn, sub. destruct (Nat.lt_ge_cases (Z.to_nat i) (length argv)) as [L|L].
  - right. exists []. now apply nth_In.
  - left. now apply nth_overflow.
Qed.
Lemma sub_tail argv c p : sub argv (c :: p) -> sub argv p.
Proof. intros [H|[u H]]; [discriminate|]. right. exists (u ++ [c]). now rewrite <- app_assoc. Qed.
Lemma getopt_sub argv ostr g r arg g' : sub argv (place g) -> getopt argv ostr g = (r, arg, g') ->
  r <> None -> sub argv (place g') /\ (forall a, arg = Some a -> sub argv a).
Proof.
  intros G. unfold getopt.
  set (st := match place g with [] => _ | _ :: _ => _ end).
  assert (ST : match st with inr _ => True | inl p => sub argv p end).
  { subst st. destruct (place g) as [|c p] eqn:P; [|exact G].
    destruct (len argv <=? optind g); [exact I|]. pose proof (argn_sub argv (optind g)) as A.
    destruct (argn argv (optind g)) as [|a w]; [exact I|]. destruct (a =? DASH) eqn:E; [|exact I].
    destruct w as [|b w].
    - unfold DASH in *. replace [45] with [a] by (f_equal; lia). exact A.
    - destruct (b =? DASH); [exact I|]. now apply sub_tail in A. }
  clearbody st. destruct st as [[|c pl]|g0].
  1,3: intros E; injection E as <- <- <-; congruence.
  pose proof (sub_tail _ _ _ ST) as T.
  destruct (if c =? COLON then None else strchr ostr c) as [oli|].
  - destruct (tl oli) as [|k ks]; [|destruct (k =? COLON)].
    + intros E; injection E as <- <- <-. intros _. split; [exact T|discriminate].
    + destruct pl as [|b pl]; [destruct (len argv <=? optind g + 1)|]; intros E; injection E as <- <- <-; intros _;
        (split; [now left|]); try discriminate; intros a Ha; inv Ha; [apply argn_sub|assumption].
    + intros E; injection E as <- <- <-. intros _. split; [exact T|discriminate].
  - destruct (c =? DASH); intros E; injection E as <- <- <-; intros _; (split; [exact T|discriminate]).
Qed.
Lemma short_sub argv a : Forall short_runs argv -> sub argv a -> short_runs a.
Proof.
  intros F [->|[u I]].
  - intros x m y E _. destruct x, m; try discriminate E. rewrite len_nil. lia.
  - rewrite Forall_forall in F. apply short_runs_suffix with u. now apply F.
Qed.
Lemma option_loop_short argv : Forall short_runs argv -> forall fuel g c, sub argv (place g) -> bufs_ok c ->
  match option_loop fuel argv g c with Some (Err _) => False | _ => True end.
Proof.
  intros F. induction fuel as [|fuel IH]; intros g c G B; [exact I|]. cbn [option_loop].
  destruct (getopt argv OPTS g) as [[[opt|] arg] g'] eqn:E; [|exact I].
  destruct (getopt_sub _ _ _ _ _ _ G E ltac:(discriminate)) as [G' A].
  pose proof (option_step_short c opt arg B (fun a Ha => short_sub _ _ F (A a Ha))) as S.
  destruct (option_step c opt arg) as [[c'|k]|e]; [apply IH; assumption|exact I|contradiction].
Qed.
Lemma cli_short argv : Forall short_runs argv -> exists o, cli argv = Some (Ok o).
Proof.
  intros F. pose proof (cli_total argv) as T. unfold cli in *.
  pose proof (option_loop_short argv F (cli_fuel argv) (mkG [] 1) config0 (or_introl eq_refl) config0_ok) as S.
  destruct (option_loop _ _ _ _) as [[[c|k]|e]|]; [eauto|eauto|contradiction|congruence].
Qed.
Lemma cli_extent a w : sscanf_s FNAMEWIDTH a = Some w -> len (w ++ [0]) <= 201.
Proof. intros E. apply sscanf_s_width in E as [L _]. rewrite len_app. change (len [0]) with 1. lia. Qed.
