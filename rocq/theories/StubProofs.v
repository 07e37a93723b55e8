(** Proofs for the stand-in script for freqcd. *)
From Coq Require Import String.
From Verif Require Import Base FreqcdModel FreqcdSpec FreqcdCli FreqcdCliSpec FreqcdExamples CdRunModel CdRunSpec CdRunProofs FreqcdCliRefute CdRunRefute StubModel StubSpec.
From Coq Require Import ZifyBool.
Local Open Scope Z_scope.

Lemma locate_absolute d t : absolute t -> locate d t = t.
Proof. intros [r ->]. reflexivity. Qed.
Lemma source_frame p fs fs' stdin n : (forall m, m <> p -> fs m = fs' m) -> n <> p -> source fs stdin n = source fs' stdin n.
Proof. intros H N. unfold source. destruct n; [reflexivity|]. now rewrite (H _ N). Qed.
Lemma missing_frame p fs fs' n : (forall m, m <> p -> fs m = fs' m) -> n <> p -> missing fs n = missing fs' n.
Proof. intros H N. unfold missing. destruct n; [reflexivity|]. now rewrite (H _ N). Qed.
Lemma out_frame p fs fs' n c : (forall m, m <> p -> fs m = fs' m) -> forall m, m <> p -> with_out fs n c m = with_out fs' n c m.
Proof. intros H m M. unfold with_out. destruct n; [now apply H|]. unfold put. destruct (same_name m _); [reflexivity|now apply H]. Qed.

Definition same_loop (p : list Z) (a b : option (cres (filesys * list Z))) : Prop :=
  match a, b with
  | Some (Ok (x, o)), Some (Ok (y, o')) => o = o' /\ forall m, m <> p -> x m = y m
  | Some (Err e), Some (Err e') => e = e'
  | None, None => True
  | _, _ => False
  end.
Lemma loop_frame p strict lg iname oname fname stdin : iname <> p -> fname <> p -> forall fuel fs fs' out ioff foff s, (forall m, m <> p -> fs m = fs' m) ->
  same_loop p (main_loop fuel strict lg iname oname fname stdin fs out ioff foff s) (main_loop fuel strict lg iname oname fname stdin fs' out ioff foff s).
Proof.
  intros NI NF. induction fuel as [|k IH]; intros fs fs' out ioff foff s H; [exact I|]. cbn [main_loop].
  rewrite (source_frame p fs fs' stdin iname H NI), (source_frame p fs fs' stdin fname H NF).
  destruct (step _ _ _ _) as [[[s' o] st]|e]; [|reflexivity]. destruct st.
  - apply IH. apply (out_frame p fs fs' oname (out ++ tx o) H).
  - split; [reflexivity|]. apply (out_frame p fs fs' oname (out ++ tx o) H).
Qed.
Definition like_run (p : list Z) (a b : option (cres ending)) : Prop :=
  match a, b with
  | Some (Ok x), Some (Ok y) => like p x y
  | Some (Err e), Some (Err e') => e = e'
  | None, None => True
  | _, _ => False
  end.
(** two runs with the same names, on file systems that differ at most in [p] *)
Lemma run_frame p strict junk ib ob fb d d' prog args ss f fs fs' stdin : asks args ss f -> (forall m, m <> p -> fs m = fs' m) -> p <> [] ->
  (forall t, named ss t -> locate d t <> p /\ locate d t = locate d' t) ->
  like_run p (freqcd_in strict junk ib ob fb d (prog :: args) fs stdin) (freqcd_in strict junk ib ob fb d' (prog :: args) fs' stdin).
Proof.
  intros K H P N. destruct (asks_start prog args ss f K) as (c & C & _ & _ & _ & N1 & N2 & N3). unfold freqcd_in. rewrite C, N1, N2, N3. cbv zeta.
  assert (L : forall o, (forall t, o = Some t -> named ss t) -> locate d (name_of o) <> p /\ locate d (name_of o) = locate d' (name_of o)).
  { intros [t|] HO; [apply N; now apply HO|]. split; [intros E; apply P; now rewrite <- E|reflexivity]. }
  destruct (L (last_of in_of ss)) as [I1 I2]; [intros t E; left; exact E|]. destruct (L (last_of out_of ss)) as [_ O2]; [intros t E; right; left; exact E|].
  destruct (L (last_of freq_of ss)) as [F1 F2]; [intros t E; right; right; exact E|].
  rewrite <- I2, <- O2, <- F2. set (i := locate d (name_of (last_of in_of ss))) in *. set (o := locate d (name_of (last_of out_of ss))) in *. set (q := locate d (name_of (last_of freq_of ss))) in *.
  rewrite (missing_frame p fs fs' i H I1). destruct (missing fs' i); [split; [reflexivity|split; [reflexivity|exact H]]|].
  fold (with_out fs o []) (with_out fs' o []). pose proof (out_frame p fs fs' o [] H) as HO. rewrite (missing_frame p _ _ q HO F1). destruct (missing _ q); [split; [reflexivity|split; [reflexivity|exact HO]]|].
  rewrite (source_frame p _ _ stdin i HO I1).
  match goal with |- context [main_loop ?n _ _ _ _ _ _ _ _ _ _ ?s] => pose proof (loop_frame p strict (c_legacy c) i o q stdin I1 F1 n _ _ [] 0 0 s HO) as LF end.
  unfold same_loop in LF. destruct (main_loop _ _ _ _ _ _ _ (with_out fs o []) _ _ _ _) as [[[x u]|e]|], (main_loop _ _ _ _ _ _ _ (with_out fs' o []) _ _ _ _) as [[[y v]|e']|]; try contradiction; [|exact LF|exact I].
  destruct LF as [-> LF]. split; [reflexivity|]. split; [reflexivity|exact LF].
Qed.
Lemma record_name pl : record_file pl = root pl ++ [47; 102; 114; 101; 113; 99; 100; 95; 112; 97; 116; 104].
Proof. reflexivity. Qed.
Lemma record_some pl : record_file pl <> [].
Proof. rewrite record_name. destruct (root pl); discriminate. Qed.
Lemma same_refl n : same_name n n = true.
Proof. now apply same_name_iff. Qed.
Lemma alike_run p a b (da db : list Z -> bool) : like_run p a b ->
  alike p (match a with None => None | Some (Err e) => Some (Err e) | Some (Ok en) => Some (Ok (en, da)) end) (match b with None => None | Some (Err e) => Some (Err e) | Some (Ok en) => Some (Ok (en, db)) end).
Proof. intros H. destruct a as [[x|e]|], b as [[y|e']|]; exact H. Qed.

Lemma C164_partial_lemma : C164_partial_statement.
Proof.
  intros strict junk ib ob fb pl w cwd prog args ss f stdin CO A K N. unfold call. rewrite CO, !locate_absolute by exact A. cbn [compiled_at compiled data]. rewrite same_refl. cbn [orb].
  assert (R : forall d fs, (forall m, m <> record_file pl -> fs m = data w m) -> like_run (record_file pl) (freqcd_in strict junk ib ob fb d (prog :: args) fs stdin) (freqcd_in strict junk ib ob fb cwd (prog :: args) (data w) stdin)).
  { intros d fs H. apply (run_frame _ _ _ _ _ _ _ _ _ _ ss f); [exact K|exact H|apply record_some|]. intros t T. destruct (N t T) as [B NR]. rewrite !locate_absolute by exact B. now split. }
  destruct (compiled w prog); apply alike_run, R; [reflexivity|]. intros m M. now apply put_other.
Qed.
Lemma C164_actual_lemma : C164_actual_statement.
Proof.
  intros strict junk ib ob fb pl w cwd prog args ss f stdin CO A NC K N. unfold call. rewrite CO, !locate_absolute by exact A. cbn [compiled_at compiled data]. rewrite same_refl, NC. cbn [orb].
  apply alike_run. apply (run_frame _ _ _ _ _ _ _ _ _ _ ss f); [exact K| |apply record_some|].
  - intros m M. now apply put_other.
  - intros t T. split; [now apply N|reflexivity].
Qed.
Lemma locate_in d a b : in_directory d a b -> locate d (name_of a) = name_of b.
Proof.
  unfold in_directory. destruct a as [t|], b as [u|]; try contradiction; [|reflexivity]. cbn [name_of]. intros [[A ->]|(N & A & ->)]; [now apply locate_absolute|].
  destruct t as [|c r]; [contradiction|]. cbn [locate]. destruct (c =? 47) eqn:E; [|reflexivity]. contradiction A. exists r. f_equal. lia.
Qed.
Lemma C164_main_lemma : C164_main_statement.
Proof.
  intros strict junk ib ob fb pl w cwd prog args ss args' ss' f stdin CO K K' LG D1 D2 D3. unfold call. rewrite CO.
  assert (freqcd_in strict junk ib ob fb cwd (prog :: args) (data w) stdin = freqcd_main strict junk ib ob fb (prog :: args') (data w) stdin) as ->.
  { destruct (asks_start prog args ss f K) as (c & C & CF & CL & _ & N1 & N2 & N3). destruct (asks_start prog args' ss' f K') as (c' & C' & CF' & CL' & _ & N1' & N2' & N3').
    unfold freqcd_in, freqcd_main. rewrite C, N1, N2, N3, C', N1', N2', N3', CF, CF', CL, CL', LG. cbv zeta.
    rewrite (locate_in _ _ _ D1), (locate_in _ _ _ D2), (locate_in _ _ _ D3). reflexivity. }
  destruct (freqcd_main _ _ _ _ _ _ _ _) as [[e|e]|]; reflexivity.
Qed.

Lemma call_done strict junk ib ob fb pl w cwd prog args stdin e done : call strict junk ib ob fb pl w cwd prog args stdin = Some (Ok (e, done)) ->
  done = compiled w /\ (compiled w (locate cwd prog) = true \/ compiles pl (locate (root pl) prog) = false) \/
  compiled w (locate cwd prog) = false /\ done = (fun m => same_name m (locate (root pl) prog) || compiled w m).
Proof.
  unfold call. intros H. destruct (compiled w (locate cwd prog)).
  - destruct (freqcd_in _ _ _ _ _ _ _ _ _) as [[x|]|]; inversion H. left. split; [reflexivity|now left].
  - destruct (compiles pl _); [|inversion H; left; split; [reflexivity|now right]]. destruct (freqcd_in _ _ _ _ _ _ _ _ _) as [[x|]|]; inversion H. right. split; reflexivity.
Qed.
Lemma C165_partial_lemma : C165_partial_statement.
Proof.
  intros strict junk ib ob fb pl w cwd prog args stdin e done CO H A. destruct (call_done _ _ _ _ _ _ _ _ _ _ _ _ _ H) as [[-> [D|D]]|[_ ->]]; [exact D|congruence|].
  cbv beta. assert (locate cwd prog = locate (root pl) prog) as -> by (destruct A as [A| ->]; [now rewrite !locate_absolute by exact A|reflexivity]). now rewrite same_refl.
Qed.
Lemma C165_actual_lemma : C165_actual_statement.
Proof.
  intros strict junk ib ob fb pl w cwd prog args stdin e done H NC N. destruct (call_done _ _ _ _ _ _ _ _ _ _ _ _ _ H) as [[-> _]|[_ ->]]; [exact NC|]. cbv beta. rewrite NC, Bool.orb_false_r.
  destruct (same_name _ _) eqn:E; [apply same_name_iff in E; contradiction|reflexivity].
Qed.
Lemma in_quiet strict junk ib ob fb d argv fs stdin e : freqcd_in strict junk ib ob fb d argv fs stdin = Some (Ok e) -> code e <> 0 -> stdout e = [].
Proof.
  unfold freqcd_in. cbv zeta. intros H C. destruct (cli argv) as [[[k|c]|]|]; try discriminate; [inversion H; subst; reflexivity|].
  destruct (cstring (c_in c)); [|discriminate]. destruct (cstring (c_out c)); [|discriminate]. destruct (cstring (c_freq c)); [|discriminate].
  destruct (missing fs _); [inversion H; subst; reflexivity|]. destruct (missing _ _); [inversion H; subst; reflexivity|].
  destruct (main_loop _ _ _ _ _ _ _ _ _ _ _ _) as [[[x u]|]|]; inversion H; subst. now contradiction C.
Qed.
Lemma C166_partial_lemma : C166_partial_statement.
Proof.
  intros strict junk ib ob fb pl w cwd prog args stdin e done H A C. unfold call in H. destruct (compiled w (locate cwd prog)).
  - destruct (freqcd_in _ _ _ _ _ _ _ _ _) as [[x|]|] eqn:E; inversion H; subst. exact (in_quiet _ _ _ _ _ _ _ _ _ _ E C).
  - destruct A as [A|A]; [discriminate|]. rewrite A in H. destruct (freqcd_in _ _ _ _ _ _ _ _ _) as [[x|]|] eqn:E; inversion H; subst. exact (in_quiet _ _ _ _ _ _ _ _ _ _ E C).
Qed.
Lemma C166_actual_lemma : C166_actual_statement.
Proof.
  intros strict junk ib ob fb pl w cwd prog args stdin NC NO. unfold call. rewrite NC, NO. eexists _, _. split; [reflexivity|]. cbn [code stdout files].
  split; [reflexivity|]. split; [reflexivity|]. rewrite <- record_name. split; [intros m M; now apply put_other|]. split; [apply put_same|reflexivity].
Qed.

(** ** freqcd -i a in /h, installed in /r *)
Definition argsI : list (list Z) := [str "-i"; str "a"].
Lemma asksI : asks argsI [InName (str "a")] 0.
Proof.
  split; [|split; [|split]].
  - apply (W_detached [] (InName (str "a")) (str "a") [] []); [constructor|reflexivity|]. constructor. exact I.
  - exact (Forall_cons (InName _) good_a (Forall_nil _)).
  - intros [H|[]]; discriminate H.
  - exists 0. split; reflexivity.
Qed.
Definition argsJ : list (list Z) := [str "-i"; str "/h/a"].
Lemma asksJ : asks argsJ [InName (str "/h/a")] 0.
Proof.
  split; [|split; [|split]].
  - apply (W_detached [] (InName (str "/h/a")) (str "/h/a") [] []); [constructor|reflexivity|]. constructor. exact I.
  - constructor; [|constructor]. apply good_short_name; [reflexivity|discriminate|vm_compute; discriminate].
  - intros [H|[]]; discriminate H.
  - exists 0. split; reflexivity.
Qed.
Definition homes : world := mkW (fun m => if same_name m (str "/h/a") then Some [] else None) (fun _ => false).
Definition there (ok : bool) : place := mkPlace (str "/r") (fun _ => ok).
Definition seen_call (r : option (cres result)) : option (Z * list Z) := match r with Some (Ok (e, _)) => Some (code e, stdout e) | _ => None end.
Lemma first_I : seen_call (call true None IB IB FB (there true) homes (str "/h") (str "/b/freqcd") argsI []) = Some (-3, []).
Proof. vm_compute. reflexivity. Qed.
Lemma later_I : seen_call (call true None IB IB FB (there true) (compiled_at homes (str "/b/freqcd")) (str "/h") (str "/b/freqcd") argsI []) = Some (0, []).
Proof. vm_compute. reflexivity. Qed.
Lemma C164_refuted_lemma : ~ C164_statement.
Proof.
  intros H. specialize (H true None IB IB FB (there true) homes (str "/h") (str "/b/freqcd") argsI _ 0 [] eq_refl (ex_intro _ (str "b/freqcd") eq_refl) asksI).
  pose proof first_I as A. pose proof later_I as B. destruct (call _ _ _ _ _ _ homes _ _ _ _) as [[[x dx]|]|]; try discriminate A. destruct (call _ _ _ _ _ _ _ _ _ _ _) as [[[y dy]|]|]; try discriminate B.
  destruct H as [H _]. injection A as A _. injection B as B _. congruence.
Qed.
Lemma C165_refuted_lemma : ~ C165_statement.
Proof.
  intros H.
  destruct (call true None IB IB FB (there true) homes (str "/h") (str "./freqcd") argsI []) as [[[e done]|]|] eqn:E; [|vm_compute in E; discriminate E|vm_compute in E; discriminate E].
  assert (CT : compiles (there true) (locate (root (there true)) (str "./freqcd")) = true) by reflexivity. pose proof (H _ _ _ _ _ _ _ _ _ _ _ _ _ CT E) as D. rewrite (C165_actual_lemma _ _ _ _ _ _ _ _ _ _ _ _ _ E eq_refl) in D; [discriminate D|discriminate].
Qed.
Lemma C166_refuted_lemma : ~ C166_statement.
Proof.
  intros H. destruct (C166_actual_lemma true None IB IB FB (there false) homes (str "/h") (str "/b/freqcd") argsI [] eq_refl eq_refl) as (e & done & C & CO & SO & _).
  pose proof (H _ _ _ _ _ _ _ _ _ _ _ _ _ C) as X. rewrite CO, SO in X. discriminate X. discriminate.
Qed.
