(** A computation in doubles, by pairwise sums, and constant backgrounds. *)
From Coq Require Import QArith Qabs Qround Lqa Permutation List Lia.
From Coq Require Import ZifyBool.
From Verif Require Import Float Base UtilsModel UtilsSpec UtilsProofs UtilsProofs3 FpfindModel FpfindSpec AccuracySpec AccuracyProofs GroundProofs PlotProofs PromProofs ScoreModel ScoreSpec ScoreProofs.
Import ListNotations. Local Open Scope Z_scope.

Fixpoint halves (f : nat) (l : list Q) : Q :=
  match f with
  | O => hd 0%Q l
  | S g => match l with
           | [] => 0%Q
           | [x] => x
           | _ => let h := len l / 2 in fl 53 (halves g (take h l) + halves g (drop h l))%Q
           end
  end.
Definition dmean (l : list Q) : Q := fl 53 (halves 32 l / inject_Z (len l))%Q.
Definition droot (v : Q) : Q := (inject_Z (Z.sqrt (Qnum v * Zpos (Qden v) * 2 ^ 120)) / inject_Z (Zpos (Qden v) * 2 ^ 60))%Q.
Definition dvar (l : list Q) : Q := let m := dmean l in dmean (map (fun x => let d := fl 53 (x - m)%Q in fl 53 (d * d)%Q) l).
Definition dscore (m : Q) (bg : list Q) : Q :=
  let sd := droot (dvar bg) in if Qeq_bool sd 0 then 0%Q else fl 53 (inject_Z (Qfloor (fl 53 (fl 53 (fl 53 (m - dmean bg) / sd) * 1000) + (1 # 2))) / 1000)%Q.
Definition double_zs (m : Q) (bg : list Q) : Q := if forallb (fun x => Qeq_bool (fl 53 x) x) bg then dscore m bg else exact_zs m bg.

Lemma halves_sums f l : l <> [] -> len l <= 2 ^ Z.of_nat f -> sums (fl 53) (Z.of_nat f) l (halves f l).
Proof.
  revert l. induction f as [|f IH]; intros l N L.
  - destruct l as [|x [|y l]]; [congruence| |]. + apply sums_one. lia. + rewrite !len_cons in L. pose proof (len_nonneg l). change (2 ^ Z.of_nat 0) with 1 in L. lia.
  - rewrite Nat2Z.inj_succ, Z.pow_succ_r in L by lia. destruct l as [|x [|y l]]; [congruence|apply sums_one; lia|]. set (L2 := x :: y :: l) in *. assert (L0 : 2 <= len L2) by (unfold L2; rewrite !len_cons; pose proof (len_nonneg l); lia).
    change (halves (S f) L2) with (let h := len L2 / 2 in fl 53 (halves f (take h L2) + halves f (drop h L2))%Q). cbv zeta. set (h := len L2 / 2). assert (H : 2 * h <= len L2 < 2 * h + 2) by (unfold h; pose proof (Z.div_mod (len L2) 2); pose proof (Z.mod_pos_bound (len L2) 2); lia).
    rewrite Nat2Z.inj_succ. rewrite <- (take_drop h L2) at 1. change (Z.succ (Z.of_nat f)) with (Z.of_nat f + 1). pose proof (len_take h L2 ltac:(lia)) as T. pose proof (len_drop h L2 ltac:(lia)) as U. apply sums_add; apply IH; try lia.
    + intros E. rewrite E in T. change (len (@nil Q)) with 0 in T. lia.
    + intros E. rewrite E in U. change (len (@nil Q)) with 0 in U. lia.
Qed.
Lemma sums_more rd k k' l x : sums rd k l x -> k <= k' -> sums rd k' l x.
Proof.
  intros H. revert k'. induction H as [k x K|k a b x y H1 IH1 H2 IH2|k a b x PE H IH]; intros k' L.
  - apply sums_one. lia.
  - replace k' with (k' - 1 + 1) by lia. apply sums_add; [apply IH1|apply IH2]; lia.
  - now apply (sums_perm rd k' a b x PE), IH.
Qed.
Lemma dmean_of l : l <> [] -> len l <= 4294967296 -> mean_of (fl 53) 1024 l (dmean l).
Proof. intros N L. exists (halves 32 l). split; [|reflexivity]. apply (sums_more _ (Z.of_nat 32)); [apply halves_sums; assumption|discriminate]. Qed.
Lemma droot_of v : (0 <= v)%Q -> root_of v (droot v).
Proof.
  intros V0. destruct v as [n d]. assert (N0 : 0 <= n) by (unfold Qle in V0; cbn [Qnum Qden] in V0; lia). unfold droot. cbn [Qnum Qden].
  set (P := Zpos d). set (N := n * P * 2 ^ 120). set (s := Z.sqrt N). assert (PP : 0 < P) by (unfold P; lia). assert (NN : 0 <= N) by (unfold N; apply Z.mul_nonneg_nonneg; [apply Z.mul_nonneg_nonneg; lia|discriminate]).
  pose proof (Z.sqrt_spec N NN) as [A B]. fold s in A, B. pose proof (Z.sqrt_nonneg N) as S0. fold s in S0.
  assert (EV : (n # d == inject_Z N / inject_Z (P * P * 2 ^ 120))%Q).
  { rewrite (Qmake_Qdiv n d). fold P. unfold N. rewrite !inject_Z_mult. field. split; [discriminate|]. change 0%Q with (inject_Z 0). rewrite inject_Z_injective. lia. }
  assert (D1 : (0 < inject_Z (P * 2 ^ 60))%Q) by (rewrite <- (Zlt_Qlt 0); apply Z.mul_pos_pos; [exact PP|reflexivity]).
  assert (ER : (inject_Z s / inject_Z (P * 2 ^ 60) * (inject_Z s / inject_Z (P * 2 ^ 60)) == inject_Z (s * s) / inject_Z (P * P * 2 ^ 120))%Q).
  { replace (P * P * 2 ^ 120) with ((P * 2 ^ 60) * (P * 2 ^ 60)) by (change (2 ^ 120) with (2 ^ 60 * 2 ^ 60); ring). rewrite (inject_Z_mult (P * 2 ^ 60)), (inject_Z_mult s s). field. lra. }
  split; [apply Qle_shift_div_l; [exact D1|]; rewrite Qmult_0_l, <- (Zle_Qle 0); exact S0|]. rewrite ER, EV. set (E := P * P * 2 ^ 120). assert (E0 : (0 < inject_Z E)%Q) by (rewrite <- (Zlt_Qlt 0); unfold E; apply Z.mul_pos_pos; [now apply Z.mul_pos_pos|reflexivity]).
  assert (K : (Z.abs (s * s - N)) * 2 ^ 53 <= 3 * N).
  { destruct (Z.eq_dec n 0) as [->|NZ]. - assert (NE : N = 0) by (unfold N; ring). assert (s = 0) as -> by (unfold s; rewrite NE; reflexivity). rewrite NE. reflexivity.
    - assert (NB : 2 ^ 120 <= N). { unfold N. rewrite <- (Z.mul_1_l (2 ^ 120)) at 1. apply Z.mul_le_mono_nonneg_r; [discriminate|]. enough (0 < n * P) by lia. apply Z.mul_pos_pos; lia. }
      assert (SB : 2 ^ 60 <= s). { unfold s. rewrite <- (Z.sqrt_square (2 ^ 60)) by discriminate. apply Z.sqrt_le_mono. change (2 ^ 60 * 2 ^ 60) with (2 ^ 120). exact NB. }
      rewrite Z.abs_neq by lia. assert (N - s * s <= 2 * s) by lia. assert (2 * s * 2 ^ 53 <= 3 * (s * s)).
      { replace (3 * (s * s)) with (s * (3 * s)) by ring. replace (2 * s * 2 ^ 53) with (s * (2 * 2 ^ 53)) by ring. apply Z.mul_le_mono_nonneg_l; [lia|]. change (2 * 2 ^ 53) with 18014398509481984. change (2 ^ 60) with 1152921504606846976 in SB. lia. }
      change (2 ^ 53) with 9007199254740992 in *. lia. }
  setoid_replace (inject_Z (s * s) / inject_Z E - inject_Z N / inject_Z E)%Q with (inject_Z (s * s - N) / inject_Z E)%Q by (unfold Z.sub; rewrite inject_Z_plus, inject_Z_opp; field; lra).
  unfold Qdiv. rewrite Qabs_Qmult, (Qabs_pos (/ inject_Z E)) by (pose proof (Qinv_lt_0_compat _ E0); lra). rewrite Qmult_assoc. apply Qmult_le_compat_r; [|pose proof (Qinv_lt_0_compat _ E0); lra].
  change (Qabs (inject_Z (s * s - N))) with (inject_Z (Z.abs (s * s - N))). rewrite Zle_Qle, !inject_Z_mult in K. change (inject_Z (2 ^ 53)) with 9007199254740992%Q in K. change (inject_Z 3) with 3%Q in K. lra.
Qed.
Lemma dvar_nonneg bg : bg <> [] -> len bg <= 4294967296 -> (0 <= dvar bg)%Q.
Proof.
  intros N L. unfold dvar. cbv zeta. set (m := dmean bg). set (z := fun x => let d := fl 53 (x - m)%Q in fl 53 (d * d)%Q).
  assert (ZP : forall x, (0 <= z x)%Q). { intros x. unfold z. cbv zeta. set (d := fl 53 (x - m)%Q). destruct (Qlt_le_dec 0 (d * d)) as [P|P]; [apply Qlt_le_weak, fl_pos; [lia|exact P]|]. rewrite fl_0; [apply Qle_refl|]. pose proof (Qsq_nonneg d). lra. }
  assert (HP : forall f l, (forall x, In x l -> 0 <= x)%Q -> (0 <= halves f l)%Q).
  { induction f as [|f IH]; intros l H; [destruct l; [apply Qle_refl|apply H; now left]|]. destruct l as [|x [|y l]]; [apply Qle_refl|apply H; now left|]. set (L2 := x :: y :: l) in *. change (halves (S f) L2) with (let h := len L2 / 2 in fl 53 (halves f (take h L2) + halves f (drop h L2))%Q). cbv zeta. set (h := len L2 / 2).
    assert (A : (0 <= halves f (take h L2) + halves f (drop h L2))%Q).
    { assert (0 <= halves f (take h L2))%Q by (apply IH; intros w W; apply H; rewrite <- (take_drop h L2); apply in_or_app; now left). assert (0 <= halves f (drop h L2))%Q by (apply IH; intros w W; apply H; rewrite <- (take_drop h L2); apply in_or_app; now right). lra. }
    destruct (Qlt_le_dec 0 (halves f (take h L2) + halves f (drop h L2))) as [P|P]; [apply Qlt_le_weak, fl_pos; [lia|exact P]|]. rewrite fl_0; [apply Qle_refl|]. lra. }
  unfold dmean. assert (A : (0 <= halves 32 (map z bg))%Q) by (apply HP; intros x X; apply in_map_iff in X as (w & <- & _); apply ZP). pose proof (len_pos bg N) as K. rewrite len_map.
  set (q := (halves 32 (map z bg) / inject_Z (len bg))%Q). assert (Q0 : (0 <= q)%Q) by (unfold q; apply Qle_shift_div_l; lra). destruct (Qlt_le_dec 0 q) as [P|P]; [apply Qlt_le_weak, fl_pos; [lia|exact P]|]. rewrite fl_0; [apply Qle_refl|]. lra.
Qed.
Lemma dscore_of m bg : bg <> [] -> len bg <= 4294967296 -> score_of (fl 53) 1024 m bg (dscore m bg).
Proof.
  intros N L. exists (dmean bg), (droot (dvar bg)). split; [now apply dmean_of|]. split.
  - exists (dmean bg), (dvar bg). split; [now apply dmean_of|]. split; [|now apply droot_of, dvar_nonneg]. unfold dvar. cbv zeta. apply dmean_of; [destruct bg; [congruence|discriminate]|now rewrite len_map].
  - unfold dscore. cbv zeta. destruct (Qeq_bool (droot (dvar bg)) 0); [reflexivity|]. eexists. split; [|reflexivity]. unfold nearest. set (p := fl 53 (_ * 1000)%Q).
    pose proof (Qfloor_le (p + (1 # 2))) as A. pose proof (Qlt_floor (p + (1 # 2))) as B. rewrite inject_Z_plus in B. change (inject_Z 1) with 1%Q in B. apply qabs_both. lra.
Qed.
Definition MD (rt rs : Q -> Q) xc : fpu := mkFpu rt rs xc double_zs.
Lemma in_doubles_MD rt rs xc : in_doubles (MD rt rs xc).
Proof.
  intros m bg N L. cbn [MD zs]. unfold double_zs. assert (E : forallb (fun x => Qeq_bool (fl 53 x) x) bg = true <-> Forall double bg).
  { rewrite forallb_forall, Forall_forall. unfold double. split; intros H x X; specialize (H x X); now apply Qeq_bool_iff. }
  destruct (forallb _ bg); split; intros H.
  - now apply dscore_of.
  - destruct H. now apply E.
  - apply E in H. discriminate.
  - reflexivity.
Qed.
(** ** Constant backgrounds *)
Lemma sums_const k l x c : sums (fl 53) k l x -> Forall (fun y => y == inject_Z c)%Q l -> Z.abs c * len l <= 2 ^ 53 -> (x == inject_Z (c * len l))%Q.
Proof.
  intros H. induction H as [k x K|k a b x y H1 IH1 H2 IH2|k a b x PE H IH]; intros F L.
  - inversion F; subst. change (len [x]) with 1. now rewrite Z.mul_1_r.
  - apply Forall_app in F as [F1 F2]. rewrite len_app in *. pose proof (len_nonneg a). pose proof (len_nonneg b). rewrite (fl_eq 53 _ (inject_Z (c * (len a + len b)))).
    + apply fl_int; [lia|]. rewrite Z.abs_mul, (Z.abs_eq (len a + len b)) by lia. exact L.
    + rewrite IH1, IH2 by (try assumption; nia). rewrite <- inject_Z_plus. replace (c * len a + c * len b) with (c * (len a + len b)) by ring. reflexivity.
  - assert (EL : len a = len b) by (unfold len; now rewrite (Permutation_length PE)). rewrite <- EL in *. apply IH; [|exact L]. rewrite Forall_forall in *. intros y Y. apply F. now apply (Permutation_in y PE).
Qed.
Lemma mean_const k l m c : mean_of (fl 53) k l m -> Forall (fun y => y == inject_Z c)%Q l -> Z.abs c * len l <= 2 ^ 53 -> (m == inject_Z c)%Q.
Proof.
  intros (s & H & ->) F L. pose proof (sums_nonempty _ _ _ _ H) as N. pose proof (len_pos l N) as K. pose proof (sums_const _ _ _ _ H F L) as E. assert (N1 : 1 <= len l) by (rewrite <- (Zlt_Qlt 0) in K; lia).
  rewrite (fl_eq 53 _ (inject_Z c)); [apply fl_int; [lia|nia]|]. rewrite E, inject_Z_mult. field. lra.
Qed.
Lemma c148 k m bg v c : score_of (fl 53) k m bg v -> Forall (fun y => y == inject_Z c)%Q bg -> Z.abs c * len bg <= 2 ^ 53 -> v = 0%Q.
Proof.
  intros (mean & sd & _ & (m2 & w & HM & HV & S0 & SR) & H) F L. pose proof (mean_const _ _ _ _ HM F L) as EM.
  assert (EV : (w == inject_Z 0)%Q).
  { apply (mean_const _ _ _ 0 HV); [|rewrite Z.abs_0, Z.mul_0_l; discriminate]. rewrite Forall_forall in *. intros y Y. apply in_map_iff in Y as (x & <- & X). rewrite (fl_0 53 (x - m2)) by (rewrite EM, (F x X); ring). rewrite fl_0 by reflexivity. reflexivity. }
  change (inject_Z 0) with 0%Q in EV. rewrite EV, Qmult_0_r in SR. assert (EZ : (sd * sd == 0)%Q) by (apply qabs_both in SR; lra). assert (E0 : (sd == 0)%Q) by (destruct (Qmult_integral _ _ EZ); assumption). apply Qeq_bool_iff in E0. rewrite E0 in H. exact H.
Qed.
(** three times 0.1 *)
Definition tenth : Q := fl 53 (1 # 10).
Lemma c148_wrong : exists v, score_of (fl 53) 1024 (2 * tenth) [tenth; tenth; tenth] v /\ Forall double [tenth; tenth; tenth] /\ (7000000000000000 <= v)%Q.
Proof.
  exists (dscore (2 * tenth) [tenth; tenth; tenth]). split; [apply dscore_of; discriminate|]. split; [|vm_compute; discriminate]. repeat constructor; unfold double; apply Qeq_bool_iff; vm_compute; reflexivity.
Qed.
Lemma c148_false : ~ (forall m bg v b, score_of (fl 53) 1024 m bg v -> Forall double bg -> Forall (fun y => y = b) bg -> v = 0%Q).
Proof. intros H. destruct c148_wrong as (v & S & D & L). assert (E : v = 0%Q) by (apply (H _ _ _ tenth S D); repeat constructor). rewrite E in L. vm_compute in L. now apply L. Qed.
