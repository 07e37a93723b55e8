From Verif Require Import Base FreqcdModel FreqcdSpec FreqcdStatements FreqcdProofs FreqcdProofs2 FreqcdProofs3 FreqcdProofs4 FreqcdProofs5 FreqcdProofs6 FreqcdProofs7 FreqcdProofs8 FreqcdProofs9 FreqcdCli FreqcdCliSpec FreqcdCliStatements FreqcdCliProofs CdRunModel CdRunSpec.
From Coq Require Import ZifyBool.
Local Open Scope Z_scope.
Ltac Zify.zify_post_hook ::= Z.div_mod_to_equations.

(** ** Files *)
Lemma same_name_iff a b : same_name a b = true <-> a = b.
Proof.
  revert b. induction a as [|x a IH]; intros [|y b]; cbn [same_name]; split; intros H; try discriminate; try reflexivity.
  - apply andb_prop in H as [H1 H2]. apply IH in H2. f_equal; [lia|exact H2].
  - injection H as -> ->. rewrite (proj2 (IH b) eq_refl). lia.
Qed.
Lemma put_same fs n c : put fs n c n = Some c.
Proof. unfold put. now rewrite (proj2 (same_name_iff n n) eq_refl). Qed.
Lemma put_other fs n c m : m <> n -> put fs n c m = fs m.
Proof. intros H. unfold put. destruct (same_name m n) eqn:E; [apply same_name_iff in E; contradiction|reflexivity]. Qed.
(** the file system with [c] in the output, if it is a file *)
Definition with_out (fs : filesys) (oname c : list Z) : filesys := match oname with [] => fs | _ => put fs oname c end.
Lemma with_out_source fs stdin oname c name : name = [] \/ name <> oname -> source (with_out fs oname c) stdin name = source fs stdin name.
Proof.
  intros H. unfold source, with_out. destruct name as [|x n]; [reflexivity|]. destruct H as [H|H]; [discriminate|].
  destruct oname; [reflexivity|]. now rewrite put_other by exact H.
Qed.
(** ** One iteration *)
Lemma step_shape strict lg s l fr s' o st : step strict lg s (Tick (Some (RdBytes l)) fr None) = Ok (s', o, st) ->
  match take (INBUFSIZE - inbytesread s mod SIZEOF_RAWEVENT) l with
  | [] => st = Stopped /\ o = mkObs [] [] []
  | c => rx o = c /\ inbytesread s' = inbytesread s mod SIZEOF_RAWEVENT + len c /\
         match fr with
         | Some (RdBytes q) => st = Running /\ rx_freq o = if freqopen s then take (FREQBUFSIZE - freqpartial s - 1) q else []
         | None => st = Running /\ rx_freq o = []
         | _ => True
         end
  end.
Proof.
  intros H. unfold step in H. destruct (copy_loop _ _ _ _) as [ib|]; cbn [bind] in H; [|discriminate].
  set (p := inbytesread s mod SIZEOF_RAWEVENT) in *. destruct (take (INBUFSIZE - p) l) as [|x c] eqn:E.
  { injection H as <- <- <-. split; reflexivity. }
  assert (WR : forall s0 got gotf s' o st, write_phase s0 None got gotf = Ok (s', o, st) -> st = Running /\ rx o = got /\ rx_freq o = gotf /\ inbytesread s' = inbytesread s0).
  { intros s0 got gotf s1 o1 st1 W. unfold write_phase in W. destruct (load _ _ _) as [data|]; cbn [bind] in W; [|discriminate]. rewrite Z.eqb_refl in W. injection W as <- <- <-. repeat split; reflexivity. }
  destruct (digest_input strict lg (with_inbuf s ib) p (x :: c)) as [s1|] eqn:DI; cbn [bind] in H; [|discriminate].
  assert (I1 : inbytesread s1 = p + len (x :: c) /\ freqopen s1 = freqopen s /\ freqpartial s1 = freqpartial s).
  { unfold digest_input in DI. destruct (store _ _ _) as [ib2|]; cbn [bind] in DI; [|discriminate].
    destruct (if negb _ && _ then _ else _) as [[ref isset]|]; cbn [bind] in DI; [|discriminate].
    destruct (digest _ _ _ _ _ _ _ _ _ _ _) as [[[[ib3 ob3] oe3] lst3]|]; cbn [bind] in DI; [|discriminate].
    destruct lst3 as [[m k]|]; [|discriminate]. destruct (signed64 _ _) as [ov|]; cbn [bind] in DI; [|discriminate]. injection DI as <-. repeat split; reflexivity. }
  destruct I1 as (I1 & I2 & I3). unfold freq_phase in H. rewrite I2, I3 in H.
  destruct fr as [[|q]|].
  - destruct (freqopen s).
    + injection H as <- <- <-. repeat split; [exact I1].
    + apply WR in H as (-> & R1 & R2 & R3). rewrite R1, R3, I1. repeat split.
  - destruct (freqopen s).
    + destruct (digest_freq s1 _) as [s2|] eqn:DF; cbn [bind] in H; [|discriminate]. apply WR in H as (-> & R1 & R2 & R3). rewrite R1, R2, R3.
      assert (inbytesread s2 = inbytesread s1) as ->; [|rewrite I1; repeat split].
      unfold digest_freq in DF. destruct (store _ _ _) as [fb|]; cbn [bind] in DF; [|discriminate].
      destruct (freq_scan _ _ _ _ _) as [[[fb1 idx] fc]|]; cbn [bind] in DF; [|discriminate]. destruct (0 <? idx); [|injection DF as <-; reflexivity].
      destruct (copy_loop _ _ _ _) as [fb2|]; cbn [bind] in DF; [|discriminate]. injection DF as <-. reflexivity.
    + apply WR in H as (-> & R1 & R2 & R3). rewrite R1, R2, R3, I1. repeat split.
  - destruct (freqopen s); apply WR in H as (-> & R1 & R2 & R3); rewrite R1, R2, R3, I1; repeat split.
Qed.
(** ** The loop as a run *)
(** ticks that bring the bytes of [X] from [ioff] on, with [n] bytes of an event pending *)
Fixpoint reads (X : list Z) (n ioff : Z) (ts : list tick) : Prop :=
  match ts with
  | [] => True
  | Tick (Some (RdBytes l)) fr None :: r =>
      l = drop ioff X /\ rd_ok fr /\ let c := take (INBUFSIZE - n) l in reads X ((n + len c) mod SIZEOF_RAWEVENT) (ioff + len c) r
  | _ => False
  end.
(** the frequency bytes read are those of [Z] from [foff] on *)
Fixpoint freads (Zf : list Z) (foff : Z) (os : list obs) : Prop :=
  match os with
  | [] => True
  | o :: r => (exists k, rx_freq o = take k (drop foff Zf)) /\ freads Zf (foff + len (rx_freq o)) r
  end.
Lemma take_nil_drop (X : list Z) ioff n : 0 <= n < 8 -> take (INBUFSIZE - n) (drop ioff X) = [] -> drop ioff X = [].
Proof.
  intros N H. destruct (drop ioff X) as [|x l] eqn:E; [reflexivity|]. unfold INBUFSIZE, INBUFENTRIES, SIZEOF_RAWEVENT in H.
  rewrite take_cons in H by lia. discriminate.
Qed.
Section Loop.
Context (strict lg : bool) (iname oname fname stdin X Zf : list Z).
Hypothesis IO : iname = [] \/ iname <> oname.
Hypothesis FO : fname = [] \/ fname <> oname.
Hypothesis FZ : fname = [] -> Zf = [].
Hypothesis BZ : bytes_ok Zf.
Lemma reads_app ts : forall n ioff t, reads X n ioff (ts ++ [t]) -> reads X n ioff ts.
Proof.
  induction ts as [|[|[[|l]|] fr [w|]] ts IH]; intros n ioff t R; cbn [app reads] in *; try contradiction; [exact I|]. destruct R as (A & B & R). split; [exact A|]. split; [exact B|]. eapply IH, R.
Qed.
Lemma loop_run : forall fuel fs out ioff foff s r, 0 <= ioff -> 0 <= foff -> source fs stdin iname = X -> (fname <> [] -> source fs stdin fname = Zf) ->
  main_loop fuel strict lg iname oname fname stdin fs out ioff foff s = Some r ->
  exists ts s' os, reads X (inbytesread s mod SIZEOF_RAWEVENT) ioff ts /\ run strict lg s ts = Ok (s', os, Running) /\ freads Zf foff os /\ Forall (fun o => rx o <> []) os /\
    (match os with o :: _ => freqopen s = true -> rx_freq o = take (FREQBUFSIZE - freqpartial s - 1) (drop foff Zf) | [] => True end) /\
    match r with
    | Err e => exists t, reads X (inbytesread s mod SIZEOF_RAWEVENT) ioff (ts ++ [t]) /\ run strict lg s (ts ++ [t]) = Err e
    | Ok (fs', out') => out' = out ++ written os /\ drop ioff X = received os /\
        (forall m, m <> oname -> fs' m = fs m) /\ (oname <> [] -> fs' oname = Some out') /\ (oname = [] -> fs' = fs)
    end.
Proof.
  induction fuel as [|k IH]; intros fs out ioff foff s r I0 F0 SX SZ H; [discriminate|]. cbn [main_loop] in H. rewrite SX in H.
  set (fr := match fname with [] => None | _ => Some (RdBytes (drop foff (source fs stdin fname))) end) in H.
  assert (FR : fr = None /\ Zf = [] \/ fr = Some (RdBytes (drop foff Zf))).
  { unfold fr. destruct fname eqn:EF; [left; split; [reflexivity|now apply FZ]|]. right. rewrite SZ by discriminate. reflexivity. }
  assert (RK : rd_ok fr) by (destruct FR as [[-> _]| ->]; [exact I|cbn [rd_ok]; now apply Forall_drop]).
  destruct (step strict lg s _) as [[[s' o] st]|e] eqn:ST.
  2: { injection H as <-. exists [], s, []. cbn [reads run freads app]. split; [exact I|]. split; [reflexivity|]. split; [exact I|]. split; [constructor|]. split; [exact I|].
       exists (Tick (Some (RdBytes (drop ioff X))) fr None). split; [cbn [reads]; tauto|]. now rewrite ST. }
  pose proof (step_shape _ _ _ _ _ _ _ _ ST) as SH. fold (with_out fs oname (out ++ tx o)) in H.
  assert (N : 0 <= inbytesread s mod SIZEOF_RAWEVENT < 8) by (unfold SIZEOF_RAWEVENT; lia).
  destruct (take (INBUFSIZE - inbytesread s mod SIZEOF_RAWEVENT) (drop ioff X)) as [|x c] eqn:TK.
  - destruct SH as [-> ->]. cbn [tx] in H. rewrite app_nil_r in H. injection H as <-. exists [], s, []. cbn [reads run freads].
    change (written []) with (@nil Z). rewrite app_nil_r. split; [exact I|]. split; [reflexivity|]. split; [exact I|]. split; [constructor|]. split; [exact I|]. split; [reflexivity|]. split; [now apply (take_nil_drop X ioff _ N)|].
    split; [intros m M; unfold with_out; destruct oname; [reflexivity|now apply put_other]|]. split; [intros NE; unfold with_out; destruct oname; [contradiction|apply put_same]|intros ->; reflexivity].
  - destruct SH as (RX & IB & SH).
    assert (RF : st = Running /\ (exists k, rx_freq o = take k (drop foff Zf)) /\ (freqopen s = true -> rx_freq o = take (FREQBUFSIZE - freqpartial s - 1) (drop foff Zf))).
    { destruct FR as [[-> ->]| ->].
      - destruct SH as [-> ->]. split; [reflexivity|]. unfold drop, take. rewrite skipn_nil, firstn_nil. split; [exists 0; reflexivity|reflexivity].
      - destruct SH as [-> SH]. split; [reflexivity|]. rewrite SH. split; [|intros ->; reflexivity]. destruct (freqopen s); [eexists; reflexivity|]. exists 0. now rewrite take_0 by lia. }
    destruct RF as (-> & RF1 & RF2).
    apply IH in H as (ts & s2 & os & R & RU & FD & NX & _ & G); [|rewrite RX; pose proof (len_nonneg (x :: c)); lia|pose proof (len_nonneg (rx_freq o)); lia
      |rewrite with_out_source by exact IO; exact SX|intros NE; rewrite with_out_source by exact FO; now apply SZ].
    set (t0 := Tick (Some (RdBytes (drop ioff X))) fr None) in *.
    assert (RS : forall ts, reads X (inbytesread s' mod SIZEOF_RAWEVENT) (ioff + len (rx o)) ts -> reads X (inbytesread s mod SIZEOF_RAWEVENT) ioff (t0 :: ts)).
    { intros ts' R'. unfold t0. cbn [reads]. split; [reflexivity|]. split; [exact RK|]. rewrite TK. cbv zeta. rewrite IB, RX in R'. exact R'. }
    exists (t0 :: ts), s2, (o :: os). split; [now apply RS|]. cbn [run]. rewrite ST. cbn [bind]. rewrite RU. cbn [bind]. split; [reflexivity|]. split; [cbn [freads]; split; assumption|]. split; [constructor; [rewrite RX; discriminate|exact NX]|]. split; [exact RF2|].
    destruct r as [[fs' out']|e].
    2: { destruct G as (t & RT & RE). exists t. cbn [app run]. rewrite ST. cbn [bind]. rewrite RE. split; [now apply RS|reflexivity]. }
    destruct G as (-> & DR & O1 & O2 & O3). split; [unfold written; cbn [map concat]; now rewrite app_assoc|].
    split. { unfold received. cbn [map concat]. fold (received os). rewrite <- DR, RX, <- TK. rewrite TK at 2. rewrite <- TK. rewrite <- (take_drop (INBUFSIZE - inbytesread s mod SIZEOF_RAWEVENT) (drop ioff X)) at 1. f_equal.
      rewrite len_take by (unfold INBUFSIZE, INBUFENTRIES, SIZEOF_RAWEVENT in *; lia). rewrite drop_drop by (unfold INBUFSIZE, INBUFENTRIES, SIZEOF_RAWEVENT in *; lia).
      destruct (Z.le_ge_cases (INBUFSIZE - inbytesread s mod SIZEOF_RAWEVENT) (len (drop ioff X))).
      - f_equal. lia.
      - rewrite !drop_all; [reflexivity| |]; rewrite len_drop in * by lia; lia. }
    split; [intros m M; rewrite O1 by exact M; unfold with_out; destruct oname; [reflexivity|now apply put_other]|]. split; [exact O2|]. intros E. rewrite (O3 E). rewrite E. reflexivity.
Qed.
(** [S n] iterations are enough for [n] bytes *)
Lemma loop_fuel : forall fuel fs out ioff foff s, 0 <= ioff -> source fs stdin iname = X -> Z.max 0 (len X - ioff) < Z.of_nat fuel ->
  main_loop fuel strict lg iname oname fname stdin fs out ioff foff s <> None.
Proof.
  induction fuel as [|k IH]; intros fs out ioff foff s I0 SX L; [lia|]. cbn [main_loop]. rewrite SX.
  destruct (step strict lg s _) as [[[s' o] st]|e] eqn:ST; [|discriminate]. destruct st; [|discriminate].
  fold (with_out fs oname (out ++ tx o)). pose proof (step_shape _ _ _ _ _ _ _ _ ST) as SH.
  destruct (take (INBUFSIZE - inbytesread s mod SIZEOF_RAWEVENT) (drop ioff X)) as [|x c] eqn:TK; [destruct SH; discriminate|].
  destruct SH as (RX & _). assert (D : 0 < len (drop ioff X)).
  { destruct (drop ioff X); [unfold take in TK; rewrite firstn_nil in TK; discriminate|rewrite len_cons; pose proof (len_nonneg l); lia]. }
  rewrite len_drop in D by exact I0. apply IH; [rewrite RX; pose proof (len_nonneg (x :: c)); lia|rewrite with_out_source by exact IO; exact SX|].
  rewrite RX, len_cons. pose proof (len_nonneg c). lia.
Qed.
End Loop.
(** ** Blocks *)
Lemma reads_ok X : bytes_ok X -> forall ts n ioff, reads X n ioff ts -> Forall tick_ok ts.
Proof.
  intros B. induction ts as [|[|[[|l]|] fr [w|]] ts IH]; intros n ioff R; cbn [reads] in R; try contradiction; constructor.
  - cbn [tick_ok]. destruct R as (-> & RK & _). split; [cbn [rd_ok]; now apply Forall_drop|exact RK].
  - destruct R as (_ & _ & R). eapply IH, R.
Qed.
Lemma reads_done X : forall ts n ioff, drop ioff X = [] -> reads X n ioff ts -> delivered n ts = [].
Proof.
  intros [|[|[[|l]|] fr [w|]] ts] n ioff E R; cbn [reads] in R; try contradiction; [reflexivity|]. destruct R as (-> & _). cbn [delivered]. rewrite E. unfold take. now rewrite firstn_nil.
Qed.
Lemma reads_blocks X : forall ts ioff, 0 <= ioff -> reads X 0 ioff ts -> blocks 8192 (concat (delivered 0 ts)) (delivered 0 ts) /\ prefix (concat (delivered 0 ts)) (drop ioff X).
Proof.
  induction ts as [|[|[[|l]|] fr [w|]] ts IH]; intros ioff I0 R; cbn [reads] in R; try contradiction.
  - split; [constructor|]. exists (drop ioff X). reflexivity.
  - destruct R as (-> & _ & R). cbn [delivered]. change (INBUFSIZE - 0) with 8192 in *. set (c := take 8192 (drop ioff X)) in *.
    assert (LC : len c = Z.min 8192 (len (drop ioff X))) by (unfold c; now rewrite len_take by lia).
    assert (DD : drop (ioff + len c) X = drop 8192 (drop ioff X)).
    { rewrite drop_drop by lia. rewrite LC. destruct (Z.le_ge_cases 8192 (len (drop ioff X))); [f_equal; lia|]. rewrite !drop_all; [reflexivity| |]; rewrite len_drop in * by lia; lia. }
    assert (CC : drop ioff X = c ++ drop 8192 (drop ioff X)) by (unfold c; now rewrite take_drop).
    destruct c as [|x c'] eqn:EC; [split; [constructor|]; exists (drop ioff X); reflexivity|]. rewrite <- EC in *. assert (0 < len c) by (rewrite EC, len_cons; pose proof (len_nonneg c'); lia). clearbody c. cbn [concat].
    destruct (Z.eq_dec (len c) 8192) as [F|NF].
    + cbv zeta in R. rewrite F in R. change ((0 + 8192) mod SIZEOF_RAWEVENT) with 0 in R. rewrite F. change ((0 + 8192) mod SIZEOF_RAWEVENT) with 0.
      rewrite <- F in R. destruct (IH (ioff + len c) ltac:(lia) R) as (B & q & P). rewrite DD in P. split; [constructor; [lia|now left|exact B]|]. exists q. rewrite CC at 1. rewrite P. now rewrite app_assoc.
    + assert (E : drop (ioff + len c) X = []) by (rewrite DD; apply drop_all; lia). cbv zeta in R. rewrite (reads_done X _ _ _ E R). cbn [concat]. split.
      * constructor; [lia|right; split; [lia|reflexivity]|constructor].
      * exists []. rewrite !app_nil_r. rewrite CC at 1. rewrite <- DD, E. now rewrite app_nil_r.
Qed.
Lemma blocks_empty n bs : blocks n [] bs -> bs = [].
Proof. intros B. inversion B as [|b l bs' P H B' E]; [reflexivity|]. apply app_eq_nil in E as [-> _]. now cbn in P. Qed.
Lemma blocks_groups l bs : blocks 8192 l bs -> batches [] bs = map groups bs /\ concat bs = l.
Proof.
  induction 1 as [|b l bs P H B [IH1 IH2]]; [split; reflexivity|]. cbn [batches map concat app]. rewrite IH2. split; [|reflexivity]. f_equal.
  destruct H as [H|[_ ->]]; [|now rewrite (blocks_empty _ _ B)].
  assert (leftover b = []) as ->; [apply len_0_nil; rewrite len_leftover, H; reflexivity|exact IH1].
Qed.
Lemma blocks_complete l bs : blocks 8192 l bs -> len l mod 8 = 0 -> every_read_completes [] bs.
Proof.
  induction 1 as [|b l bs P H B IH]; intros M; [exact I|]. cbn [every_read_completes app]. rewrite len_app in M.
  assert (B8 : len b mod 8 = 0) by (destruct H as [H|[_ ->]]; [rewrite H; reflexivity|rewrite len_nil in M; now rewrite Z.add_0_r in M]).
  split.
  - intros E. pose proof (len_groups b) as L. rewrite E, len_nil in L. lia.
  - assert (leftover b = []) as -> by (apply len_0_nil; now rewrite len_leftover). apply IH. lia.
Qed.
Lemma blocks_first l bs : blocks 8192 l bs -> len l mod 8 = 0 -> first_complete bs.
Proof. intros B M. pose proof (blocks_complete l bs B M) as C. destruct bs as [|b bs]; [exact I|]. cbn [every_read_completes app first_complete] in *. destruct C as [C _]. pose proof (len_groups b) as L. destruct (Z.le_gt_cases 8 (len b)); [assumption|]. now rewrite groups_short in C by lia. Qed.

(** ** Names *)
Lemma cstring_upto0 b : In 0 b -> cstring b = Ok (upto0 b).
Proof.
  induction b as [|c b IH]; intros H; [destruct H|]. cbn [cstring upto0]. destruct (c =? 0) eqn:E; [reflexivity|]. rewrite IH; [reflexivity|]. destruct H as [H|H]; [lia|exact H].
Qed.
Definition names_end (c : config) : Prop := In 0 (c_in c) /\ In 0 (c_out c) /\ In 0 (c_freq c).
Lemma store_name_end buf w b : store_name buf w = Ok b -> In 0 b.
Proof.
  unfold store_name. destruct (store buf 0 (w ++ [0])) as [b1|]; cbn [bind]; [|discriminate]. unfold store. destruct (_ && _); [|discriminate]. intros H. injection H as <-.
  apply in_or_app. right. now left.
Qed.
Lemma option_step_end c opt arg c' : names_end c -> option_step c opt arg = Ok (inl c') -> names_end c'.
Proof.
  intros (A & B & C) H. unfold option_step in H. destruct arg as [a|].
  - repeat match type of H with
    | (if ?x then _ else _) = _ => destruct x
    | match sscanf_s ?n ?w with _ => _ end = _ => destruct (sscanf_s n w); [|discriminate]
    | match sscanf_d ?w with _ => _ end = _ => destruct (sscanf_d w); [|discriminate]
    | bind ?m _ = _ => let E := fresh "E" in destruct m eqn:E; cbn [bind] in H; [apply store_name_end in E|discriminate]
    end; injection H as <-; repeat split; assumption.
  - repeat match type of H with (if ?x then _ else _) = _ => destruct x end; try discriminate; injection H as <-; repeat split; assumption.
Qed.
Lemma option_loop_end argv : forall fuel g c c', names_end c -> option_loop fuel argv g c = Some (Ok (inl c')) -> names_end c'.
Proof.
  induction fuel as [|k IH]; intros g c c' N H; [discriminate|]. cbn [option_loop] in H. destruct (getopt argv OPTS g) as [[[opt|] arg] g'].
  - destruct (option_step c opt arg) as [[c1|code]|] eqn:E; try discriminate. apply (IH g' c1 c'); [now apply (option_step_end c opt arg)|exact H].
  - injection H as <-. exact N.
Qed.
Lemma cli_end argv c : cli argv = Some (Ok (Start c)) -> names_end c.
Proof.
  unfold cli. destruct (option_loop _ _ _ _) as [[[c1|code]|]|] eqn:E; try discriminate. intros H. apply option_loop_end in E; [|repeat split; now left].
  unfold check_fcorr in H. destruct (_ <=? _); [discriminate|]. injection H as <-. exact E.
Qed.
Lemma last_of_in {A} (pick : setting -> option A) ss v : last_of pick ss = Some v -> exists s, In s ss /\ pick s = Some v.
Proof.
  unfold last_of. assert (G : forall acc, fold_left (fun acc s => match pick s with Some v => Some v | None => acc end) ss acc = Some v -> acc = Some v \/ exists s, In s ss /\ pick s = Some v).
  { induction ss as [|s ss IH]; intros acc H; [now left|]. cbn [fold_left] in H. apply IH in H as [H|(s' & I & E)]; [|right; exists s'; split; [now right|exact E]].
    destruct (pick s) as [w|] eqn:E; [|now left]. injection H as ->. right. exists s. split; [now left|exact E]. }
  intros H. apply G in H as [H|H]; [discriminate|exact H].
Qed.
Lemma name_nonempty pick ss t : (forall s t, pick s = Some t -> s = InName t \/ s = OutName t \/ s = FreqName t) -> Forall good ss -> last_of pick ss = Some t -> t <> [].
Proof.
  intros P G H. apply last_of_in in H as (s & I & E). rewrite Forall_forall in G. specialize (G s I). apply P in E as [-> | [-> | ->]]; apply G.
Qed.
Lemma documented_actual d n f : documented d n = Some f -> actual d n = Some f /\ small f.
Proof.
  unfold documented, actual, small. destruct d.
  - destruct (Z.abs n <=? 1220703) eqn:E; [|discriminate]. intros H. split; [exact H|]. assert (EF : f = Z.quot (n * 2 ^ 34) (10 ^ 10)) by congruence. rewrite EF. clear H EF. change (10 ^ 10) with 10000000000. change (2 ^ 34) with 17179869184. change (2 ^ 21) with 2097152.
    assert (N : - 1220703 <= n <= 1220703) by lia. clear E. revert N. generalize (Z.quot_le_mono (n * 17179869184) (1220703 * 17179869184) 10000000000), (Z.quot_le_mono (- 1220703 * 17179869184) (n * 17179869184) 10000000000).
    replace (Z.quot (1220703 * 17179869184) 10000000000) with 2097151 by reflexivity. replace (Z.quot (- 1220703 * 17179869184) 10000000000) with (- 2097151) by reflexivity.
    generalize (Z.quot (n * 17179869184) 10000000000). intros q U L N. specialize (U ltac:(lia) ltac:(lia)). specialize (L ltac:(lia) ltac:(lia)). lia.
  - destruct (Z.abs n <=? 2097151) eqn:E; [|discriminate]. intros H. split; [exact H|]. injection H as <-. change (2 ^ 21) with 2097152. lia.
Qed.
Lemma asks_start prog args ss f : asks args ss f -> exists c, cli (prog :: args) = Some (Ok (Start c)) /\ c_fcorr c = f /\ c_legacy c = legacy_of ss /\ small f /\
  cstring (c_in c) = Ok (name_of (last_of in_of ss)) /\ cstring (c_out c) = Ok (name_of (last_of out_of ss)) /\ cstring (c_freq c) = Ok (name_of (last_of freq_of ss)).
Proof.
  intros (W & G & NH & n & HN & HD). apply documented_actual in HD as [HD SM]. pose proof (cli_actual prog args ss n W G NH HN) as (o & C & O). fold (decimal_of ss) in O. rewrite HD in O.
  destruct o as [k|c]; [discriminate|]. cbn [observe] in O. injection O as O1 O2 O3 O4 O5. exists c. destruct (cli_end _ _ C) as (E1 & E2 & E3).
  split; [exact C|]. split; [exact O1|]. split; [exact O5|]. split; [exact SM|]. rewrite !cstring_upto0 by assumption. rewrite O2, O3, O4. repeat split; reflexivity.
Qed.

(** ** Blocks and events *)
Fixpoint sized {A} (n : Z) (bs : list (list A)) : Prop :=
  match bs with [] => True | b :: r => (len b = n \/ len b <= n /\ r = []) /\ sized n r end.
Lemma blocks_sized lg X bs : blocks 8192 X bs -> sized 1024 (map (map (ev_time lg)) (map groups bs)).
Proof.
  induction 1 as [|b l bs P H B IH]; [exact I|]. cbn [map sized]. split; [|exact IH]. rewrite len_map, len_groups. destruct H as [H|[H ->]]; [left; rewrite H; reflexivity|]. right. split; [lia|]. now rewrite (blocks_empty _ _ B).
Qed.
Lemma by_index {A B} (n : Z) (R : Z -> A -> B -> Prop) : 0 < n -> forall bs tss k, sized n bs -> length tss = length bs ->
  (forall j, Forall2 (R (k + Z.of_nat j)) (nth j bs []) (nth j tss [])) ->
  forall i t t', nth_error (concat bs) i = Some t -> nth_error (concat tss) i = Some t' -> R (k + Z.of_nat i / n) t t'.
Proof.
  intros N. induction bs as [|b bs IH]; intros [|ts tss] k SZ L H i t t' E E'; try discriminate; [destruct i; discriminate|].
  cbn [concat] in E, E'. destruct SZ as [SB SZ]. pose proof (H O) as H0. cbn [nth] in H0. change (Z.of_nat 0) with 0 in H0. rewrite Z.add_0_r in H0.
  pose proof (Forall2_length' _ _ _ H0) as LB. destruct (Nat.lt_ge_cases i (length b)) as [I|I].
  - rewrite nth_error_app1 in E, E' by lia. assert (Z.of_nat i / n = 0) as -> by (apply Z.div_small; unfold len in SB; lia). rewrite Z.add_0_r.
    clear - H0 E E'. revert i E E'. induction H0; intros [|i] E E'; cbn in E, E'; try discriminate; [now injection E as <-; injection E' as <-|]. now apply (IHForall2 i).
  - rewrite nth_error_app2 in E, E' by lia. destruct SB as [SB|[_ ->]]; [|destruct (i - length b)%nat; discriminate]. rewrite <- LB in E'.
    assert (Z.of_nat i / n = 1 + Z.of_nat (i - length b) / n) as ->.
    { unfold len in SB. replace (Z.of_nat i) with (Z.of_nat (i - length b) + 1 * n) by lia. rewrite Z.div_add by lia. lia. }
    rewrite Z.add_assoc. apply (IH tss (k + 1)); [exact SZ|cbn in L; lia| |exact E|exact E'].
    intros j. specialize (H (S j)). cbn [nth] in H. replace (k + 1 + Z.of_nat j) with (k + Z.of_nat (S j)) by lia. exact H.
Qed.
Lemma corrected_extra : forall fs bs more K, length fs = length bs -> corrected K (fs ++ more) bs = corrected K fs bs.
Proof. induction fs as [|f fs IH]; intros [|b bs] more K L; try discriminate; [destruct more; reflexivity|]. cbn [app corrected]. rewrite IH by (cbn in L; lia). reflexivity. Qed.
Lemma corrected_start junk fs b bs : b <> [] -> corrected (clock0 junk) fs (b :: bs) = corrected start fs (b :: bs).
Proof. intros NE. destruct fs; [reflexivity|]. destruct b; [contradiction|]. reflexivity. Qed.
Lemma corrected_shift : forall fs bs r acc l d, Forall (fun b => b <> []) bs -> corrected (mkClock (Some r) (acc + d) l) fs bs = map (map (fun t => t + d)) (corrected (mkClock (Some r) acc l) fs bs).
Proof.
  induction fs as [|f fs IH]; intros [|b bs] r acc l d NE; try reflexivity. inv NE. destruct b as [|t0 ts]; [congruence|]. cbn [corrected map]. f_equal.
  - unfold batch_times. cbn [ref_of c_ref c_acc]. rewrite map_map. apply map_ext. intros t. lia.
  - unfold batch_clock. cbn [ref_of c_ref c_acc]. cbv zeta. rewrite <- IH by assumption. f_equal. f_equal. lia.
Qed.
Lemma first_reads X ts : len X mod 8 = 0 -> reads X 0 0 ts -> first_complete (delivered 0 ts).
Proof.
  intros M R. destruct ts as [|[|[[|l]|] fr [w|]] ts]; cbn [reads] in R; try contradiction; [exact I|]. destruct R as (-> & _). cbn [delivered].
  rewrite drop_0 by lia. change (INBUFSIZE - 0) with 8192. destruct (take 8192 X) eqn:E; [exact I|]. rewrite <- E. cbn [first_complete]. assert (P : 0 < len (take 8192 X)) by (rewrite E, len_cons; pose proof (len_nonneg l); lia).
  rewrite len_take in * by lia. lia.
Qed.
Lemma freads_done Zf : forall os foff, 0 <= foff -> len Zf <= foff -> freads Zf foff os -> Forall (fun o => rx_freq o = []) os.
Proof.
  induction os as [|o os IH]; intros foff F0 L H; [constructor|]. destruct H as [[k E] H]. rewrite drop_all in E by lia. assert (E2 : rx_freq o = []) by (rewrite E; unfold take; now rewrite firstn_nil).
  constructor; [exact E2|]. rewrite E2, len_nil, Z.add_0_r in H. now apply (IH foff).
Qed.
