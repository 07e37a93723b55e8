(** Frequency files of any length: the loop. *)
From Verif Require Import Base FreqcdModel FreqcdSpec FreqcdStatements FreqcdProofs FreqcdProofs2 FreqcdProofs3 FreqcdProofs4 FreqcdProofs5 FreqcdProofs6 FreqcdProofs7 FreqcdProofs8 FreqcdProofs9 FreqcdCli FreqcdCliSpec FreqcdCliStatements FreqcdCliProofs CdRunModel CdRunSpec CdRunProofs CdRunProofs2.
From Coq Require Import ZifyBool.
Import ListNotations.
Local Open Scope Z_scope.
Ltac Zify.zify_post_hook ::= Z.div_mod_to_equations.

(** at every tick the rest of the frequency file is offered *)
Fixpoint fticks (Zf : list Z) (foff : Z) (ts : list tick) (os : list obs) : Prop :=
  match ts, os with
  | [], [] => True
  | Tick _ (Some (RdBytes l)) _ :: tr, o :: r => l = drop foff Zf /\ fticks Zf (foff + len (rx_freq o)) tr r
  | _, _ => False
  end.
Section Loop2.
Context (strict lg : bool) (iname oname fname stdin X Zf : list Z).
Hypothesis IO : iname = [] \/ iname <> oname.
Hypothesis FO : fname = [] \/ fname <> oname.
Hypothesis FZ : fname = [] -> Zf = [].
Hypothesis BZ : bytes_ok Zf.
Lemma loop_run2 : forall fuel fs out ioff foff s r, 0 <= ioff -> 0 <= foff -> source fs stdin iname = X -> (fname <> [] -> source fs stdin fname = Zf) ->
  main_loop fuel strict lg iname oname fname stdin fs out ioff foff s = Some r ->
  exists ts s' os, reads X (inbytesread s mod SIZEOF_RAWEVENT) ioff ts /\ run strict lg s ts = Ok (s', os, Running) /\ freads Zf foff os /\ Forall (fun o => rx o <> []) os /\
    (fname <> [] -> fticks Zf foff ts os) /\
    match r with
    | Err e => exists t, reads X (inbytesread s mod SIZEOF_RAWEVENT) ioff (ts ++ [t]) /\ run strict lg s (ts ++ [t]) = Err e
    | Ok (fs', out') => out' = out ++ written os /\ drop ioff X = received os /\
        (forall m, m <> oname -> fs' m = fs m) /\ (oname <> [] -> fs' oname = Some out') /\ (oname = [] -> fs' = fs)
    end.
Proof.
  induction fuel as [|k IH]; intros fs out ioff foff s r I0 F0 SX SZ H; [discriminate|]. cbn [main_loop] in H. rewrite SX in H.
  set (fr := match fname with [] => None | _ => Some (RdBytes (drop foff (source fs stdin fname))) end) in H.
  assert (FR : fr = None /\ Zf = [] \/ fr = Some (RdBytes (drop foff Zf))).
  { unfold fr. destruct fname eqn:EF; [left; split; [reflexivity|now apply FZ]|]. right. rewrite SZ by discriminate. reflexivity. }
  assert (FRS : fname <> [] -> fr = Some (RdBytes (drop foff Zf))).
  { intros NE. unfold fr. destruct fname eqn:EF; [congruence|]. rewrite SZ by discriminate. reflexivity. }
  assert (RK : rd_ok fr) by (destruct FR as [[-> _]| ->]; [exact I|cbn [rd_ok]; now apply Forall_drop]).
  destruct (step strict lg s _) as [[[s' o] st]|e] eqn:ST.
  2: { injection H as <-. exists [], s, []. cbn [reads run freads app]. split; [exact I|]. split; [reflexivity|]. split; [exact I|]. split; [constructor|]. split; [intros _; exact I|].
       exists (Tick (Some (RdBytes (drop ioff X))) fr None). split; [cbn [reads]; tauto|]. now rewrite ST. }
  pose proof (step_shape _ _ _ _ _ _ _ _ ST) as SH. fold (with_out fs oname (out ++ tx o)) in H.
  assert (N : 0 <= inbytesread s mod SIZEOF_RAWEVENT < 8) by (unfold SIZEOF_RAWEVENT; lia).
  destruct (take (INBUFSIZE - inbytesread s mod SIZEOF_RAWEVENT) (drop ioff X)) as [|x c] eqn:TK.
  - destruct SH as [-> ->]. cbn [tx] in H. rewrite app_nil_r in H. injection H as <-. exists [], s, []. cbn [reads run freads].
    change (written []) with (@nil Z). rewrite app_nil_r. split; [exact I|]. split; [reflexivity|]. split; [exact I|]. split; [constructor|]. split; [intros _; exact I|]. split; [reflexivity|]. split; [now apply (take_nil_drop X ioff _ N)|].
    split; [intros m M; unfold with_out; destruct oname; [reflexivity|now apply put_other]|]. split; [intros NE; unfold with_out; destruct oname; [contradiction|apply put_same]|intros ->; reflexivity].
  - destruct SH as (RX & IB & SH).
    assert (RF : st = Running /\ (exists k, rx_freq o = take k (drop foff Zf)) /\ (freqopen s = true -> rx_freq o = take (FREQBUFSIZE - freqpartial s - 1) (drop foff Zf))).
    { destruct FR as [[-> ->]| ->].
      - destruct SH as [-> ->]. split; [reflexivity|]. unfold drop, take. rewrite skipn_nil, firstn_nil. split; [exists 0; reflexivity|reflexivity].
      - destruct SH as [-> SH]. split; [reflexivity|]. rewrite SH. split; [|intros ->; reflexivity]. destruct (freqopen s); [eexists; reflexivity|]. exists 0. now rewrite take_0 by lia. }
    destruct RF as (-> & RF1 & RF2).
    apply IH in H as (ts & s2 & os & R & RU & FD & NX & FT & G); [|rewrite RX; pose proof (len_nonneg (x :: c)); lia|pose proof (len_nonneg (rx_freq o)); lia
      |rewrite with_out_source by exact IO; exact SX|intros NE; rewrite with_out_source by exact FO; now apply SZ].
    set (t0 := Tick (Some (RdBytes (drop ioff X))) fr None) in *.
    assert (RS : forall ts, reads X (inbytesread s' mod SIZEOF_RAWEVENT) (ioff + len (rx o)) ts -> reads X (inbytesread s mod SIZEOF_RAWEVENT) ioff (t0 :: ts)).
    { intros ts' R'. unfold t0. cbn [reads]. split; [reflexivity|]. split; [exact RK|]. rewrite TK. cbv zeta. rewrite IB, RX in R'. exact R'. }
    exists (t0 :: ts), s2, (o :: os). split; [now apply RS|]. cbn [run]. rewrite ST. cbn [bind]. rewrite RU. cbn [bind]. split; [reflexivity|]. split; [cbn [freads]; split; assumption|]. split; [constructor; [rewrite RX; discriminate|exact NX]|]. split; [intros NE; unfold t0; cbn [fticks]; rewrite (FRS NE); split; [reflexivity|now apply FT]|].
    destruct r as [[fs' out']|e].
    2: { destruct G as (t & RT & RE). exists t. cbn [app run]. rewrite ST. cbn [bind]. rewrite RE. split; [now apply RS|reflexivity]. }
    destruct G as (-> & DR & O1 & O2 & O3). split; [unfold written; cbn [map concat]; now rewrite app_assoc|].
    split. { unfold received. cbn [map concat]. fold (received os). rewrite <- DR, RX, <- TK. rewrite TK at 2. rewrite <- TK. rewrite <- (take_drop (INBUFSIZE - inbytesread s mod SIZEOF_RAWEVENT) (drop ioff X)) at 1. f_equal.
      rewrite len_take by (unfold INBUFSIZE, INBUFENTRIES, SIZEOF_RAWEVENT in *; lia). rewrite drop_drop by (unfold INBUFSIZE, INBUFENTRIES, SIZEOF_RAWEVENT in *; lia).
      destruct (Z.le_ge_cases (INBUFSIZE - inbytesread s mod SIZEOF_RAWEVENT) (len (drop ioff X))).
      - f_equal. lia.
      - rewrite !drop_all; [reflexivity| |]; rewrite len_drop in * by lia; lia. }
    split; [intros m M; rewrite O1 by exact M; unfold with_out; destruct oname; [reflexivity|now apply put_other]|]. split; [exact O2|]. intros E. rewrite (O3 E). rewrite E. reflexivity.
Qed.

End Loop2.
Lemma main_start2 strict junk ib ob fb prog args ss f fs stdin X tf Zf :
  asks args ss f -> input_of fs stdin ss = Some X -> last_of freq_of ss = Some tf -> fs tf = Some Zf -> bytes_ok Zf ->
  separate (last_of in_of ss) (last_of out_of ss) -> separate (last_of freq_of ss) (last_of out_of ss) ->
  small f /\ exists ts s' os,
    reads X 0 0 ts /\ freqcd strict (legacy_of ss) junk ib ob fb true f ts = Ok (s', os, Running) /\ fticks Zf 0 ts os /\ Forall (fun o => rx o <> []) os /\
    ((exists e, freqcd_main strict junk ib ob fb (prog :: args) fs stdin = Some (Ok e) /\ code e = 0 /\ X = received os /\ left_behind fs (files e) (stdout e) ss (written os)) \/
     exists tk e, reads X 0 0 (ts ++ [tk]) /\ freqcd strict (legacy_of ss) junk ib ob fb true f (ts ++ [tk]) = Err e).
Proof.
  intros K IN FN FQ0 BZ S1 S2. assert (FQ : match last_of freq_of ss with Some t => fs t = Some Zf | None => Zf = [] end) by now rewrite FN. set (lg := legacy_of ss) in *.
  destruct (asks_start prog args ss f K) as (c & C & CF & CL & SM & N1 & N2 & N3). split; [exact SM|].
  destruct K as (_ & GD & _).
  set (iname := name_of (last_of in_of ss)) in *. set (oname := name_of (last_of out_of ss)) in *. set (fname := name_of (last_of freq_of ss)) in *.
  assert (NI : forall t, last_of in_of ss = Some t -> t <> []) by (intros t; apply name_nonempty; [|exact GD]; intros [] w; cbn; intros E; inv E; auto).
  assert (NO : forall t, last_of out_of ss = Some t -> t <> []) by (intros t; apply name_nonempty; [|exact GD]; intros [] w; cbn; intros E; inv E; auto).
  assert (NF : forall t, last_of freq_of ss = Some t -> t <> []) by (intros t; apply name_nonempty; [|exact GD]; intros [] w; cbn; intros E; inv E; auto).
  assert (IO : iname = [] \/ iname <> oname).
  { unfold iname, oname, separate in *. destruct (last_of in_of ss) as [t|]; [|now left]. cbn [name_of]. right. destruct (last_of out_of ss) as [u|]; cbn [name_of]; [destruct S1; congruence|now apply NI]. }
  assert (FO : fname = [] \/ fname <> oname).
  { unfold fname, oname, separate in *. destruct (last_of freq_of ss) as [t|]; [|now left]. cbn [name_of]. right. destruct (last_of out_of ss) as [u|]; cbn [name_of]; [destruct S2; congruence|now apply NF]. }
  assert (FZ : fname = [] -> Zf = []). { unfold fname. destruct (last_of freq_of ss) as [t|]; [|now rewrite FQ]. intros E. now apply NF in E. }
  assert (SX : source fs stdin iname = X /\ missing fs iname = false).
  { unfold iname, input_of in *. destruct (last_of in_of ss) as [t|]; cbn [name_of source missing]; [|split; congruence]. destruct t; [now specialize (NI [] eq_refl)|]. cbn [source missing]. rewrite IN. split; reflexivity. }
  destruct SX as [SX MX].
  assert (SZ : fname <> [] -> source fs stdin fname = Zf /\ missing fs fname = false).
  { unfold fname. destruct (last_of freq_of ss) as [t|]; cbn [name_of]; [|congruence]. intros NE. destruct t; [congruence|]. cbn [source missing]. rewrite FQ. split; reflexivity. }
  unfold freqcd_main. rewrite C, N1, N2, N3, MX. fold (with_out fs oname []). set (fs1 := with_out fs oname []).
  assert (SX1 : source fs1 stdin iname = X) by (unfold fs1; now rewrite with_out_source).
  assert (SZ1 : fname <> [] -> source fs1 stdin fname = Zf) by (intros NE; unfold fs1; rewrite with_out_source by exact FO; now apply SZ).
  assert (M1 : missing fs1 fname = false).
  { unfold missing. destruct fname as [|x fn] eqn:EF; [reflexivity|]. destruct (SZ ltac:(discriminate)) as [_ M]. cbn [missing] in M. unfold fs1, with_out. destruct oname as [|y on] eqn:EO; [exact M|]. rewrite put_other by (destruct FO; congruence). exact M. }
  rewrite M1. cbv zeta. set (fg := match fname with [] => false | _ => true end). set (s0 := init_state junk ib ob fb fg (c_fcorr c)).
  pose proof (loop_fuel strict lg iname oname fname stdin X IO (S (length X)) fs1 [] 0 0 s0 ltac:(lia) SX1 ltac:(unfold len; lia)) as FU. rewrite SX1, CL. fold lg.
  destruct (main_loop (S (length X)) strict lg iname oname fname stdin fs1 [] 0 0 s0) as [r|] eqn:ML; [|congruence]. clear FU.
  apply (loop_run2 strict lg iname oname fname stdin X Zf IO FO FZ BZ) in ML as (ts & s' & os & R & RU & FD & NX & HD & G); [|lia|lia|exact SX1|exact SZ1].
  change (inbytesread s0 mod SIZEOF_RAWEVENT) with 0 in *.
  assert (NEF : fname <> []) by (unfold fname; rewrite FN; cbn [name_of]; now apply NF).
  assert (FG : fg = true) by (unfold fg; destruct fname; [congruence|reflexivity]).
  specialize (HD NEF). unfold s0 in *. rewrite FG in *.
  exists ts, s', os. split; [exact R|]. split; [unfold freqcd; rewrite <- CF; exact RU|]. split; [exact HD|]. split; [exact NX|].
  destruct r as [[fs2 out]|e].
  2: { right. destruct G as (t & RT & RE). exists t, e. split; [exact RT|]. unfold freqcd. rewrite <- CF. exact RE. }
  left. destruct G as (-> & DR & O1 & O2 & O3). rewrite drop_0 in DR by lia. cbn [app] in *.
  eexists. split; [reflexivity|]. cbn [code files stdout]. split; [reflexivity|]. split; [exact DR|].
  unfold left_behind. unfold fs1, with_out, oname in O1, O2, O3 |- *. destruct (last_of out_of ss) as [t|]; cbn [name_of] in *.
  - destruct t as [|x t]; [now specialize (NO [] eq_refl)|]. split; [now apply O2|]. split; [reflexivity|]. intros m M. rewrite O1 by exact M. now apply put_other.
  - split; [reflexivity|]. intros m. now rewrite (O3 eq_refl).
Qed.
