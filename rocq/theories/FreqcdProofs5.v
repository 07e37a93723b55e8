(** No undefined behaviour on ordered streams; legacy mode; frequency lines. *)
From Verif Require Import Base FreqcdModel FreqcdSpec FreqcdProofs FreqcdProofs2 FreqcdProofs3 FreqcdProofs4.
From Coq Require Import ZifyBool.
Ltac Zify.zify_post_hook ::= Z.div_mod_to_equations.

Lemma run_app strict lg : forall a b s, run strict lg s (a ++ b) =
  let* (s1, os1, st1) := run strict lg s a in
  match st1 with
  | Stopped => Ok (s1, os1, Stopped)
  | Running => let* (s2, os2, st2) := run strict lg s1 b in Ok (s2, os1 ++ os2, st2)
  end.
Proof.
  induction a as [|t a IH]; intros b s; cbn [app run].
  - cbn [bind]. destruct (run strict lg s b) as [[[? ?] ?]|]; reflexivity.
  - destruct (step strict lg s t) as [[[s1 o] st1]|]; [|reflexivity]. cbn [bind].
    destruct st1; [|reflexivity]. rewrite IH.
    destruct (run strict lg s1 a) as [[[s2 os2] st2]|]; [|reflexivity]. cbn [bind].
    destruct st2; [|reflexivity].
    destruct (run strict lg s2 b) as [[[s3 os3] st3]|]; reflexivity.
Qed.

Lemma corrections_app : forall a b p, corrections p (a ++ b) = corrections p a ++ corrections (freq_after p a) b.
Proof.
  induction a as [|o a IH]; intros b p; [reflexivity|]. cbn [app corrections].
  rewrite IH. unfold freq_after. cbn [map fold_left]. now destruct (rx o).
Qed.
Lemma chunks_app a b : chunks (a ++ b) = chunks a ++ chunks b.
Proof. unfold chunks, rxs. now rewrite map_app, filter_app. Qed.
Lemma chunks_nonempty os : Forall (fun c => c <> []) (chunks os).
Proof.
  unfold chunks. apply Forall_forall. intros c I. apply filter_In in I as [_ H]. now destruct c.
Qed.
Lemma delivered_prefix : forall a b n, prefix (delivered n a) (delivered n (a ++ b)).
Proof.
  induction a as [|t a IH]; intros b n; [apply prefix_nil|]. cbn [app delivered].
  destruct t as [|[[|off]|] f w]; try apply prefix_nil.
  - destruct (take (INBUFSIZE - n) off) as [|c0 c]; [apply prefix_nil|].
    destruct (IH b ((n + len (c0 :: c)) mod SIZEOF_RAWEVENT)) as [q ->]. now exists q.
  - apply IH.
Qed.
Lemma delivered_nonempty : forall ts n, Forall (fun c => c <> []) (delivered n ts).
Proof.
  induction ts as [|t r IH]; intros n; cbn [delivered]; [constructor|].
  destruct t as [|[[|off]|] f w]; try constructor; [|apply IH].
  destruct (take (INBUFSIZE - n) off); constructor; [discriminate|apply IH].
Qed.

Lemma J_batches lg first : forall cs fs pend K, J first (len pend) K -> len pend < 8 ->
  length fs = length cs -> Forall small fs -> Forall (fun c => c <> []) cs ->
  bytes_ok pend -> Forall bytes_ok cs ->
  (forall r, c_ref K = Some r -> nondecr (r :: map (ev_time lg) (groups (pend ++ concat cs)))) ->
  let K' := clock_after K fs (map (map (ev_time lg)) (batches pend cs)) in
  J first (len (leftover (pend ++ concat cs))) K' /\
  (forall r, c_ref K = Some r -> c_ref K' = Some (List.last (map (ev_time lg) (groups (pend ++ concat cs))) r)).
Proof.
  induction cs as [|c cs IH]; intros fs pend K JK P L F NE BP BC N K'; destruct fs as [|f fs]; try discriminate.
  - cbn in *. rewrite app_nil_r in *. unfold K'. rewrite leftover_short, groups_short by assumption. cbn. auto.
  - inv F. inv NE. inv BC. cbn [concat] in *. rewrite app_assoc in *.
    pose proof (groups_split (pend ++ c) (concat cs)) as GS. rewrite GS in *. rewrite map_app in *.
    set (ts := map (ev_time lg) (groups (pend ++ c))) in *.
    assert (BA : bytes_ok (pend ++ c)) by (apply Forall_app; auto).
    assert (LL : len (leftover (pend ++ c)) = (len pend + len c) mod 8) by (now rewrite len_leftover, len_app).
    assert (LC : 0 < len c) by (destruct c; [congruence|]; rewrite len_cons; pose proof (len_nonneg c); lia).
    pose proof (len_nonneg pend).
    destruct (J_batch first f (len pend) (len (leftover (pend ++ c))) K ts) as [J1 (r1 & CR1 & RL)]; auto; try lia.
    { intros E. assert (len (groups (pend ++ c)) = 0).
      { unfold ts in E. apply map_eq_nil in E. now rewrite E. }
      rewrite len_groups, len_app in H0. lia. }
    { intros r CR. specialize (N r CR). now apply (nondecr_app_l (r :: ts)) in N. }
    { unfold ts. pose proof (batches_good [c] pend BP) as G. cbn in G. 
      assert (GG : Forall good_ev (groups (pend ++ c))) by (assert (G1 := G ltac:(constructor; auto)); now inv G1).
      rewrite Forall_forall in *. intros t I. apply in_map_iff in I as (e & <- & I). destruct (GG e I).
      now apply ev_time_range. }
    cbn [batches map clock_after] in *. fold ts in K'.
    specialize (IH fs (leftover (pend ++ c)) (batch_clock f K ts) J1 ltac:(lia) ltac:(cbn in L; lia) H2 H4).
    specialize (IH ltac:(now apply Forall_leftover) H6).
    assert (N1 : forall r, c_ref (batch_clock f K ts) = Some r -> 
       nondecr (r :: map (ev_time lg) (groups (leftover (pend ++ c) ++ concat cs)))).
    { intros r CR. destruct JK as (r0 & CR0 & _). specialize (N r0 CR0). specialize (RL r0 CR0).
      assert (r = r1) by congruence. subst r r1. now apply nondecr_last. }
    specialize (IH N1). destruct IH as [IH1 IH2]. split.
    + rewrite leftover_split. exact IH1.
    + intros r CR. specialize (IH2 r1 CR1). unfold K'. rewrite IH2, (RL r CR). f_equal.
      clear. generalize (map (ev_time lg) (groups (leftover (pend ++ c) ++ concat cs))). intros l. revert r.
      induction ts as [|t ts IH]; intros r; [reflexivity|]. cbn [app]. rewrite !last_cons. apply IH.
Qed.

Lemma input_clock_first strict lg f ref ovf lst ev evs x :
  input_clock strict lg f (ref, false, ovf, lst) (ev :: evs) =
  input_clock strict lg f (ev_time lg ev, true, ovf, Some x) (ev :: evs).
Proof. reflexivity. Qed.

Lemma freqcd_no_ub lg junk ib ob fb fg fc : forall ts,
  alloc_ok ib ob fb -> Forall tick_ok ts ->
  first_complete (delivered 0 ts) ->
  nondecr (map (ev_time lg) (groups (concat (delivered 0 ts)))) ->
  (forall pre s os st, prefix pre ts ->
     freqcd true lg junk ib ob fb fg fc pre = Ok (s, os, st) -> small (fcorr s)) ->
  exists s os st, freqcd true lg junk ib ob fb fg fc ts = Ok (s, os, st) /\
    Forall small (corrections ([], fc) os).
Proof.
  intros ts A. induction ts as [|t ts IH] using rev_ind; intros T FC N SM.
  - eexists _, _, _. split; [reflexivity|]. constructor.
  - apply Forall_app in T as [T1 T2]. inv T2.
    destruct (delivered_prefix ts [t] 0) as [q DQ].
    destruct IH as (s & os & st & E & CS); auto.
    { rewrite DQ in FC. destruct (delivered 0 ts); [exact I|exact FC]. }
    { rewrite DQ, concat_app, groups_split, map_app in N. now apply nondecr_app_l in N. }
    { intros pre s os st [p ->] E. apply (SM (pre)) with (os := os) (st := st); [|exact E].
      exists (p ++ [t]). now rewrite app_assoc. }
    unfold freqcd in *. rewrite run_app, E. cbn [bind].
    destruct st; [|eexists _, _, _; split; [reflexivity|assumption]].
    pose proof (freqcd_spec true lg junk ib ob fb fg fc ts A T1) as S. unfold freqcd in S. rewrite E in S.
    destruct S as ((outs & CR & _) & FS & I & D & _ & _ & BO & L & G & CB).
    specialize (I eq_refl). specialize (D eq_refl). pose proof (D [t]) as D1.
    assert (SF : small (fcorr s)).
    { apply (SM ts s os Running); [now exists [t]|exact E]. }
    cbn [run]. pose proof (step_spec true lg s _ _ t I H1) as ST.
    destruct (step true lg s t) as [[[s1 o] st1]|e].
    + cbn [bind]. destruct ST as (_ & _ & _ & _ & _ & _ & _ & _).
      assert (C1 : Forall small (corrections ([], fc) (os ++ [o]))).
      { rewrite corrections_app. apply Forall_app. split; [assumption|]. cbn [corrections].
        destruct (rx o); constructor; [|constructor]. now rewrite <- FS. }
      destruct st1; cbn [bind]; eexists _, _, _; (split; [reflexivity|assumption]).
    + exfalso. destruct ST as (data & DD & BD & IC). rewrite DD in D1.
      set (lo := leftover (received os)) in *.
      apply (clock_run_strict _ _ _ _ (clock0 junk)) in CR as [_ RK]; [|apply (init_Rk junk ib ob fb fg fc)|assumption].
      set (cs := chunks os) in *. rewrite D1 in N, FC. rewrite concat_app in N. cbn [concat] in N. rewrite app_nil_r in N.
      unfold cs in N at 1. rewrite concat_chunks in N. rewrite groups_split in N. fold lo in N. rewrite map_app in N.
      assert (GD : Forall good_ev (groups (lo ++ data))).
      { pose proof (batches_good [data] lo) as GG. cbn in GG.
        assert (G1 := GG ltac:(apply Forall_leftover; unfold received; apply Forall_concat;
           clear - BO; induction BO as [|x l [? ?] ? ?]; cbn; constructor; auto) ltac:(constructor; auto)).
        now inv G1. }
      assert (NED : data <> []).
      { pose proof (delivered_nonempty (ts ++ [t]) 0) as NE. rewrite D1 in NE. apply Forall_app in NE as [_ NE]. now inv NE. }
      assert (LL : len lo = len (received os) mod 8) by apply len_leftover.
      assert (LDp : 0 < len data) by (destruct data; [congruence|]; rewrite len_cons; pose proof (len_nonneg data); lia).
      destruct cs as [|c cs'] eqn:CS0.
      * (* first read *)
        assert (RE : received os = []) by (rewrite <- concat_chunks; fold cs; now rewrite CS0).
        assert (LO : lo = []) by (unfold lo; now rewrite RE). rewrite LO in *. cbn [app] in *.
        destruct (groups data) as [|ev evs] eqn:GE.
        { apply (f_equal len) in GE. rewrite len_groups in GE. cbn in FC. change (@len (list Z) []) with 0 in GE. lia. }
        assert (clk_of s = (0, false, 0, junk)) as CK.
        { pose proof (freqcd_spec true lg junk ib ob fb fg fc ts A T1) as S2. unfold freqcd in S2. rewrite E in S2.
          destruct S2 as ((outs2 & CR2 & _) & _). change (chunks os) with cs in CR2. rewrite CS0 in CR2. cbn [batches] in CR2.
          destruct (corrections ([], fc) os); cbn [clock_run] in CR2; congruence. }
        rewrite CK, (input_clock_first _ _ _ _ _ _ _ _ (ev_time lg ev, 0)) in IC.
        pose proof (Forall_inv GD) as [GB GL]. pose proof (ev_time_range lg ev GB GL) as TR.
        destruct (input_clock_ok lg (fcorr s) (ev_time lg ev, true, 0, Some (ev_time lg ev, 0))
          (mkClock (Some (ev_time lg ev)) 0 0) (ev :: evs) 0 (ev_time lg ev)) as [r ER]; auto.
        -- unfold Rk. cbn [c_ref c_acc c_last]. repeat split; auto. intros _. eexists; reflexivity.
        -- exists (ev_time lg ev). cbn [c_ref c_acc c_last]. repeat split; lia.
        -- left; lia.
        -- intros r CRr. cbn in CRr. injection CRr as <-. cbn [map] in *. apply nondecr_cons; [lia|]. now apply nondecr_app_r in N.
        -- congruence.
      * (* later reads *)
        assert (CG : groups c <> []).
        { intros GE. apply (f_equal len) in GE. rewrite len_groups in GE. cbn in FC. change (@len (list Z) []) with 0 in GE. lia. }
        destruct (groups c) as [|ev0 evs0] eqn:GC; [congruence|].
        assert (BC : Forall bytes_ok (c :: cs')).
        { rewrite <- CS0. unfold cs. now apply chunks_bytes. }
        assert (GC' : Forall good_ev (ev0 :: evs0)).
        { pose proof (batches_good [c] []) as GG. cbn in GG. rewrite GC in GG.
          inv BC. assert (G1 := GG ltac:(constructor) ltac:(auto)). now inv G1. }
        pose proof (Forall_inv GC') as [GB GL]. pose proof (ev_time_range lg ev0 GB GL) as TR.
        set (t0 := ev_time lg ev0) in *.
        set (fs := corrections ([], fc) os) in *.
        assert (LF : length fs = length (c :: cs')).
        { unfold fs. rewrite corrections_length. fold cs. now rewrite CS0. }
        destruct fs as [|f0 fs'] eqn:FS0; [discriminate|].
        set (K0 := mkClock (Some t0) 0 0).
        assert (KE : clock_after (clock0 junk) (f0 :: fs') (map (map (ev_time lg)) (batches [] (c :: cs')))
                   = clock_after K0 (f0 :: fs') (map (map (ev_time lg)) (batches [] (c :: cs')))).
        { cbn [batches map clock_after app]. rewrite GC. cbn [map]. reflexivity. }
        assert (J0 : J t0 (len (@nil Z)) K0).
        { exists t0. cbn [K0 c_ref c_acc c_last]. change (@len Z []) with 0. repeat split; lia. }
        assert (RC : received os = concat (c :: cs')) by (rewrite <- CS0; unfold cs; now rewrite concat_chunks).
        assert (N0 : nondecr (t0 :: map (ev_time lg) (groups (received os)) ++ map (ev_time lg) (groups (lo ++ data)))).
        { rewrite RC in *. cbn [concat] in *. rewrite groups_split, GC in *. cbn [app map] in *.
          apply nondecr_cons; [unfold t0; lia|exact N]. }
        pose proof (J_batches lg t0 (c :: cs') (f0 :: fs') [] K0 J0 ltac:(reflexivity) LF) as JB.
        specialize (JB ltac:(assumption) ltac:(rewrite <- CS0; unfold cs; apply chunks_nonempty) ltac:(constructor) BC).
        cbn [app] in JB. rewrite <- RC in JB. fold lo in JB.
        assert (NJ : forall r, c_ref K0 = Some r -> nondecr (r :: map (ev_time lg) (groups (received os)))).
        { intros r Hr. cbn in Hr. injection Hr as <-. now apply (nondecr_app_l (t0 :: map (ev_time lg) (groups (received os)))) in N0. }
        specialize (JB NJ). destruct JB as [JJ RR]. specialize (RR t0 eq_refl).
        rewrite KE in RK.
        destruct (input_clock_ok lg (fcorr s) _ _ (groups (lo ++ data)) (len lo) t0 SF RK JJ) as [r ER]; auto.
        -- destruct (Z.eq_dec (len lo) 7); [right; split; [assumption|]|left; lia].
           intros GE. apply (f_equal len) in GE. rewrite len_groups, len_app in GE. change (@len (list Z) []) with 0 in GE. lia.
        -- intros r Hr. rewrite RR in Hr. injection Hr as <-. now apply nondecr_last.
        -- congruence.
Qed.
