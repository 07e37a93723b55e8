(** Proof of C202. *)
From Coq Require Import QArith String.
From Coq Require Import ZifyBool.
From Verif Require Import Float Base TimestampsModel CdRunModel ArgModel FpCliModel FpCliSpec FpCliProofs CliSpec CliProofs TsCliModel TsCliSpec TsCliProofs TsCliProofs2 TsCliProofs3 GenRefuseSpec GenRefuseProofs NumRefuseSpec NumRefuseProofs SpellSpec.
Import ListNotations. Local Open Scope list_scope. Local Open Scope Z_scope.

Lemma same_int_of t u : same_int t u -> int_of t = int_of u.
Proof. intros (z & A & B). now rewrite (word_int_of t z A), (word_int_of u z B). Qed.
(** ** float() *)
Definition signed_as (neg : bool) (x : number) : number := match x with Num q => if neg then Num (- q)%Q else Num q | Special => Special end.
Definition ending (neg : bool) (v2 n2 : Z) (r2 : list Z) : option number :=
  match r2 with
  | [] => Some (signed_as neg (scaled v2 (- n2)))
  | c :: r3 =>
      if (c =? 101) || (c =? 69) then
        let (nege, r4) := signed r3 in
        match scan_digits r4 0 0 with
        | (x, n, []) => if 0 <? n then Some (signed_as neg (scaled v2 ((if nege then - x else x) - n2))) else None
        | _ => None
        end
      else None
  end.
Definition body (neg : bool) (s : list Z) : option number :=
  if special_name s then Some Special else
  let '(v1, n1, r1) := scan_digits s 0 0 in
  let '(v2, n2, r2) := match r1 with 46 :: f => scan_digits f v1 0 | _ => (v1, 0, r1) end in
  if n1 + n2 <=? 0 then None else ending neg v2 n2 r2.
Lemma float_body t : float_of t = let (neg, s) := signed (strip t) in body neg s.
Proof. unfold float_of, body, ending, signed_as. destruct (signed (strip t)) as [neg s]. reflexivity. Qed.
Lemma plainly_app a b : plainly (a ++ b) = plainly a ++ plainly b. Proof. apply filter_app. Qed.
Lemma plainly_id l : Forall (fun c => c <> 95) l -> plainly l = l.
Proof. induction 1 as [|c l N F IH]; [reflexivity|]. unfold plainly in *. cbn [filter]. replace (c =? 95) with false by lia. cbn [negb]. now rewrite IH. Qed.
Lemma digit_ok c : is_digit c -> digit c = true. Proof. unfold is_digit, digit. lia. Qed.
Lemma digit_plain c : is_digit c -> plainly [c] = [c]. Proof. intros D. apply plainly_id. constructor; [unfold is_digit in D; lia|constructor]. Qed.
Lemma scan_plain ds v : numeral ds v -> forall acc, exists w n, 0 < n /\ forall r, scan_digits (ds ++ r) acc 0 = scan_digits r w n /\ scan_digits (plainly ds ++ r) acc 0 = scan_digits r w n.
Proof.
  induction 1 as [c D|l v c N IH D|l v c N IH D]; intros acc.
  - exists (10 * acc + (c - 48)), (0 + 1). split; [lia|]. intros r. rewrite (digit_plain c D). cbn [app scan_digits]. now rewrite (digit_ok c D).
  - destruct (IH acc) as (w & n & N0 & E). exists (10 * w + (c - 48)), (n + 1). split; [lia|]. intros r. rewrite plainly_app, (digit_plain c D), <- !app_assoc. destruct (E ([c] ++ r)) as [-> ->]. cbn [app scan_digits]. now rewrite (digit_ok c D).
  - destruct (IH acc) as (w & n & N0 & E). exists (10 * w + (c - 48)), (n + 1). split; [lia|]. intros r. change [95; c] with ([95] ++ [c]). rewrite !plainly_app, (digit_plain c D). change (plainly [95]) with (@nil Z). cbn [app]. rewrite <- !app_assoc.
    destruct (E ([95; c] ++ r)) as [-> _]. destruct (E ([c] ++ r)) as [_ ->]. cbn [app scan_digits]. rewrite (digit_ok c D). change (digit 95) with false. change (95 =? 95) with true. replace (0 <? n) with true by lia. now split.
Qed.
Lemma numeral_plain ds v : numeral ds v -> numeral (plainly ds) v.
Proof.
  induction 1 as [c D|l v c N IH D|l v c N IH D]; [rewrite (digit_plain c D); now constructor|rewrite plainly_app, (digit_plain c D); now apply N_next|].
  change [95; c] with ([95] ++ [c]). rewrite !plainly_app, (digit_plain c D). change (plainly [95]) with (@nil Z). cbn [app]. now apply N_next.
Qed.
Lemma sign_plain s : sign_word s -> plainly s = s. Proof. intros [->|[->| ->]]; reflexivity. Qed.
Lemma exponent_plain ex : exponent_word ex -> exponent_word (plainly ex).
Proof.
  intros [->|(c & s & ds & C & S & [v N] & ->)]; [now left|]. right. exists c, s, (plainly ds). split; [exact C|]. split; [exact S|]. split; [exists v; now apply numeral_plain|].
  change (c :: s ++ ds) with ([c] ++ s ++ ds). rewrite !plainly_app, (sign_plain s S). rewrite (plainly_id [c]); [reflexivity|]. constructor; [lia|constructor].
Qed.
Lemma numeral_head ds v : numeral ds v -> exists c r, ds = c :: r /\ is_digit c.
Proof. induction 1 as [c D|l v c N (d & r & -> & E) D|l v c N (d & r & -> & E) D]; [now exists c, []|exists d, (r ++ [c]); now split|exists d, (r ++ [95; c]); now split]. Qed.
Lemma signed_digits s ds v : sign_word s -> numeral ds v -> signed (s ++ ds) = (match s with [45] => true | _ => false end, ds).
Proof.
  intros [->|[->| ->]] N; try reflexivity. destruct (numeral_head ds v N) as (c & r & -> & D). cbn [app]. destruct (signed_cases (c :: r)) as [(q & X & _)|[(q & X & _)|X]]; [| |exact X]; injection X as X _; unfold is_digit in D; lia.
Qed.
Lemma ending_plain neg v n ex : exponent_word ex -> ending neg v n ex = ending neg v n (plainly ex).
Proof.
  intros [->|(c & s & ds & C & S & [w N] & ->)]; [reflexivity|]. change (c :: s ++ ds) with ([c] ++ s ++ ds). rewrite !plainly_app, (sign_plain s S), (plainly_id [c]) by (constructor; [lia|constructor]).
  cbn [app ending]. replace ((c =? 101) || (c =? 69)) with true by lia. rewrite (signed_digits s ds w S N), (signed_digits s (plainly ds) w S (numeral_plain ds w N)).
  destruct (scan_plain ds w N 0) as (x & k & _ & E). destruct (E []) as [E1 E2]. rewrite app_nil_r in E1, E2. now rewrite E1, E2.
Qed.
Lemma scan_exponent ex w n : exponent_word ex -> scan_digits ex w n = (w, n, ex).
Proof. intros [->|(c & s & ds & C & S & N & ->)]; [reflexivity|]. cbn [scan_digits]. replace (digit c) with false by (unfold digit; lia). replace (c =? 95) with false by lia. reflexivity. Qed.
Lemma scan_dot r w n : scan_digits (46 :: r) w n = (w, n, 46 :: r). Proof. reflexivity. Qed.
Lemma exponent_dot {A} ex (F : list Z -> A) d : exponent_word ex -> match ex with 46 :: f => F f | _ => d end = d.
Proof. intros [->|(c & s & ds & [->| ->] & _ & _ & ->)]; reflexivity. Qed.
Lemma not_special c r : is_digit c \/ c = 46 -> special_name (c :: r) = false.
Proof.
  intros D. unfold special_name. cbn [map existsb]. replace (lower c) with c by (unfold is_digit in D; unfold lower; destruct ((65 <=? c) && (c <=? 90)) eqn:E; lia).
  assert (X : forall w, same (c :: map lower r) w = true -> exists q, w = c :: q) by (intros w E; apply same_iff in E; now exists (map lower r)).
  destruct (same _ (chars "inf")) eqn:E1; [apply X in E1 as (q & E1); vm_compute in E1; injection E1 as E1 _; unfold is_digit in D; lia|].
  destruct (same _ (chars "infinity")) eqn:E2; [apply X in E2 as (q & E2); vm_compute in E2; injection E2 as E2 _; unfold is_digit in D; lia|].
  destruct (same _ (chars "nan")) eqn:E3; [apply X in E3 as (q & E3); vm_compute in E3; injection E3 as E3 _; unfold is_digit in D; lia|]. reflexivity.
Qed.
Lemma mantissa_head m : mantissa_word m -> exists c r, m = c :: r /\ (is_digit c \/ c = 46).
Proof.
  intros [ds [v N]|ds [v N]|ds fs [v N] _|fs _]; try (destruct (numeral_head ds v N) as (c & r & -> & D); exists c; eexists; split; [reflexivity|now left]). exists 46, fs. split; [reflexivity|now right].
Qed.
Lemma mantissa_plain m : mantissa_word m -> mantissa_word (plainly m).
Proof.
  assert (P : forall l, ds_word l -> ds_word (plainly l)) by (intros l [v N]; exists v; now apply numeral_plain).
  intros [ds D|ds D|ds fs D D'|fs D].
  - apply M_whole. now apply P.
  - rewrite plainly_app. change (plainly [46]) with [46]. apply M_point. now apply P.
  - rewrite plainly_app. change (plainly (46 :: fs)) with (46 :: plainly fs). apply M_both; now apply P.
  - change (plainly (46 :: fs)) with (46 :: plainly fs). apply M_fraction. now apply P.
Qed.
Lemma body_plain neg m : mantissa_word m -> exists v n, forall ex, exponent_word ex -> body neg (m ++ ex) = ending neg v n ex /\ body neg (plainly m ++ ex) = ending neg v n ex.
Proof.
  intros M. assert (U : forall m, mantissa_word m -> forall ex, special_name (m ++ ex) = false) by (intros l L ex; destruct (mantissa_head l L) as (c & r & -> & H); cbn [app]; now apply not_special).
  pose proof (U m M) as U1. pose proof (U (plainly m) (mantissa_plain m M)) as U2. clear U. unfold body. destruct M as [ds [v N]|ds [v N]|ds fs [v N] [v' N']|fs [v' N']].
  - destruct (scan_plain ds v N 0) as (w & n & N0 & E). exists w, 0. intros ex X. rewrite U1, U2. destruct (E ex) as [-> ->]. rewrite (scan_exponent ex w n X), exponent_dot by exact X. replace (n + 0 <=? 0) with false by lia. now split.
  - destruct (scan_plain ds v N 0) as (w & n & N0 & E). exists w, 0. intros ex X. rewrite U1, U2. rewrite plainly_app. change (plainly [46]) with [46]. rewrite <- !app_assoc. destruct (E ([46] ++ ex)) as [-> ->]. cbn [app]. rewrite scan_dot. cbv beta iota.
    rewrite (scan_exponent ex w 0 X). replace (n + 0 <=? 0) with false by lia. now split.
  - destruct (scan_plain ds v N 0) as (w & n & N0 & E). destruct (scan_plain fs v' N' w) as (w' & n' & N0' & E'). exists w', n'. intros ex X. rewrite U1, U2. rewrite plainly_app. change (plainly (46 :: fs)) with (46 :: plainly fs). rewrite <- !app_assoc. cbn [app].
    destruct (E (46 :: fs ++ ex)) as [-> _]. destruct (E (46 :: plainly fs ++ ex)) as [_ ->]. rewrite !scan_dot. cbv beta iota. destruct (E' ex) as [-> ->]. rewrite (scan_exponent ex w' n' X). replace (n + n' <=? 0) with false by lia. now split.
  - destruct (scan_plain fs v' N' 0) as (w' & n' & N0' & E'). exists w', n'. intros ex X. rewrite U1, U2. change (plainly (46 :: fs)) with (46 :: plainly fs). cbn [app]. rewrite !scan_dot. cbv beta iota. destruct (E' ex) as [-> ->].
    rewrite (scan_exponent ex w' n' X). replace (0 + n' <=? 0) with false by lia. now split.
Qed.
Lemma core_chars s m ex : sign_word s -> (special_word m /\ ex = [] \/ mantissa_word m /\ exponent_word ex) -> Forall (fun c => ~ is_blank c) (s ++ m ++ ex) /\ s ++ m ++ ex <> [].
Proof.
  intros S H. assert (ND : forall l, ds_word l -> Forall (fun c => ~ is_blank c) l) by (intros l D; eapply Forall_impl; [|exact (ds_chars l D)]; cbv beta; unfold is_blank, is_digit; lia).
  assert (NS : Forall (fun c => ~ is_blank c) s) by (destruct S as [->|[->| ->]]; repeat constructor; unfold is_blank; lia).
  assert (NM : Forall (fun c => ~ is_blank c) m /\ m <> []).
  { destruct H as [[(w & W & F) _]|[M _]].
    - split; [|intros ->; inversion F; subst; cbn in W; destruct W as [W|[W|[W|[]]]]; discriminate W].
      assert (NW : Forall (fun c => 97 <= c) w) by (cbn in W; destruct W as [<-|[<-|[<-|[]]]]; repeat constructor; cbn; lia). clear - F NW. induction F as [|a b l k R F IH]; [constructor|]. inv NW. constructor; [unfold is_blank; lia|now apply IH].
    - split; [|destruct (mantissa_head m M) as (c & r & -> & _); discriminate]. destruct M as [ds D|ds D|ds fs D D'|fs D]; try apply Forall_app; try split; try constructor; try (now apply ND); try constructor; unfold is_blank; try lia. }
  assert (NE : Forall (fun c => ~ is_blank c) ex).
  { destruct H as [[_ ->]|[_ [->|(c & g & ds & C & G & D & ->)]]]; [constructor|constructor|]. constructor; [unfold is_blank; lia|]. apply Forall_app. split; [destruct G as [->|[->| ->]]; repeat constructor; unfold is_blank; lia|now apply ND]. }
  split; [apply Forall_app; split; [exact NS|apply Forall_app; split; [apply NM|exact NE]]|]. destruct NM as [_ NM]. destruct s; [destruct m; [congruence|discriminate]|discriminate].
Qed.
Lemma special_plain m : special_word m -> plainly m = m.
Proof.
  intros (w & W & F). apply plainly_id. assert (NW : Forall (fun c => 97 <= c <= 122) w) by (cbn in W; destruct W as [<-|[<-|[<-|[]]]]; repeat constructor; cbn; lia).
  clear - F NW. induction F as [|a b l k R F IH]; [constructor|]. inv NW. constructor; [lia|now apply IH].
Qed.
Lemma signed_mantissa s m ex : sign_word s -> mantissa_word m -> signed (s ++ m ++ ex) = (match s with [45] => true | _ => false end, m ++ ex).
Proof.
  intros [->|[->| ->]] M; try reflexivity. destruct (mantissa_head m M) as (c & r & -> & D). cbn [app]. destruct (signed_cases (c :: r ++ ex)) as [(q & X & _)|[(q & X & _)|X]]; [| |exact X]; injection X as X _; unfold is_digit in D; lia.
Qed.
Lemma tidied_float t u : tidied t u -> float_of t = float_of u.
Proof.
  intros (b1 & s & m & ex & b2 & -> & F1 & F2 & S & H & ->). destruct (core_chars s m ex S H) as [NB NE]. rewrite !float_body.
  replace (b1 ++ s ++ m ++ ex ++ b2) with (b1 ++ (s ++ m ++ ex) ++ b2) by (now rewrite <- !app_assoc). rewrite (strip_core b1 (s ++ m ++ ex) b2 F1 F2 NB NE).
  rewrite !plainly_app, (sign_plain s S). destruct H as [[SP ->]|[M X]].
  - rewrite (special_plain m SP). change (plainly []) with (@nil Z). pose proof (strip_core [] (s ++ m ++ []) [] (Forall_nil _) (Forall_nil _) NB NE) as Q. rewrite app_nil_r in Q. cbn [app] in Q. now rewrite Q.
  - pose proof (mantissa_plain m M) as M'. pose proof (exponent_plain ex X) as X'. destruct (core_chars s (plainly m) (plainly ex) S (or_intror (conj M' X'))) as [NB' NE'].
    pose proof (strip_core [] (s ++ plainly m ++ plainly ex) [] (Forall_nil _) (Forall_nil _) NB' NE') as Q. rewrite app_nil_r in Q. cbn [app] in Q. rewrite Q, !signed_mantissa by assumption.
    destruct (body_plain (match s with [45] => true | _ => false end) m M) as (v & n & B). destruct (B ex X) as [-> _]. destruct (B (plainly ex) X') as [_ ->]. now apply ending_plain.
Qed.
Lemma same_float_of t u : same_float t u -> float_of t = float_of u.
Proof. intros (w & w' & A & B & H). rewrite (tidied_float t w A), (tidied_float u w' B). destruct H as [->|(x & D & D')]; [reflexivity|]. now rewrite (float_decimal w x D), (float_decimal w' x D'). Qed.
(** ** fpfind *)
Lemma alike_act a b : alike a b -> dst_of a = dst_of b /\ convert (dst_of a) (args_of a) = convert (dst_of b) (args_of b).
Proof.
  intros H. destruct a, b; cbn [alike] in H; try discriminate H; try solve [inversion H; subst; split; reflexivity];
    (destruct H as [->|H]; [split; reflexivity|]; split; [reflexivity|]; unfold args_of; cbn [argument dst_of convert]; first [now rewrite (same_int_of _ _ H)|now rewrite (same_float_of _ _ H)]).
Qed.
Lemma alike_converted ss ss' : Forall2 alike ss ss' -> converted (map act_of ss) = converted (map act_of ss').
Proof.
  induction 1 as [|a b ss ss' H F IH]; [reflexivity|]. destruct (alike_act a b H) as [E C]. cbn [map]. unfold act_of at 1 3. cbn [converted]. rewrite E in *. now rewrite C, IH.
Qed.
Lemma c202 fuel fuel2 M p repr args args' ss ss' fs dirs : writes args ss -> writes args' ss' -> Forall2 alike ss ss' -> run fuel fuel2 M p repr args fs dirs = run fuel fuel2 M p repr args' fs dirs.
Proof.
  intros W W' H. destruct (split_writes args ss W) as [S E]. destruct (parse_spelled _ ss S) as (P & O & N). destruct (split_writes args' ss' W') as [S' E']. destruct (parse_spelled _ ss' S') as (P' & O' & N').
  unfold run. rewrite E, E'. unfold run_words. rewrite O, N, P, O', N', P', (alike_converted ss ss' H). cbn [orb].
  assert (X : match flat_map split_equals args with [] => true | _ => false end = match flat_map split_equals args' with [] => true | _ => false end); [|now rewrite X].
  assert (Y : forall a s, spelled a s -> match a with [] => true | _ => false end = match s with [] => true | _ => false end); [|rewrite (Y _ _ S), (Y _ _ S'); now destruct H].
  clear. intros a s H. destruct H; try reflexivity; try (destruct fs; [congruence|reflexivity]); destruct fs; reflexivity.
Qed.
(** ** parse_timestamps *)
Lemma act_splits s1 s2 t1 t2 i o : s1 ++ s2 = t1 ++ t2 -> act (map tgiven s1 ++ placed i o ++ map tgiven s2) nothing = act (map tgiven t1 ++ placed i o ++ map tgiven t2) nothing.
Proof.
  intros E. destruct (first_stop (s1 ++ s2)) as [[A H]|(x & a & y & E2 & A & H & S)].
  - rewrite act_command by assumption. rewrite E in *. now rewrite act_command by assumption.
  - rewrite (act_stopped s1 s2 i o x a y E2 A H S). rewrite E in E2. now rewrite (act_stopped t1 t2 i o x a y E2 A H S).
Qed.
Lemma act_alike ss ss' r r' : Forall2 want_alike ss ss' -> (forall n, act r n = act r' n) -> forall n, act (map tgiven ss ++ r) n = act (map tgiven ss' ++ r') n.
Proof.
  induction 1 as [|a b ss ss' H F IH]; intros R n; [exact (R n)|]. cbn [map app].
  destruct a, b; cbn [want_alike] in H; try discriminate H; try (injection H as H; subst); try (destruct H as [->|H]);
    unfold given_of; cbn [targument topt_of tdst_of dest act one]; try reflexivity; try (apply IH; exact R);
    try (rewrite (same_int_of _ _ H)); try (rewrite (same_float_of _ _ H));
    try (match goal with |- context [choice ?x] => destruct (choice x) | |- context [int_of ?x] => destruct (int_of x) | |- context [float_of ?x] => destruct (float_of x) end); try reflexivity; apply IH; exact R.
Qed.
Lemma c202_timestamps lg p path args args' ss ss' i o fs : command args ss i o -> command args' ss' i o -> Forall2 want_alike ss ss' -> trun lg p path args fs = trun lg p path args' fs.
Proof.
  intros C C' H. destruct (trun_acts lg p path args ss i o fs C) as (s1 & s2 & -> & ->). destruct (trun_acts lg p path args' ss' i o fs C') as (t1 & t2 & E & ->).
  apply Forall2_app_inv_l in H as (u1 & u2 & H1 & H2 & E'). rewrite (act_splits t1 t2 u1 u2 i o) by congruence.
  assert (X : act (map tgiven s1 ++ placed i o ++ map tgiven s2) nothing = act (map tgiven u1 ++ placed i o ++ map tgiven u2) nothing); [|now rewrite X].
  apply act_alike; [exact H1|]. intros n. rewrite !act_placed. rewrite <- (app_nil_r (map tgiven s2)), <- (app_nil_r (map tgiven u2)). now apply act_alike.
Qed.
(** ** Plain forms *)
Lemma numeral_digits ds v : numeral ds v -> digits (plainly ds) /\ digits_value (plainly ds) = v.
Proof.
  assert (V : forall l c, digits_value (l ++ [c]) = 10 * digits_value l + (c - 48)) by (intros l c; unfold digits_value; now rewrite fold_left_app).
  assert (G : forall l c, digits l -> is_digit c -> digits (l ++ [c])) by (intros l c A B; apply Forall_app; split; [exact A|constructor; [exact B|constructor]]).
  induction 1 as [c D|l v c N [IH1 IH2] D|l v c N [IH1 IH2] D].
  - rewrite (digit_plain c D). split; [constructor; [exact D|constructor]|]. unfold digits_value. cbn [fold_left]. lia.
  - rewrite plainly_app, (digit_plain c D), V, IH2. split; [now apply G|reflexivity].
  - change [95; c] with ([95] ++ [c]). rewrite !plainly_app, (digit_plain c D). change (plainly [95]) with (@nil Z). cbn [app]. rewrite V, IH2. split; [now apply G|reflexivity].
Qed.
Lemma c202_whole t z : int_word t z -> exists u, whole u z /\ same_int t u.
Proof.
  intros W. pose proof W as (b1 & s & ds & b2 & v & E & F1 & F2 & N & S). destruct (numeral_digits ds v N) as [D V]. pose proof (numeral_plain ds v N) as NP. exists (s ++ plainly ds). split.
  - exists s, (match s with [45] => true | _ => false end), (plainly ds). destruct (numeral_head _ _ NP) as (c & r & EP & _).
    destruct S as [[[->| ->] ->]|[-> ->]]; (split; [constructor|]); (split; [rewrite EP; discriminate|]); (split; [exact D|]); (split; [reflexivity|]); now rewrite V.
  - exists z. split; [exact W|]. exists [], s, (plainly ds), [], v. cbn [app]. rewrite app_nil_r. split; [reflexivity|]. split; [constructor|]. split; [constructor|]. now split.
Qed.
Lemma c202_float t : float_word t -> exists u, tidied t u /\ float_word u /\ Forall (fun c => c <> 95 /\ ~ is_blank c) u.
Proof.
  intros (b1 & s & m & ex & b2 & E & F1 & F2 & S & H). exists (plainly (s ++ m ++ ex)). split; [exists b1, s, m, ex, b2; split; [exact E|]; split; [exact F1|]; split; [exact F2|]; split; [exact S|]; split; [exact H|reflexivity]|].
  assert (H' : special_word (plainly m) /\ plainly ex = [] \/ mantissa_word (plainly m) /\ exponent_word (plainly ex)).
  { destruct H as [[SP ->]|[M X]]; [left; rewrite (special_plain m SP); now split|right; split; [now apply mantissa_plain|now apply exponent_plain]]. }
  assert (E2 : plainly (s ++ m ++ ex) = s ++ plainly m ++ plainly ex) by now rewrite !plainly_app, (sign_plain s S). split.
  - rewrite E2. exists [], s, (plainly m), (plainly ex), []. cbn [app]. rewrite app_nil_r. split; [reflexivity|]. split; [constructor|]. split; [constructor|]. split; [exact S|exact H'].
  - destruct (core_chars s (plainly m) (plainly ex) S H') as [NB _]. rewrite <- E2 in NB. apply Forall_forall. intros c I. split; [|rewrite Forall_forall in NB; now apply NB]. unfold plainly in I. apply filter_In in I as [_ I]. lia.
Qed.
