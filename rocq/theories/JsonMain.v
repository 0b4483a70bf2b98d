(** C47: what writeJSON puts in the buffer, for every rotation state. *)
From Verif Require Import Base JsonModel JsonBuf JsonSpec JsonWrite.

(** ** Specification *)

(** The members every message starts with: the ID (unless set to "") and the count (if enabled). *)
Definition lead_members (sys : option (Z * Z)) (r : rot) : list (list Z) :=
  (if has_id (r_id r) then [member [64] (quoted (id_text sys (r_id r)))] else []) ++
  (if r_en r then [member [43] (dec (r_cnt r))] else []).

(** What holds of every rotation (see [json_rotation_ok] in JsonMap.v): printable distinct keys, no more
    slots used than there are, 16-bit values. *)
Record ok (r : rot) : Prop := {
  ok_keys : Forall (fun s => plain (s_key s)) (r_stats r);
  ok_distinct : NoDup (map s_key (r_stats r));
  ok_vals : Forall (fun s => -32768 <= s_val s < 32768) (r_stats r);
  ok_cap : Zlen (r_stats r) <= r_cap r <= 255;
  ok_last : byte (r_last r);
  ok_id : match r_id r with Some t => plain t | None => True end;
  ok_cnt : 0 <= r_cnt r < 8 }.

Definition sent_members (r : rot) (is : list Z) : list (list Z) := map (fun i => stat_member (stat_at (r_stats r) i)) is.

(** ** The loops over the ideal buffer *)

Definition skip_unchanged (_ : Z) (s : stat) : bool := negb (s_chg s).
Definition skip_normal (hi : Z) (first : bool) (i : Z) (s : stat) : bool := (hi =? i) || (s_low s && negb (s_chg s) && first).

Definition is_first (r : rot) : bool :=
  negb (Z.land (r_cnt r) 3 =? 0) && anychg (length (r_stats r) - 1) (r_stats r).
Definition round (r : rot) : list Z := vis (Zlen (r_stats r)) (r_last r) (length (r_stats r)).
Definition ast1 (suppress : bool) (bs : Z) (c : list Z) (comma : bool) (r : rot) : ast :=
  let a := AS c comma (r_stats r) 255 255 [] in
  if is_first r then aloop skip_unchanged false true (negb suppress) (bs - 3) (round r) a else a.
Definition ast2 (maximise suppress : bool) (bs : Z) (c : list Z) (comma : bool) (r : rot) : ast :=
  let a := ast1 suppress bs c comma r in
  aloop (skip_normal (a_tried a) (is_first r)) true (negb maximise) (negb suppress) (bs - 3) (round r)
    (AS (a_c a) (a_comma a) (a_st a) 255 (r_last r) (a_log a)).
Definition ast3 (maximise suppress : bool) (bs : Z) (c : list Z) (comma : bool) (r : rot) : ast :=
  let a := ast2 maximise suppress bs c comma r in
  if maximise && negb suppress && (Zlen (a_c a) <=? bs - (6 + 3))
  then aloop skip_unchanged false false true (bs - 3) (vis (Zlen (r_stats r)) (a_sent a) (length (r_stats r))) a else a.

Lemma header_join sys r : let '(h, comma) := header sys r in
  h = join (lead_members sys r) /\ comma = negb (match lead_members sys r with [] => true | _ => false end).
Proof.
  unfold header, lead_members. destruct (has_id (r_id r)), (r_en r); cbn [app join negb]; split; try reflexivity;
  unfold member, quoted; cbn [app]; rewrite <- ?app_assoc; cbn [app]; rewrite ?app_nil_r, <- ?app_assoc; reflexivity.
Qed.

Lemma bp_new_spec buf bs : 10 <= bs <= 255 -> bs <= Zlen buf ->
  exists b, bp_new buf bs = Some b /\ b_mark b = 0 /\ holds bs (skipn (Z.to_nat bs) buf) b [].
Proof.
  intros B L. destruct buf as [|x buf]; [change (Zlen (@nil Z)) with 0 in L; lia|].
  unfold bp_new. change (x :: buf) with ([] ++ x :: buf). change 0 with (Zlen (@nil Z)) at 1. rewrite wr_at. cbn [bind app].
  eexists. split; [reflexivity|]. split; [reflexivity|].
  exists (firstn (Z.to_nat (bs - 1)) buf). cbn [b_mem b_cap b_size app].
  rewrite u8_id by (unfold byte; lia). rewrite Zlen_cons in L.
  replace (Z.to_nat bs) with (S (Z.to_nat (bs - 1))) by lia. cbn [skipn]. rewrite firstn_skipn.
  split; [reflexivity|]. change (Zlen (@nil Z)) with 0. autorewrite with zlen. repeat split; lia.
Qed.

Lemma setMark_atm bs suf b c : holds bs suf b c -> atm bs suf (bp_setMark b) c.
Proof.
  intros (mid & M & L & C & S). split; [exists mid; cbn [bp_setMark b_mem b_cap b_size]; auto|]. cbn [bp_setMark b_mark]. exact S.
Qed.

Lemma write_ideal sys maximise suppress buf bs r : ok r -> 10 <= bs <= 255 -> bs <= Zlen buf ->
  let '(h, comma) := header sys r in
  let c := trunc bs (123 :: h) in
  let a := ast3 maximise suppress bs c comma r in
  let full := bs - 2 <=? Zlen (a_c a) in
  exists m, Zlen m = Zlen buf /\ skipn (Z.to_nat bs) m = skipn (Z.to_nat bs) buf /\
    (full = true -> znth m 0 = 0) /\
    (full = false -> firstn (Z.to_nat (Zlen (a_c a) + 1)) m = a_c a ++ [125] /\ znth m (Zlen (a_c a) + 1) = 0) /\
    writeJSON sys maximise suppress buf bs r =
      Some (Rot (r_cap r) (a_st a) (a_sent (ast2 maximise suppress bs c comma r)) (r_id r) (r_en r)
                (if full then r_cnt r else Z.land (r_cnt r + 1) 7), m, if full then 0 else Zlen (a_c a) + 1).
Proof.
  intros OK B LB. destruct (header sys r) as [h comma] eqn:HD. cbv zeta.
  set (c := trunc bs (123 :: h)).
  set (suf := skipn (Z.to_nat bs) buf).
  destruct (bp_new_spec buf bs B LB) as (b0 & E0 & MK0 & H0). fold suf in H0.
  destruct (puts_spec bs suf (123 :: h) b0 [] H0 ltac:(lia)) as (b1 & E1 & MK1 & H1).
  cbn [app] in H1. fold c in H1. pose proof (setMark_atm _ _ _ _ H1) as A1.
  (* the loops *)
  assert (MAIN : exists w, sim bs suf w (ast3 maximise suppress bs c comma r) /\
    (if Nat.eqb (length (r_stats r)) 0 then Some (WS (bp_setMark b1) comma (r_stats r) 255 (r_last r), r_last r) else
     do chg <- changedValue r ;
     let doFirst := negb (Z.land (r_cnt r) 3 =? 0) && chg in
     do w <- (if doFirst
              then loop (fun _ s => negb (s_chg s)) false true (negb suppress) (u8 (bs - 3)) (length (r_stats r)) (r_last r) (WS (bp_setMark b1) comma (r_stats r) 255 255)
              else Some (WS (bp_setMark b1) comma (r_stats r) 255 255)) ;
     let hi := w_tried w in
     do w <- loop (fun i s => (hi =? i) || (s_low s && negb (s_chg s) && doFirst)) true (negb maximise) (negb suppress)
               (u8 (bs - 3)) (length (r_stats r)) (r_last r) (WS (w_bp w) (w_comma w) (w_st w) 255 (r_last r)) ;
     let last := w_sent w in
     do w <- (if maximise && negb suppress && (b_size (w_bp w) <=? bs - (6 + 3))
              then loop (fun _ s => negb (s_chg s)) false false true (u8 (bs - 3)) (length (r_stats r)) last w
              else Some w) ;
     Some (w, last)) = Some (w, a_sent (ast2 maximise suppress bs c comma r))).
  { destruct OK as [_ _ _ [CP CQ] LA _ _].
    destruct (Nat.eqb (length (r_stats r)) 0) eqn:N0.
    - apply Nat.eqb_eq in N0. destruct (r_stats r) as [|s st] eqn:RS; [|discriminate].
      exists (WS (bp_setMark b1) comma [] 255 (r_last r)).
      assert (A2 : ast2 maximise suppress bs c comma r = AS c comma [] 255 (r_last r) []).
      { unfold ast2, ast1, is_first, round. rewrite RS. cbn [length Nat.sub vis aloop]. unfold anychg. cbn [length Nat.sub skipn existsb].
        rewrite andb_false_r. reflexivity. }
      assert (A3 : ast3 maximise suppress bs c comma r = AS c comma [] 255 (r_last r) []).
      { unfold ast3. rewrite A2, RS. cbn [length vis aloop]. destruct (maximise && negb suppress && _); reflexivity. }
      rewrite A3, A2. split; [|reflexivity]. split; [exact A1|]. cbn. auto.
    - apply Nat.eqb_neq in N0. assert (N1 : 1 <= Zlen (r_stats r) <= 255) by (unfold Zlen in *; lia).
      assert (CH : changedValue r = Some (anychg (length (r_stats r) - 1) (r_stats r))).
      { unfold changedValue. destruct (r_stats r); [cbn in N0; lia|reflexivity]. }
      rewrite CH. cbn [bind]. cbv zeta. change (negb (Z.land (r_cnt r) 3 =? 0) && anychg (length (r_stats r) - 1) (r_stats r)) with (is_first r).
      set (w0 := WS (bp_setMark b1) comma (r_stats r) 255 255).
      assert (S0 : sim bs suf w0 (AS c comma (r_stats r) 255 255 [])) by (split; [exact A1|auto]).
      assert (S1 : exists w1, sim bs suf w1 (ast1 suppress bs c comma r) /\
                (if is_first r then loop (fun _ s => negb (s_chg s)) false true (negb suppress) (u8 (bs - 3)) (length (r_stats r)) (r_last r) w0 else Some w0) = Some w1).
      { unfold ast1. destruct (is_first r).
        - destruct (loop_sim bs suf skip_unchanged false true (negb suppress) (length (r_stats r)) (r_last r) w0 _ B N1 S0) as (w1 & E & S1).
          exists w1. split; [exact S1|exact E].
        - exists w0. auto. }
      destruct S1 as (w1 & S1 & ->). cbn [bind].
      assert (L1 : Zlen (a_st (ast1 suppress bs c comma r)) = Zlen (r_stats r)).
      { unfold ast1. destruct (is_first r); [|reflexivity].
        destruct (aloop_facts skip_unchanged false true (negb suppress) (bs - 3) (round r) (AS c comma (r_stats r) 255 255 [])) as (is & F).
        - apply vis_nodup; [exact N1|unfold Zlen; lia].
        - intros i I. eapply vis_range; [exact N1|exact I].
        - lia.
        - apply f_st in F. apply cleared_if_len in F. exact F. }
      set (a1 := ast1 suppress bs c comma r) in *.
      destruct S1 as (P1 & P2 & P3 & P4 & P5). rewrite P4.
      assert (S2 : sim bs suf (WS (w_bp w1) (w_comma w1) (w_st w1) 255 (r_last r)) (AS (a_c a1) (a_comma a1) (a_st a1) 255 (r_last r) (a_log a1))).
      { split; [exact P1|]. cbn. auto. }
      destruct (loop_sim bs suf (skip_normal (a_tried a1) (is_first r)) true (negb maximise) (negb suppress) (length (r_stats r)) (r_last r)
                  (WS (w_bp w1) (w_comma w1) (w_st w1) 255 (r_last r)) (AS (a_c a1) (a_comma a1) (a_st a1) 255 (r_last r) (a_log a1)) B
                  ltac:(cbn [w_st]; rewrite P3, L1; exact N1) S2) as (w2 & E2 & S2').
      cbn [w_st] in S2'. rewrite P3, L1 in S2'.
      change (fun (i : Z) (s : stat) => (a_tried a1 =? i) || s_low s && negb (s_chg s) && is_first r) with (skip_normal (a_tried a1) (is_first r)).
      rewrite E2. cbn [bind]. fold (round r) in S2'.
      change (aloop (skip_normal (a_tried a1) (is_first r)) true (negb maximise) (negb suppress) (bs - 3) (round r) (AS (a_c a1) (a_comma a1) (a_st a1) 255 (r_last r) (a_log a1)))
        with (ast2 maximise suppress bs c comma r) in S2'.
      assert (L2 : Zlen (a_st (ast2 maximise suppress bs c comma r)) = Zlen (r_stats r)).
      { unfold ast2. fold a1.
        destruct (aloop_facts (skip_normal (a_tried a1) (is_first r)) true (negb maximise) (negb suppress) (bs - 3) (round r) (AS (a_c a1) (a_comma a1) (a_st a1) 255 (r_last r) (a_log a1))) as (is & F).
        - apply vis_nodup; [exact N1|unfold Zlen; lia].
        - intros i I. cbn [a_st]. rewrite L1. eapply vis_range; [exact N1|exact I].
        - lia.
        - apply f_st in F. apply cleared_if_len in F. cbn [a_st] in F. cbv zeta. rewrite F. exact L1. }
      destruct S2' as (Q1 & Q2 & Q3 & Q4 & Q5).
      assert (SZ : b_size (w_bp w2) = Zlen (a_c (ast2 maximise suppress bs c comma r))).
      { destruct Q1 as [(mid & _ & _ & _ & X) _]. exact X. }
      rewrite SZ, Q5. unfold ast3.
      set (a2 := ast2 maximise suppress bs c comma r) in *.
      destruct (maximise && negb suppress && (Zlen (a_c a2) <=? bs - (6 + 3))) eqn:M3.
      + destruct (loop_sim bs suf skip_unchanged false false true (length (r_stats r)) (a_sent a2) w2 a2 B ltac:(rewrite Q3, L2; exact N1)
                    ltac:(split; [exact Q1|auto])) as (w3 & E3 & S3).
        change (fun (_ : Z) (s : stat) => negb (s_chg s)) with skip_unchanged. rewrite E3. cbn [bind].
        rewrite Q3, L2 in S3. exists w3. split; [exact S3|reflexivity].
      + exists w2. cbn [bind]. split; [|reflexivity]. split; [exact Q1|auto]. }
  destruct MAIN as (w & SI & EM).
  unfold writeJSON. replace (bs <? 10) with false by lia. rewrite E0. cbn [bind]. rewrite HD, E1. cbn [bind]. cbv zeta.
  cbv zeta in EM. rewrite EM. cbn [bind]. clear EM.
  set (a := ast3 maximise suppress bs c comma r) in *.
  destruct SI as ([HW MW] & _ & ST & _ & _).
  pose proof (holds_len _ _ _ _ HW) as LW.
  destruct (write_spec bs suf (w_bp w) (a_c a) 125 HW ltac:(lia)) as (b2 & -> & MK2 & H2). cbn [bind].
  assert (LENB : forall mid cc, b_mem b2 = cc ++ 0 :: mid ++ suf -> Zlen cc + 1 + Zlen mid = bs ->
    Zlen (b_mem b2) = Zlen buf /\ skipn (Z.to_nat bs) (b_mem b2) = suf).
  { intros mid cc M L. rewrite M. split.
    - autorewrite with zlen. unfold suf. autorewrite with zlen. lia.
    - change (cc ++ 0 :: mid ++ suf) with (cc ++ (0 :: mid) ++ suf). rewrite app_assoc, skipn_app.
      rewrite skipn_all2 by (rewrite app_length; cbn [length]; unfold Zlen in L; lia). cbn [app].
      replace (Z.to_nat bs - length (cc ++ 0%Z :: mid))%nat with 0%nat by (rewrite app_length; cbn [length]; unfold Zlen in L; lia). reflexivity. }
  destruct (Zlen (a_c a) <? bs - 1) eqn:FULL.
  - destruct H2 as (mid & M & L & C & SZ). destruct (LENB mid _ M L) as [LL SK].
    unfold bp_full. rewrite C, SZ. rewrite Zlen_app, Zlen_cons in SZ, L |- *. change (Zlen (@nil Z)) with 0 in *. rewrite Z.add_0_r in *.
    destruct (Zlen (a_c a) + 1 =? bs - 1) eqn:FF.
    + replace (bs - 2 <=? Zlen (a_c a)) with true by lia.
      destruct (a_c a ++ [125]) as [|x cc] eqn:CE; [destruct (a_c a); discriminate|]. 
      rewrite M. change ((x :: cc) ++ 0 :: mid ++ suf) with ([] ++ x :: cc ++ 0 :: mid ++ suf).
      change (wr ([] ++ x :: cc ++ 0 :: mid ++ suf) 0 0) with (wr ([] ++ x :: cc ++ 0 :: mid ++ suf) (Zlen (@nil Z)) 0).
      rewrite wr_at. cbn [bind app].
      exists (0 :: cc ++ 0 :: mid ++ suf). rewrite M in LL, SK. cbn [app] in LL, SK. rewrite Zlen_cons in LL.
      split; [rewrite Zlen_cons; exact LL|]. split.
      { replace (Z.to_nat bs) with (S (Z.to_nat (bs - 1))) in * by lia. cbn [skipn] in *. exact SK. }
      split; [reflexivity|]. split; [discriminate|]. rewrite ST. reflexivity.
    + replace (bs - 2 <=? Zlen (a_c a)) with false by lia.
      exists (b_mem b2). split; [exact LL|]. split; [exact SK|]. split; [discriminate|]. split.
      { intros _. rewrite M. split.
        - rewrite firstn_app. rewrite firstn_all2 by (rewrite app_length; cbn [length]; unfold Zlen; lia).
          replace (Z.to_nat (Zlen (a_c a) + 1) - length (a_c a ++ [125%Z]))%nat with 0%nat by (rewrite app_length; cbn [length]; unfold Zlen; lia).
          cbn [firstn]. apply app_nil_r.
        - rewrite znth_app by lia. rewrite Zlen_app, Zlen_cons. change (Zlen (@nil Z)) with 0.
          replace (Zlen (a_c a) + 1 <? Zlen (a_c a) + (1 + 0)) with false by lia.
          replace (Zlen (a_c a) + 1 - (Zlen (a_c a) + (1 + 0))) with 0 by lia. reflexivity. }
      rewrite ST. reflexivity.
  - destruct H2 as (mid & M & L & C & SZ). destruct (LENB mid _ M L) as [LL SK].
    unfold bp_full. rewrite C, SZ. replace (Zlen (a_c a) =? bs - 1) with true by lia.
    replace (bs - 2 <=? Zlen (a_c a)) with true by lia.
    destruct (a_c a) as [|x cc] eqn:CE; [change (Zlen (@nil Z)) with 0 in *; lia|].
    rewrite M. change ((x :: cc) ++ 0 :: mid ++ suf) with ([] ++ x :: cc ++ 0 :: mid ++ suf).
    change (wr ([] ++ x :: cc ++ 0 :: mid ++ suf) 0 0) with (wr ([] ++ x :: cc ++ 0 :: mid ++ suf) (Zlen (@nil Z)) 0).
    rewrite wr_at. cbn [bind app].
    exists (0 :: cc ++ 0 :: mid ++ suf). rewrite M in LL, SK. cbn [app] in LL, SK. rewrite Zlen_cons in LL.
    split; [rewrite Zlen_cons; exact LL|]. split.
    { replace (Z.to_nat bs) with (S (Z.to_nat (bs - 1))) in * by lia. cbn [skipn] in *. exact SK. }
    split; [reflexivity|]. split; [discriminate|]. rewrite ST. reflexivity.
Qed.

(** ** More about one loop *)

Definition nofit (lim : Z) (c : list Z) (s : stat) : Prop := lim < Zlen c + 1 + Zlen (stat_member s).

Lemma field_len comma s : Zlen (stat_member s) <= Zlen (field comma s) <= 1 + Zlen (stat_member s).
Proof. rewrite field_member, Zlen_app. destruct comma; [rewrite Zlen_cons|]; change (Zlen (@nil Z)) with 0; lia. Qed.

Lemma aloop_mono skip sf so clr lim : forall ps a, exists more,
  a_log (aloop skip sf so clr lim ps a) = a_log a ++ more /\ Zlen (a_c a) <= Zlen (a_c (aloop skip sf so clr lim ps a)).
Proof.
  induction ps as [|i ps IH]; intros a; cbn [aloop].
  - exists []. rewrite app_nil_r. split; [reflexivity|lia].
  - destruct (skip i (stat_at (a_st a) i)); [apply IH|].
    destruct (Zlen (a_c a) + Zlen (field (a_comma a) (stat_at (a_st a) i)) <=? lim).
    + set (a1 := AS (a_c a ++ field (a_comma a) (stat_at (a_st a) i)) true (clr_at clr i (a_st a)) i i (a_log a ++ [i])).
      pose proof (Zlen_nonneg (field (a_comma a) (stat_at (a_st a) i))).
      assert (Zlen (a_c a) <= Zlen (a_c a1)) by (unfold a1; cbn [a_c]; rewrite Zlen_app; lia).
      destruct so.
      * exists [i]. split; [reflexivity|assumption].
      * destruct (IH a1) as (m & E & L). exists (i :: m). rewrite E. unfold a1 at 1. cbn [a_log]. rewrite <- app_assoc. split; [reflexivity|lia].
    + destruct sf; [exists []; cbn; rewrite app_nil_r; split; [reflexivity|lia]|]. apply (IH (AS (a_c a) true (a_st a) i (a_sent a) (a_log a))).
Qed.

Lemma aloop_left skip so clr lim : forall ps a is, NoDup ps -> (forall i, In i ps -> 0 <= i < Zlen (a_st a)) ->
  a_log (aloop skip false so clr lim ps a) = a_log a ++ is -> is = [] \/ so = false ->
  forall i, In i ps -> skip i (stat_at (a_st a) i) = false ->
    In i is \/ nofit lim (a_c (aloop skip false so clr lim ps a)) (stat_at (a_st a) i).
Proof.
  induction ps as [|p ps IH]; intros a is ND RG E SO i I SK; [destruct I|].
  apply NoDup_cons_iff in ND. destruct ND as [NI ND]. cbn [aloop] in *.
  assert (RGp : 0 <= p < Zlen (a_st a)) by (apply RG; left; reflexivity).
  set (s := stat_at (a_st a) p) in *. destruct (skip p s) eqn:SKP.
  { destruct I as [<- | I]; [fold s in SK; congruence|]. eapply IH; eauto. intros j J. apply RG. right. exact J. }
  pose proof (field_len (a_comma a) s) as FL.
  destruct (Zlen (a_c a) + Zlen (field (a_comma a) s) <=? lim) eqn:FI.
  - set (a1 := AS (a_c a ++ field (a_comma a) s) true (clr_at clr p (a_st a)) p p (a_log a ++ [p])) in *.
    destruct so.
    { destruct SO as [-> | X]; [|discriminate]. exfalso. unfold a1 in E. cbn [a_log] in E. apply app_inv_head in E. discriminate. }
    destruct (aloop_mono skip false false clr lim ps a1) as (m & EM & _).
    assert (IS : is = p :: m).
    { rewrite EM in E. unfold a1 in E. cbn [a_log] in E. rewrite <- app_assoc in E. apply app_inv_head in E. symmetry. exact E. }
    subst is. destruct I as [<- | I]; [left; left; reflexivity|].
    assert (OT : stat_at (a_st a1) i = stat_at (a_st a) i).
    { unfold a1, clr_at. cbn [a_st]. destruct clr; [|reflexivity]. rewrite stat_at_update by (auto; specialize (RG i (or_intror I)); lia).
      destruct (i =? p) eqn:X; [|reflexivity]. exfalso. apply NI. replace p with i by lia. exact I. }
    destruct (IH a1 m ND) with (i := i) as [H | H]; auto.
    + intros j J. unfold a1. cbn [a_st]. unfold Zlen. rewrite clr_at_len. apply RG. right. exact J.
    + rewrite OT. exact SK.
    + left. right. exact H.
    + right. rewrite OT in H. exact H.
  - set (a1 := AS (a_c a) true (a_st a) p (a_sent a) (a_log a)) in *.
    destruct I as [<- | I].
    + right. fold s. destruct (aloop_mono skip false so clr lim ps a1) as (m & _ & L). unfold nofit. unfold a1 in L at 1. cbn [a_c] in L. lia.
    + eapply (IH a1); eauto. intros j J. apply RG. right. exact J.
Qed.

Lemma aloop_tried skip sf so clr lim : forall ps a, a_log (aloop skip sf so clr lim ps a) = a_log a ->
  a_tried (aloop skip sf so clr lim ps a) = a_tried a \/
  (In (a_tried (aloop skip sf so clr lim ps a)) ps /\ nofit lim (a_c a) (stat_at (a_st a) (a_tried (aloop skip sf so clr lim ps a)))).
Proof.
  induction ps as [|p ps IH]; intros a E; [left; reflexivity|]. cbn [aloop] in *.
  set (s := stat_at (a_st a) p) in *. destruct (skip p s).
  { destruct (IH a E) as [H | [H1 H2]]; [left; exact H|right; split; [right; exact H1|exact H2]]. }
  pose proof (field_len (a_comma a) s) as FL.
  destruct (Zlen (a_c a) + Zlen (field (a_comma a) s) <=? lim) eqn:FI.
  - exfalso. set (a1 := AS (a_c a ++ field (a_comma a) s) true (clr_at clr p (a_st a)) p p (a_log a ++ [p])) in *.
    assert (X : exists m, a_log a ++ [p] ++ m = a_log a ++ []).
    { rewrite app_nil_r. destruct so; [exists []; rewrite app_nil_r; exact E|].
      destruct (aloop_mono skip sf false clr lim ps a1) as (m & EM & _). exists m. rewrite EM in E. unfold a1 in E. cbn [a_log] in E.
      rewrite <- app_assoc in E. exact E. }
    destruct X as (m & X). apply app_inv_head in X. discriminate.
  - set (a1 := AS (a_c a) true (a_st a) p (a_sent a) (a_log a)) in *.
    assert (NF : nofit lim (a_c a) s) by (unfold nofit; lia).
    destruct sf; [right; split; [left; reflexivity|exact NF]|].
    right. destruct (IH a1 E) as [H | [H1 H2]].
    + rewrite H. unfold a1. cbn [a_tried]. split; [left; reflexivity|exact NF].
    + split; [right; exact H1|exact H2].
Qed.

Lemma aloop_first skip sf so clr lim p ps a is : a_log (aloop skip sf so clr lim (p :: ps) a) = a_log a ++ is ->
  skip p (stat_at (a_st a) p) = false -> ~ nofit lim (a_c a) (stat_at (a_st a) p) -> exists r, is = p :: r.
Proof.
  intros E SK F. cbn [aloop] in E. rewrite SK in E. pose proof (field_len (a_comma a) (stat_at (a_st a) p)) as FL. unfold nofit in F.
  replace (Zlen (a_c a) + Zlen (field (a_comma a) (stat_at (a_st a) p)) <=? lim) with true in E by lia.
  destruct so.
  - cbn [a_log] in E. apply app_inv_head in E. exists []. auto.
  - match type of E with a_log (aloop _ _ _ _ _ _ ?a1) = _ => destruct (aloop_mono skip sf false clr lim ps a1) as (m & EM & _); rewrite EM in E end.
    cbn [a_log] in E. rewrite <- app_assoc in E. apply app_inv_head in E. exists m. symmetry. exact E.
Qed.

(** ** All three loops *)

Record passes (suppress maximise : bool) (bs : Z) (c : list Z) (comma : bool) (r : rot) (a2 a3 : ast) (i1 i2 i3 : list Z) : Prop := {
  p_range : forall i, In i (i1 ++ i2 ++ i3) -> 0 <= i < Zlen (r_stats r);
  p_nd : NoDup (i1 ++ i2 ++ i3);
  p_st : cleared_if (negb suppress) (r_stats r) (a_st a3) (i1 ++ i2 ++ i3);
  p_len : Zlen c <= bs - 3 -> Zlen (a_c a3) <= bs - 3;
  p_big : bs - 3 < Zlen c -> a_c a3 = c /\ a_st a3 = r_stats r /\ a_sent a2 = r_last r;
  p_shape : forall pre ms, shape c comma pre ms ->
     exists pre', shape (a_c a3) (a_comma a3) pre' (ms ++ sent_members r (i1 ++ i2 ++ i3)) /\
       (ms <> [] -> pre' = pre) /\
       (fit_alone (bs - 3) (r_stats r) -> pre = [] -> (comma = true -> ms <> []) -> pre' = []);
  (* the urgent item *)
  p_one : (length i1 <= 1)%nat;
  p_urgent : forall i, In i i1 -> s_chg (stat_at (r_stats r) i) = true;
  p_nourgent : is_first r = true -> i1 = [] -> forall i, 0 <= i < Zlen (r_stats r) -> s_chg (stat_at (r_stats r) i) = true -> nofit (bs - 3) c (stat_at (r_stats r) i);
  p_notfirst : is_first r = false -> i1 = [];
  (* the rotation *)
  p_normal1 : maximise = false -> (length i2 <= 1)%nat /\ i3 = [];
  p_prefix : exists ps1 ps2, round r = ps1 ++ ps2 /\ last ps1 (r_last r) = a_sent a2 /\ incl i2 ps1 /\
     forall i, In i ps1 -> In i (i1 ++ i2) \/ (is_first r = true /\ s_low (stat_at (r_stats r) i) = true /\ s_chg (stat_at (r_stats r) i) = false) \/
                           (is_first r = true /\ i1 = [] /\ nofit (bs - 3) c (stat_at (r_stats r) i));
  p_adv : forall p ps, round r = p :: ps -> is_first r = false -> ~ nofit (bs - 3) c (stat_at (r_stats r) p) -> exists q, i2 = p :: q;
  p_sent : a_sent a2 = last i2 (r_last r);
  (* filling up *)
  p_fill : maximise = true -> suppress = false -> forall i, 0 <= i < Zlen (r_stats r) -> s_chg (stat_at (a_st a3) i) = true ->
     s_key (stat_at (r_stats r) i) <> [] -> nofit (bs - 3) (a_c a3) (stat_at (r_stats r) i) }.

Lemma stat_member_len s : -32768 <= s_val s < 32768 -> Zlen (s_key s) + 4 <= Zlen (stat_member s) <= Zlen (s_key s) + 9.
Proof.
  intros V. unfold stat_member, member, quoted. destruct (json_decimal _ V) as [_ L].
  repeat (rewrite Zlen_app || rewrite Zlen_cons). change (Zlen (@nil Z)) with 0. lia.
Qed.
Lemma stat_at_in st i : 0 <= i < Zlen st -> In (stat_at st i) st.
Proof. intros H. apply nth_In. unfold Zlen in H. lia. Qed.

Lemma passes_hold suppress maximise bs c comma r : ok r -> 1 <= Zlen (r_stats r) -> 10 <= bs <= 255 ->
  exists i1 i2 i3, passes suppress maximise bs c comma r (ast2 maximise suppress bs c comma r) (ast3 maximise suppress bs c comma r) i1 i2 i3.
Proof.
  intros OK N1 B. pose proof OK as [OKK OKD OKV [CP CQ] LA OKI OKC].
  set (N := Zlen (r_stats r)) in *.
  assert (NN : Z.of_nat (length (r_stats r)) = N) by reflexivity.
  assert (NDR : forall x, NoDup (vis N x (length (r_stats r)))) by (intros; apply vis_nodup; lia).
  assert (RGR : forall x i, In i (vis N x (length (r_stats r))) -> 0 <= i < N) by (intros; eapply vis_range; [|eauto]; lia).
  assert (ALLR : forall x i, byte x -> 0 <= i < N -> In i (vis N x (length (r_stats r)))).
  { intros x i X I. replace (length (r_stats r)) with (Z.to_nat N) by lia. apply vis_all; auto; lia. }
  (* loop 1 *)
  set (A0 := AS c comma (r_stats r) 255 255 []).
  assert (X1 : exists i1, facts skip_unchanged false true (negb suppress) (bs - 3) (round r) A0 (ast1 suppress bs c comma r) i1 /\
     (is_first r = false -> i1 = [] /\ ast1 suppress bs c comma r = A0) /\
     (is_first r = true -> ast1 suppress bs c comma r = aloop skip_unchanged false true (negb suppress) (bs - 3) (round r) A0)).
  { unfold ast1. cbv zeta. fold A0. destruct (is_first r).
    - destruct (aloop_facts skip_unchanged false true (negb suppress) (bs - 3) (round r) A0 (NDR _) (RGR _) ltac:(lia)) as (i1 & F).
      exists i1. split; [exact F|]. split; [discriminate|reflexivity].
    - exists []. split; [|split; [auto|discriminate]]. constructor.
      + rewrite app_nil_r. reflexivity.
      + intros x [].
      + constructor.
      + intros x [].
      + unfold cleared_if. destruct (negb suppress); [apply cleared_refl|reflexivity].
      + auto.
      + intros pre ms SH. exists pre. cbn [map]. rewrite app_nil_r. auto.
      + auto.
      + auto.
      + reflexivity.
      + auto.
      + intros _. exists [], (round r). split; [reflexivity|]. split; [reflexivity|]. split; intros x []. }
  destruct X1 as (i1 & F1 & NF1 & EQ1).
  set (a1 := ast1 suppress bs c comma r) in *.
  assert (L1 : Zlen (a_st a1) = N) by (pose proof (f_st _ _ _ _ _ _ _ _ _ F1) as G; apply cleared_if_len in G; exact G).
  (* loop 2 *)
  set (B0 := AS (a_c a1) (a_comma a1) (a_st a1) 255 (r_last r) (a_log a1)).
  destruct (aloop_facts (skip_normal (a_tried a1) (is_first r)) true (negb maximise) (negb suppress) (bs - 3) (round r) B0 (NDR _)
    ltac:(intros i I; unfold B0; cbn [a_st]; rewrite L1; eapply RGR; exact I) ltac:(lia)) as (i2 & F2).
  assert (E2 : ast2 maximise suppress bs c comma r = aloop (skip_normal (a_tried a1) (is_first r)) true (negb maximise) (negb suppress) (bs - 3) (round r) B0) by reflexivity.
  rewrite <- E2 in F2. 
  assert (L2 : Zlen (a_st (ast2 maximise suppress bs c comma r)) = N).
  { pose proof (f_st _ _ _ _ _ _ _ _ _ F2) as G. apply cleared_if_len in G. unfold B0 in G. cbn [a_st] in G. lia. }
  assert (S2B : byte (a_sent (ast2 maximise suppress bs c comma r))).
  { rewrite (f_sent _ _ _ _ _ _ _ _ _ F2). unfold B0. cbn [a_sent].
    pose proof (f_incl _ _ _ _ _ _ _ _ _ F2) as IN. destruct i2 as [|x j2] eqn:I2; [exact LA|].
    assert (In (last (x :: j2) (r_last r)) (x :: j2)).
    { destruct (exists_last (l := x :: j2)) as (l' & y & EY); [discriminate|]. rewrite EY. rewrite last_last. apply in_or_app. right. left. reflexivity. }
    apply IN in H. apply RGR in H. unfold byte. lia. }
  set (a2 := ast2 maximise suppress bs c comma r) in *.
  (* loop 3 *)
  set (t3 := maximise && negb suppress && (Zlen (a_c a2) <=? bs - (6 + 3))).
  assert (X3 : exists i3, facts skip_unchanged false false true (bs - 3) (vis N (a_sent a2) (length (r_stats r))) a2 (ast3 maximise suppress bs c comma r) i3 /\
     (t3 = false -> i3 = [] /\ ast3 maximise suppress bs c comma r = a2) /\
     (t3 = true -> ast3 maximise suppress bs c comma r = aloop skip_unchanged false false true (bs - 3) (vis N (a_sent a2) (length (r_stats r))) a2)).
  { unfold ast3. cbv zeta. fold a2. fold t3. destruct t3.
    - destruct (aloop_facts skip_unchanged false false true (bs - 3) (vis N (a_sent a2) (length (r_stats r))) a2 (NDR _) ltac:(rewrite L2; apply RGR) ltac:(lia)) as (i3 & F).
      exists i3. split; [exact F|]. split; [discriminate|reflexivity].
    - exists []. split; [|split; [auto|discriminate]]. constructor.
      + rewrite app_nil_r. reflexivity.
      + intros x [].
      + constructor.
      + intros x [].
      + apply cleared_refl.
      + auto.
      + intros pre ms SH. exists pre. cbn [map]. rewrite app_nil_r. auto.
      + auto.
      + auto.
      + reflexivity.
      + discriminate.
      + discriminate. }
  destruct X3 as (i3 & F3 & NF3 & EQ3).
  set (a3 := ast3 maximise suppress bs c comma r) in *.
  assert (SUP : suppress = true -> i3 = []).
  { intros ->. apply NF3. unfold t3. cbn [negb]. rewrite andb_false_r. reflexivity. }
  assert (NOMAX : maximise = false -> i3 = []).
  { intros ->. apply NF3. reflexivity. }
  destruct F1 as [g1 g2 g3 g4 g5 g6 g7 g8 g9 g10 g11 g12].
  destruct F2 as [h1 h2 h3 h4 h5 h6 h7 h8 h9 h10 h11 h12].
  destruct F3 as [k1 k2 k3 k4 k5 k6 k7 k8 k9 k10 k11 k12].
  unfold B0 in h1, h4, h5, h6, h7, h8, h9, h10, h12. cbn [a_log a_st a_c a_comma a_sent] in h1, h4, h5, h6, h7, h8, h9, h10, h12.
  unfold A0 in g1, g4, g5, g6, g7, g8, g9, g10, g12. cbn [a_log a_st a_c a_comma a_sent] in g1, g4, g5, g6, g7, g8, g9, g10, g12.
  assert (M1 : forall j, 0 <= j < N -> stat_member (stat_at (a_st a1) j) = stat_member (stat_at (r_stats r) j))
    by (intros j J; eapply cleared_if_member; eauto).
  assert (M2 : forall j, 0 <= j < N -> stat_member (stat_at (a_st a2) j) = stat_member (stat_at (r_stats r) j)).
  { intros j J. rewrite <- M1 by exact J. eapply cleared_if_member; [exact h5|]. rewrite L1. exact J. }
  assert (C12 : cleared_if (negb suppress) (r_stats r) (a_st a2) (i1 ++ i2)).
  { unfold cleared_if in *. destruct (negb suppress); [eapply cleared_trans; eauto|congruence]. }
  assert (R1 : forall i, In i i1 -> 0 <= i < N) by (intros i I; eapply RGR; apply g2; exact I).
  assert (R2 : forall i, In i i2 -> 0 <= i < N) by (intros i I; eapply RGR; apply h2; exact I).
  assert (R3 : forall i, In i i3 -> 0 <= i < N) by (intros i I; eapply RGR; apply k2; exact I).
  assert (D12 : forall i, In i i1 -> In i i2 -> False).
  { intros i I J. destruct (g11 eq_refl) as [-> | (x & -> & T)]; [destruct I|]. destruct I as [<- | []].
    specialize (h4 x J). unfold skip_normal in h4. rewrite T in h4. rewrite Z.eqb_refl in h4. discriminate. }
  assert (D3 : forall i, In i (i1 ++ i2) -> In i i3 -> False).
  { intros i I J. specialize (k4 i J). unfold skip_unchanged in k4. destruct suppress eqn:SP.
    - rewrite (SUP eq_refl) in J. destruct J.
    - cbn [negb] in C12. destruct C12 as [_ CL]. rewrite (CL i (R3 i J)) in k4. apply mem_in in I. rewrite I in k4. cbn in k4. discriminate. }
  exists i1, i2, i3. constructor.
  - intros i I. apply in_app_or in I. destruct I as [I | I]; [auto|]. apply in_app_or in I. destruct I; auto.
  - assert (NDA : forall (x y : list Z), NoDup x -> NoDup y -> (forall i, In i x -> In i y -> False) -> NoDup (x ++ y)).
    { clear. induction x as [|a x IH]; intros y A Bq D; [exact Bq|]. cbn [app]. apply NoDup_cons_iff in A. destruct A as [A1 A2]. constructor.
      - intros H. apply in_app_or in H. destruct H; [auto|]. apply (D a); [left; reflexivity|exact H].
      - apply IH; auto. intros i I J. apply (D i); [right; exact I|exact J]. }
    apply NDA; [exact g3| |].
    + apply NDA; auto. intros i I J. apply (D3 i); [apply in_or_app; right; exact I|exact J].
    + intros i I J. apply in_app_or in J. destruct J as [J | J]; [eauto|]. apply (D3 i); [apply in_or_app; left; exact I|exact J].
  - rewrite app_assoc. unfold cleared_if in C12 |- *. destruct suppress; cbn [negb] in *.
    + rewrite (SUP eq_refl) in k6. destruct (k6 eq_refl) as [_ K]. rewrite K. exact C12.
    + eapply cleared_trans; [exact C12|exact k5].
  - intros H. auto.
  - intros H. assert (i1 = []) by auto. destruct (g6 H0) as [G G'].
    assert (i2 = []) by (apply h9; rewrite G; exact H). destruct (h6 H1) as [Hh Hh'].
    assert (i3 = []) by (apply k9; rewrite Hh, G; exact H). destruct (k6 H2) as [Kk Kk'].
    split; [congruence|]. split; [congruence|]. rewrite h10, H1. reflexivity.
  - intros pre ms SH. destruct (g7 pre ms SH) as (p1 & S1 & P1 & Q1). destruct (h7 p1 _ S1) as (p2 & S2 & P2 & Q2).
    destruct (k7 p2 _ S2) as (p3 & S3 & P3 & Q3). exists p3.
    assert (ML : ((ms ++ map (fun i => stat_member (stat_at (r_stats r) i)) i1) ++ map (fun i => stat_member (stat_at (a_st a1) i)) i2) ++ map (fun i => stat_member (stat_at (a_st a2) i)) i3
                 = ms ++ sent_members r (i1 ++ i2 ++ i3)).
    { unfold sent_members. rewrite !map_app, <- !app_assoc. do 2 f_equal. f_equal; apply map_ext_in; intros j J; [apply M1|apply M2]; auto. }
    rewrite ML in S3. split; [exact S3|].
    assert (FA1 : fit_alone (bs - 3) (r_stats r) -> fit_alone (bs - 3) (a_st a1)) by (intros FA j J; rewrite L1 in J; rewrite M1 by exact J; apply FA; exact J).
    assert (FA2 : fit_alone (bs - 3) (r_stats r) -> fit_alone (bs - 3) (a_st a2)) by (intros FA j J; rewrite L2 in J; rewrite M2 by exact J; apply FA; exact J).
    assert (NEm : forall x y : list (list Z), x <> [] -> x ++ y <> []) by (intros [|] y X; [congruence|discriminate]).
    split.
    + intros X. rewrite P3, P2, P1; auto.
    + intros FA PE CM. destruct (Q1 FA PE CM) as [Y1 Y2]. destruct (Q2 (FA1 FA) Y1 Y2) as [Z1 Z2]. apply Q3; auto.
  - destruct (g11 eq_refl) as [-> | (x & -> & _)]; cbn; lia.
  - intros i I. specialize (g4 i I). unfold skip_unchanged in g4. destruct (s_chg _); [reflexivity|discriminate].
  - intros FI NE i I CHG. specialize (EQ1 FI).
    assert (E : a_log (aloop skip_unchanged false true (negb suppress) (bs - 3) (round r) A0) = a_log A0 ++ []) by (rewrite <- EQ1, g1, NE; reflexivity).
    destruct (aloop_left _ _ _ _ _ A0 [] (NDR (r_last r)) (RGR (r_last r)) E (or_introl eq_refl) i (ALLR _ i LA I)) as [[] | NF].
    + unfold skip_unchanged, A0. cbn [a_st]. rewrite CHG. reflexivity.
    + change (vis N (r_last r) (length (r_stats r))) with (round r) in NF. rewrite <- EQ1 in NF. rewrite (proj1 (g6 NE)) in NF. exact NF.
  - intros FI. apply NF1. exact FI.
  - intros MX. split; [|apply NOMAX; exact MX]. destruct (h11 ltac:(rewrite MX; reflexivity)) as [-> | (x & -> & _)]; cbn; lia.
  - destruct (h12 eq_refl) as (ps1 & ps2 & EP & LP & IC & AL). exists ps1, ps2. split; [exact EP|]. split; [exact LP|]. split; [exact IC|]. intros i I.
    assert (RI : 0 <= i < N) by (apply (RGR (r_last r)); change (vis N (r_last r) (length (r_stats r))) with (round r); rewrite EP; apply in_or_app; left; exact I).
    destruct (skip_normal (a_tried a1) (is_first r) i (stat_at (a_st a1) i)) eqn:SK; [|left; apply in_or_app; right; apply AL; auto].
    unfold skip_normal in SK. apply orb_true_iff in SK. destruct SK as [SK | SK].
    + assert (T : a_tried a1 = i) by lia. destruct (is_first r) eqn:FI.
      * destruct i1 as [|x i1'] eqn:I1.
        { right; right. split; [reflexivity|]. split; [reflexivity|].
          assert (E : a_log (aloop skip_unchanged false true (negb suppress) (bs - 3) (round r) A0) = a_log A0) by (rewrite <- (EQ1 eq_refl), g1; reflexivity).
          destruct (aloop_tried _ _ _ _ _ _ _ E) as [H | [H1' H2']].
          - exfalso. rewrite <- (EQ1 eq_refl) in H. unfold A0 in H. cbn [a_tried] in H. lia.
          - rewrite <- (EQ1 eq_refl), T in H2'. exact H2'. }
        { left. apply in_or_app. left. destruct (g11 eq_refl) as [H | (y & H & Ty)]; [discriminate|]. rewrite H. left. congruence. }
      * exfalso. destruct (NF1 eq_refl) as [_ G]. rewrite G in T. unfold A0 in T. cbn [a_tried] in T. lia.
    + apply andb_true_iff in SK. destruct SK as [SK FI]. apply andb_true_iff in SK. destruct SK as [SL SC].
      unfold cleared_if in g5. destruct (negb suppress).
      * destruct g5 as [_ CL]. rewrite (CL i RI) in SL, SC. destruct (mem i i1) eqn:MI; [left; apply in_or_app; left; apply mem_in; exact MI|].
        right. left. split; [exact FI|]. split; [exact SL|]. destruct (s_chg _); [discriminate|reflexivity].
      * rewrite g5 in SL, SC. right. left. split; [exact FI|]. split; [exact SL|]. destruct (s_chg _); [discriminate|reflexivity].
  - intros p ps EP FI NF. destruct (NF1 FI) as [I1 G]. rewrite E2 in h1. rewrite EP in h1.
    assert (PR : 0 <= p < N) by (apply (RGR (r_last r)); change (vis N (r_last r) (length (r_stats r))) with (round r); rewrite EP; left; reflexivity).
    apply (aloop_first _ _ _ _ _ _ _ _ _ h1).
    + unfold B0. cbn [a_st]. rewrite G. unfold A0. cbn [a_st a_tried]. unfold skip_normal. rewrite FI, andb_false_r, orb_false_r. lia.
    + unfold B0. cbn [a_st a_c]. rewrite G. exact NF.
  - exact h10.
  - intros MX SP i I CHG KN.
    assert (LNG : 6 <= 1 + Zlen (stat_member (stat_at (r_stats r) i))).
    { pose proof (stat_member_len (stat_at (r_stats r) i)) as SM. rewrite Forall_forall in OKV. specialize (SM (OKV _ (stat_at_in _ _ I))).
      destruct (s_key (stat_at (r_stats r) i)); [congruence|]. rewrite Zlen_cons in SM. pose proof (Zlen_nonneg l). lia. }
    destruct t3 eqn:T3.
    + specialize (EQ3 eq_refl).
      assert (E : a_log (aloop skip_unchanged false false true (bs - 3) (vis N (a_sent a2) (length (r_stats r))) a2) = a_log a2 ++ i3) by (rewrite <- EQ3; exact k1).
      cbn [cleared_if] in k5. destruct k5 as [_ CL]. rewrite (CL i) in CHG by (rewrite L2; exact I).
      destruct (mem i i3) eqn:MI; [discriminate|].
      destruct (aloop_left _ _ _ _ _ a2 i3 (NDR _) ltac:(rewrite L2; apply RGR) E (or_intror eq_refl) i (ALLR _ i S2B I)) as [H | NF].
      * unfold skip_unchanged. rewrite CHG. reflexivity.
      * apply mem_in in H. congruence.
      * rewrite <- EQ3 in NF. unfold nofit in *. rewrite M2 in NF by exact I. exact NF.
    + destruct (NF3 eq_refl) as [_ G]. rewrite G. unfold nofit. unfold t3 in T3. rewrite MX, SP in T3. cbn [negb andb] in T3. lia.
Qed.
