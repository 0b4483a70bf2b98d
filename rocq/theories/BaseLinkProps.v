(** Properties of the common part of radio links, the RTC watchdog, the conditional
    reset of the restart counter and the polled I2C transfer (C166-C169). *)
From Verif Require Import Base CrcSpec CrcLin EepromModel EepromProofs TxCtrModel TxCtrProofs TxCtrWindow TxCtrSix BaseLinkModel.

(** ** C166: radio links *)
(** The channel the driver was last told to listen on; off if it was never told. *)
Definition told (l : list Z) : Z := match l with c :: _ => c | [] => -1 end.

Theorem link_told : forall C (os : list (LinkOp C)), told (lk_do (link_run os link_new)) = lk_listen (link_run os link_new).
Proof.
  intros C os. assert (G : forall l : Link C, told (lk_do l) = lk_listen l -> told (lk_do (link_run os l)) = lk_listen (link_run os l)).
  { induction os as [|o os IH]; intros l H; [exact H|]. cbn [link_run]. apply IH. destruct o as [a n c|rx ch]; cbn [link_step].
    - unfold configure. destruct ((n <=? 0) || _); [exact H|exact H].
    - unfold listen. cbv zeta. set (new := if negb rx then -1 else _). cbn [lk_do lk_listen].
      destruct ((-1 =? new) || negb (lk_listen l =? new)) eqn:E; [reflexivity|]. rewrite H. lia. }
  apply G. reflexivity.
Qed.

(** What listen() does, in any state with an int8_t number of channels. *)
Theorem link_listen : forall C (l : Link C) ch, 0 <= lk_n l <= 127 -> -128 <= ch <= 127 ->
  lk_listen (listen false ch l) = -1 /\
  (ch < 0 -> lk_listen (listen true ch l) = -1) /\
  (0 <= ch < lk_n l -> lk_listen (listen true ch l) = ch) /\
  (0 <= ch -> lk_n l <= ch -> lk_listen (listen true ch l) = lk_n l - 1) /\
  (forall rx, lk_listen (listen rx ch l) = -1 -> lk_do (listen rx ch l) = -1 :: lk_do l) /\
  (forall rx, lk_listen (listen rx ch l) <> -1 ->
     lk_do (listen rx ch l) = if lk_listen (listen rx ch l) =? lk_listen l then lk_do l else lk_listen (listen rx ch l) :: lk_do l).
Proof.
  intros C l ch Hn Hc. assert (I : i8 (lk_n l - 1) = lk_n l - 1) by (unfold i8; rewrite Z.mod_small by lia; lia).
  split; [reflexivity|]. unfold listen. cbv zeta. cbn [lk_listen lk_do negb]. rewrite I.
  split; [intros; replace (ch <=? -1) with true by lia; reflexivity|].
  split; [intros; replace (ch <=? -1) with false by lia; replace (ch >=? lk_n l) with false by lia; reflexivity|].
  split; [intros; replace (ch <=? -1) with false by lia; replace (ch >=? lk_n l) with true by lia; reflexivity|].
  split; intros rx; set (new := if negb rx then -1 else _); intros H.
  - rewrite H. reflexivity.
  - replace (-1 =? new) with false by lia. cbn [orb]. rewrite Z.eqb_sym. destruct (new =? lk_listen l); reflexivity.
Qed.

(** The number of channels never shrinks below the channel in use. *)
Fixpoint never_shrinks {C} (os : list (LinkOp C)) (l : Link C) : Prop :=
  match os with
  | [] => True
  | o :: os => match o with LConfigure _ n _ => n <= 127 /\ (0 < n -> lk_n l <= n) | LListen _ ch => ch <= 127 end /\ never_shrinks os (link_step o l)
  end.
(** While reconfiguration never takes channels away, the channel listened on is always one that is configured. *)
Theorem link_channel_configured_partial : forall C (os : list (LinkOp C)),
  never_shrinks os link_new ->
  let l := link_run os link_new in lk_listen l = -1 \/ 0 <= lk_listen l < lk_n l.
Proof.
  intros C os. assert (G : forall l : Link C, 0 <= lk_n l <= 127 -> lk_listen l = -1 \/ 0 <= lk_listen l < lk_n l -> never_shrinks os l ->
    lk_listen (link_run os l) = -1 \/ 0 <= lk_listen (link_run os l) < lk_n (link_run os l)).
  { induction os as [|o os IH]; intros l Hn H NS; [exact H|]. cbn [link_run never_shrinks] in *. destruct NS as [NS1 NS2]. destruct o as [a n c|rx ch]; cbn [link_step] in *.
    - unfold configure in *. destruct ((n <=? 0) || _) eqn:E; cbn [fst] in *; [apply IH; assumption|].
      apply IH; cbn [lk_n lk_listen]; [|lia|exact NS2]. split; [|lia]. destruct c; lia.
    - apply IH; [exact Hn| |exact NS2]. unfold listen. cbn [lk_listen lk_n]. destruct rx; cbn [negb]; [|lia].
      destruct (Z.leb_spec ch (-1)); [lia|]. destruct (Z.geb_spec ch (lk_n l)); [|lia].
      assert (I : i8 (lk_n l - 1) = lk_n l - 1) by (unfold i8; rewrite Z.mod_small by lia; lia).
      rewrite I. lia. }
  intros NS. apply G; [cbn; lia|left; reflexivity|exact NS].
Qed.
Example link_channel_met :
  let os := [LConfigure true 1 (Some [tt]); LListen true 5; LConfigure true 3 (Some [tt; tt; tt]); LListen true 2; LListen true 2; LListen false 0] in
  never_shrinks os link_new /\ lk_do (link_run os link_new) = [-1; 2; 0].
Proof. cbn. split; [repeat split; lia|reflexivity]. Qed.
(** Full statement, over all histories.  Refuted: reconfiguring with fewer channels leaves the link listening on a
    channel that has no configuration, and the driver is not told. *)
Theorem link_channel_refuted : exists os : list (LinkOp unit),
  let l := link_run os link_new in
  lk_listen l = 2 /\ lk_n l = 1 /\ getChannelConfig l (lk_listen l) = Some None /\ told (lk_do l) = 2.
Proof. exists [LConfigure true 3 (Some [tt; tt; tt]); LListen true 2; LConfigure true 1 (Some [tt])]. vm_compute. repeat split. Qed.

(** getChannelConfig gives exactly the caller's configuration, NULL for channels that do not exist, and never reads
    outside the array, if each array given was as long as stated. *)
Definition honest {C} (o : LinkOp C) : Prop := match o with LConfigure _ n (Some cs) => n <= Zlen cs | _ => True end.
Fixpoint last_config {C} (os : list (LinkOp C)) (d : Z * list C) : Z * list C :=
  match os with
  | [] => d
  | LConfigure _ n (Some cs) :: os => last_config os (if n <=? 0 then d else (n, cs))
  | _ :: os => last_config os d
  end.
Theorem link_get_config : forall C (os : list (LinkOp C)) ch, Forall honest os -> 0 <= ch <= 255 ->
  let (n, cs) := last_config os (0, []) in
  getChannelConfig (link_run os link_new) ch = Some (if ch <? n then nth_error cs (Z.to_nat ch) else None).
Proof.
  intros C os ch H Hc. assert (G : forall (l : Link C) d, lk_n l = fst d -> (lk_cfg l = Some (snd d) \/ fst d = 0) -> fst d <= Zlen (snd d) ->
    lk_n (link_run os l) = fst (last_config os d) /\ (lk_cfg (link_run os l) = Some (snd (last_config os d)) \/ fst (last_config os d) = 0) /\ fst (last_config os d) <= Zlen (snd (last_config os d))).
  { induction H as [|o os HO _ IH]; intros l d H1 H2 H3; [auto|]. cbn [link_run]. destruct o as [a n [cs|]|rx ch0]; cbn [last_config link_step honest] in *.
    - unfold configure. rewrite orb_false_r. destruct (n <=? 0); cbn [fst]; [apply IH; assumption|]. apply IH; cbn; auto.
    - unfold configure. rewrite orb_true_r. cbn [fst]. apply IH; assumption.
    - apply IH; assumption. }
  destruct (G link_new (0, []) eq_refl (or_intror eq_refl) ltac:(apply Zlen_nonneg)) as (A & B & D). destruct (last_config os (0, [])) as [n cs]. cbn [fst snd] in *.
  unfold getChannelConfig. rewrite A. destruct (Z.geb_spec ch n); [replace (ch <? n) with false by lia; reflexivity|]. replace (ch <? n) with true by lia.
  destruct B as [-> | ->]; [|lia]. destruct (nth_error cs (Z.to_nat ch)) eqn:E; [reflexivity|]. apply nth_error_None in E. unfold Zlen in D. lia.
Qed.
Example link_get_config_met : let os := [LConfigure true 2 (Some [10; 11]); LListen true 1; LConfigure false 0 (Some [12])] in
  Forall honest os /\ getChannelConfig (link_run os link_new) 1 = Some (Some 11) /\ getChannelConfig (link_run os link_new) 2 = Some None.
Proof. split; [repeat constructor; vm_compute; discriminate|split; reflexivity]. Qed.

(** ** C167: RTC watchdog *)
(** Is the watchdog enabled after history [h] (oldest first); has a tick passed while enabled and no feed come since? *)
Definition enabled (h : list WdEv) : bool := fold_left (fun b e => match e with WdEnable on => on | _ => b end) h false.
Definition unfed_tick (h : list WdEv) : Prop := exists a b, h = a ++ WdTick :: b /\ enabled a = true /\ ~ In WdFeed b.
(** The reset comes at the end of [h]: at the next tick. *)
Definition due (h : list WdEv) (e : WdEv) : Prop := e = WdTick /\ enabled h = true /\ unfed_tick h.

Lemma enabled_snoc h e : enabled (h ++ [e]) = match e with WdEnable on => on | _ => enabled h end.
Proof. unfold enabled. rewrite fold_left_app. reflexivity. Qed.
Lemma unfed_snoc h e : unfed_tick (h ++ [e]) <-> e <> WdFeed /\ ((e = WdTick /\ enabled h = true) \/ unfed_tick h).
Proof.
  split.
  - intros (a & b & E & En & NF). destruct (exists_last (l := WdTick :: b)) as (b' & x & Eb); [discriminate|].
    rewrite Eb in E. rewrite app_assoc in E. apply app_inj_tail in E as [E <-]. destruct b' as [|y b'].
    + cbn in Eb. inversion Eb; subst. split; [discriminate|]. left. rewrite app_nil_r. auto.
    + cbn in Eb. inversion Eb; subst. split; [intros ->; apply NF, in_or_app; cbn; auto|]. right. exists a, b'. split; [reflexivity|]. split; [exact En|]. intros X. apply NF, in_or_app. auto.
  - intros (NE & [[-> En]|(a & b & -> & En & NF)]).
    + exists h, []. split; [reflexivity|]. split; [exact En|]. intros [].
    + exists a, (b ++ [e]). rewrite <- app_assoc. split; [reflexivity|]. split; [exact En|]. intros X. apply in_app_or in X as [X|[X|[]]]; [auto|congruence].
Qed.

(** The watchdog resets the system at event number k of a run if and only if that is the first event at which a reset is due. *)
Theorem wd_exact : forall es k, wd_run 0 wd0 es = Some k <->
  (exists h e rest, es = h ++ e :: rest /\ length h = k /\ due h e) /\
  (forall h e rest, es = h ++ e :: rest -> (length h < k)%nat -> ~ due h e).
Proof.
  intros es.
  assert (G : forall es h w, wd_on w = enabled h -> (wd_late w = true <-> unfed_tick h) ->
     forall k, wd_run (length h) w es = Some k <->
       (exists h' e rest, es = h' ++ e :: rest /\ (length h + length h' = k)%nat /\ due (h ++ h') e) /\
       (forall h' e rest, es = h' ++ e :: rest -> (length h + length h' < k)%nat -> ~ due (h ++ h') e)).
  { clear es. induction es as [|e es IH]; intros h w HO HL k.
    - cbn. split; [discriminate|]. intros ((h' & e & rest & E & _) & _). destruct h'; discriminate.
    - cbn [wd_run]. destruct (wd_step e w) as [w' r] eqn:ES.
      assert (HR : r = true <-> due h e).
      { unfold due. rewrite <- HO. destruct e; cbn [wd_step] in ES; [injection ES as <- <-; split; [discriminate|intros [X _]; discriminate]..|].
        destruct (wd_on w); injection ES as <- <-; [rewrite HL; tauto|]. split; [discriminate|intros (_ & X & _); discriminate]. }
      destruct r.
      + assert (D : due h e) by (apply HR; reflexivity). split.
        * intros E. injection E as <-. split; [exists [], e, es; rewrite app_nil_r; auto with arith|]. intros h' e' rest _ L. lia.
        * intros ((h' & e' & rest & E & L & D') & MN). destruct h' as [|x h']; [cbn in L; f_equal; lia|].
          exfalso. apply (MN [] e es eq_refl); [cbn in *; lia|rewrite app_nil_r; exact D].
      + assert (ND : ~ due h e) by (intros D; apply HR in D; discriminate).
        assert (IH' := IH (h ++ [e]) w'). rewrite app_length in IH'. cbn [length] in IH'. replace (length h + 1)%nat with (S (length h)) in IH' by lia.
        rewrite IH'.
        * split.
          -- intros ((h' & e' & rest & -> & L & D) & MN). split.
             ++ exists (e :: h'), e', rest. split; [reflexivity|]. split; [cbn; lia|]. replace (h ++ e :: h') with ((h ++ [e]) ++ h') by (rewrite <- app_assoc; reflexivity). exact D.
             ++ intros h2 e2 r2 E L2. destruct h2 as [|x h2]; [cbn in E; injection E as <- _; rewrite app_nil_r; exact ND|].
                cbn in E. injection E as <- E. replace (h ++ e :: h2) with ((h ++ [e]) ++ h2) by (rewrite <- app_assoc; reflexivity). eapply MN; [exact E|cbn in L2; lia].
          -- intros ((h' & e' & rest & E & L & D) & MN). split.
             ++ destruct h' as [|x h']; [cbn in E; injection E as <- _; rewrite app_nil_r in D; contradiction|]. cbn in E. injection E as <- E. exists h', e', rest.
                split; [exact E|]. split; [cbn in L; lia|]. rewrite <- app_assoc. exact D.
             ++ intros h2 e2 r2 E2 L2. rewrite <- app_assoc. eapply (MN (e :: h2) e2 r2); [cbn; rewrite E2; reflexivity|cbn; lia].
        * rewrite enabled_snoc, <- HO. destruct e; cbn [wd_step] in ES; [injection ES as <-; reflexivity..|]. destruct (wd_on w) eqn:WO; injection ES as <-; [reflexivity|exact WO].
        * rewrite unfed_snoc, <- HO, <- HL. destruct e; cbn [wd_step] in ES.
          -- injection ES as <-. cbn. split; [intros X; split; [discriminate|auto]|intros (_ & [[X _]|X]); [discriminate|exact X]].
          -- injection ES as <-. cbn. split; [discriminate|intros [X _]; congruence].
          -- destruct (wd_on w) eqn:WO.
             ++ injection ES as <- _. cbn. split; [intros _; split; [discriminate|left; auto]|reflexivity].
             ++ injection ES as <-. split; [intros X; split; [discriminate|right; exact X]|intros (_ & [[_ X]|X]); [discriminate|exact X]]. }
  intros k. apply (G es [] wd0); [reflexivity|]. split; [discriminate|]. intros (a & b & E & _). destruct a; discriminate.
Qed.

(** It never bites a program that feeds it between ticks ... *)
Theorem wd_fed_safe_partial : forall es, (forall h b rest, es = h ++ WdTick :: b ++ WdTick :: rest -> ~ In WdTick b -> In WdFeed b) -> wd_run 0 wd0 es = None.
Proof.
  intros es F. destruct (wd_run 0 wd0 es) as [k|] eqn:E; [|reflexivity]. exfalso. apply wd_exact in E as ((h & e & rest & -> & _ & -> & _ & a & b & -> & _ & NF) & _).
  (* the last tick in a ++ Tick :: b *)
  assert (L : forall b, ~ In WdFeed b -> exists x y, WdTick :: b = x ++ WdTick :: y /\ ~ In WdTick y /\ ~ In WdFeed y).
  { clear. induction b as [|e b IH] using rev_ind; intros NF; [exists [], []; auto|].
    destruct e; [..|exists (WdTick :: b), []; auto].
    - destruct IH as (x & y & E & NT & NY); [intros X; apply NF, in_or_app; auto|]. exists x, (y ++ [WdEnable on]).
      split; [change (WdTick :: b ++ [WdEnable on]) with ((WdTick :: b) ++ [WdEnable on]); rewrite E, <- app_assoc; reflexivity|].
      split; intros X; apply in_app_or in X as [X|[X|[]]]; auto; discriminate.
    - exfalso. apply NF, in_or_app. cbn. auto. }
  destruct (L b NF) as (x & y & E & NT & NY). apply NY. apply (F (a ++ x) y rest); [|exact NT].
  rewrite <- !app_assoc. f_equal. change (WdTick :: b ++ WdTick :: rest) with ((WdTick :: b) ++ WdTick :: rest). rewrite E, <- app_assoc. reflexivity.
Qed.
(** ... and always resets one that, enabled, lets two ticks pass without feeding it, at the latest at the second. *)
Theorem wd_hang_reset : forall h b rest, enabled h = true -> Forall (fun e => e <> WdFeed /\ e <> WdEnable false) b ->
  exists k, wd_run 0 wd0 (h ++ WdTick :: b ++ WdTick :: rest) = Some k /\ (k <= length h + 1 + length b)%nat.
Proof.
  intros h b rest En Fb. set (es := h ++ WdTick :: b ++ WdTick :: rest).
  assert (D : due (h ++ WdTick :: b) WdTick).
  { split; [reflexivity|]. split.
    - unfold enabled in *. rewrite fold_left_app, En. cbn [fold_left]. clear -Fb. induction Fb as [|e b [_ H] _ IH]; [reflexivity|]. cbn [fold_left]. destruct e as [[|]| |]; try exact IH. congruence.
    - exists h, b. split; [reflexivity|]. split; [exact En|]. intros X. rewrite Forall_forall in Fb. destruct (Fb _ X). congruence. }
  destruct (wd_run 0 wd0 es) as [k|] eqn:E.
  - exists k. split; [reflexivity|]. apply wd_exact in E as [_ MN]. destruct (Nat.le_gt_cases k (length h + 1 + length b)) as [|G]; [assumption|].
    exfalso. apply (MN (h ++ WdTick :: b) WdTick rest); [unfold es; rewrite <- app_assoc; reflexivity|rewrite app_length; cbn; lia|exact D].
  - exfalso. clear En Fb. assert (X : forall n, (n <= length es)%nat -> forall hh e rr, es = hh ++ e :: rr -> (length hh < n)%nat -> ~ due hh e).
    { induction n as [|n IH]; intros Ln hh e rr Ee Lh; [lia|]. destruct (Nat.eq_dec (length hh) n) as [Hn|Hn]; [|apply (IH ltac:(lia) hh e rr Ee); lia].
      intros Dd. assert (wd_run 0 wd0 es = Some n); [|congruence]. apply wd_exact. split; [exists hh, e, rr; auto|]. intros h2 e2 r2 E2 L2. apply (IH ltac:(lia) h2 e2 r2 E2 L2). }
    apply (X (length es) ltac:(lia) (h ++ WdTick :: b) WdTick rest); [unfold es; rewrite <- app_assoc; reflexivity|unfold es; rewrite ?app_length; cbn; rewrite ?app_length; cbn; lia|exact D].
Qed.
Example wd_met : wd_run 0 wd0 [WdEnable true; WdTick; WdFeed; WdTick; WdFeed; WdFeed; WdTick; WdEnable false; WdTick; WdTick] = None /\
  wd_run 0 wd0 [WdTick; WdTick; WdEnable true; WdTick; WdFeed; WdTick; WdTick; WdTick] = Some 6%nat.
Proof. split; reflexivity. Qed.
(** Full statement, that a reset takes two ticks in succession with the watchdog enabled at both.  Refuted: the flag of
    an earlier period of use survives, so the first tick after enabling it again can reset the system. *)
Theorem wd_grace_refuted : exists h, enabled h = true /\ wd_run 0 wd0 (h ++ [WdTick]) = Some (length h) /\
  h = [WdEnable true; WdTick; WdEnable false; WdTick; WdTick; WdEnable true].
Proof. eexists. split; [|split; [|reflexivity]]; reflexivity. Qed.

(** ** C168: conditional reset of the transmit restart counter *)
Lemma does_resetCond r s : bytes_mem (mem s) ->
  does (resetCond r) s
    (match rd3 (mem s) with None => [] | Some c => W (if val3 c <? 2097152 then enc3 (val3 c + 1) else reset_noise r) end)
    (match rd3 (mem s) with None => false | Some _ => true end).
Proof.
  intros HB. unfold resetCond. destruct (rd3 (mem s)) as [c|] eqn:R.
  - destruct (rd3_bytes _ _ HB R) as [B V]. eapply does_bind0; [apply does_getPrefix|]. intros s1 H1. cbv beta. rewrite R. destruct c as [[a b] l] eqn:EC.
    assert (T : (a <? 32) = (val3 (a, b, l) <? 2097152)). { destruct B as (A & B & L). unfold byte, val3 in *. destruct (Z.ltb_spec a 32); lia. }
    rewrite T. destruct (val3 (a, b, l) <? 2097152) eqn:TV.
    + apply does_increment; [intros q; rewrite H1; apply HB|]. rewrite <- R. apply rd3_meq. intros q _. apply H1.
    + unfold resetTX. rewrite <- (app_nil_r (W _)). eapply does_bind; [unfold saveRawTX; apply does_save_checked|]. intros s2 H2. cbv beta. apply does_ret.
  - eapply does_bind0; [apply does_getPrefix|]. intros s1 H1. cbv beta. rewrite R. apply does_ret.
Qed.

(** If the call completes: it returns true exactly if there is a readable counter.  Then a counter below 0x200000 has been
    increased by one, and any other replaced by a random one from 1 to 0xfffff, so that at least 7/8 of the range are left
    unused; and it is stored where it reads back.  Otherwise nothing has changed. *)
Definition prefix_now (s : EE) : option Ctr3 := match getTXNVCtrPrefix s 0%nat with (_, Some (c, _)) => c | _ => None end.
Lemma prefix_now_rd3 s : prefix_now s = rd3 (mem s).
Proof.
  unfold prefix_now. destruct (does_getPrefix s 0%nat) as [(s' & k & E & L & _)|(s' & f' & E & _)]; [cbn in L; lia|]. rewrite E. reflexivity.
Qed.
Theorem tx_reset_cond : forall r s f s' b f', bytes_mem (mem s) -> resetCond r s f = (s', Some (b, f')) ->
  match prefix_now s with
  | None => b = false /\ (forall a, mem s' a = mem s a)
  | Some c => b = true /\ exists c', prefix_now s' = Some c' /\ val3 c' <= 2097152 /\
      (val3 c < 2097152 -> val3 c' = val3 c + 1) /\ (2097152 <= val3 c -> c' = reset_noise r /\ 1 <= val3 c' < 1048576) /\
      (forall a, ~ 104 <= a < 112 -> mem s' a = mem s a)
  end.
Proof.
  intros r s f s' b f' HB E. rewrite prefix_now_rd3. pose proof (does_resetCond r s HB) as D. unfold does in D. specialize (D f). destruct D as [(s2 & k & E2 & _)|(s2 & f2 & E2 & _ & M)].
  { rewrite E2 in E. exfalso. apply pair_inj in E as [_ E]. clear -E. inversion E. }
  rewrite E2 in E. clear E2.
  apply pair_inj in E as [<- E]. apply some_pair_inj in E as [<- _]. destruct (rd3 (mem s)) as [c|] eqn:R.
  - split; [reflexivity|]. destruct (rd3_bytes _ _ HB R) as [B V]. pose proof (val3_range c B) as VR. destruct (reset_noise_bytes r) as [NB NV].
    set (c' := if val3 c <? 2097152 then enc3 (val3 c + 1) else reset_noise r) in *. exists c'.
    assert (B' : bytes3 c') by (unfold c'; destruct (val3 c <? 2097152) eqn:T; [apply enc3_bytes; lia|exact NB]).
    assert (V' : val3 c' = if val3 c <? 2097152 then val3 c + 1 else val3 (reset_noise r)) by (unfold c'; destruct (val3 c <? 2097152) eqn:T; [apply val3_enc; lia|reflexivity]).
    assert (RD : rd3 (mem s2) = Some c').
    { transitivity (rd3 (applyw (W c') (mem s))); [apply rd3_meq; intros q _; apply M|]. rewrite rd3_W by exact B'. replace (val3 c' =? 16777215) with false; [reflexivity|]. destruct (val3 c <? 2097152) eqn:T; lia. }
    split; [rewrite prefix_now_rd3; exact RD|]. split; [destruct (val3 c <? 2097152) eqn:T; lia|]. split; [intros X; replace (val3 c <? 2097152) with true in V' by lia; lia|].
    split; [intros X; unfold c' in *; replace (val3 c <? 2097152) with false in * by lia; split; [reflexivity|lia]|].
    intros a Ha. rewrite M. apply applyw_other. intros w Hw X. apply Ha. subst a. unfold W in Hw. apply at_addr_in in Hw as [Hw _]. unfold Zlen in Hw. rewrite map_length, two_copies_len in Hw. unfold TXC_START in Hw. lia.
  - split; [reflexivity|]. intros a. rewrite M. reflexivity.
Qed.
(** If the power fails during the call, what then reads back is known only in part here:
    with no byte written it is the old one, and once the first copy is complete it is the new one. *)
Theorem tx_reset_cond_power_partial : forall r s f s', bytes_mem (mem s) -> resetCond r s f = (s', None) ->
  exists c c' k, prefix_now s = Some c /\ (k <= 8)%nat /\
    (c' = if val3 c <? 2097152 then enc3 (val3 c + 1) else reset_noise r) /\
    (k = 0%nat -> prefix_now s' = Some c) /\ ((4 <= k)%nat -> prefix_now s' = Some c') /\
    meq (mem s') (applyw (firstn k (W c')) (mem s)).
Proof.
  intros r s f s' HB E. pose proof (does_resetCond r s HB) as D. unfold does in D. specialize (D f). destruct D as [(s2 & k & E2 & L & K & M)|(s2 & f2 & E2 & _)].
  2: { rewrite E2 in E. exfalso. apply pair_inj in E as [_ E]. clear -E. inversion E. }
  rewrite E2 in E. apply pair_inj in E as [<- _]. clear E2. rewrite prefix_now_rd3. destruct (rd3 (mem s)) as [c|] eqn:R; [|cbn in L; lia].
  destruct (rd3_bytes _ _ HB R) as [B V]. pose proof (val3_range c B) as VR. destruct (reset_noise_bytes r) as [NB NV].
  set (c' := if val3 c <? 2097152 then enc3 (val3 c + 1) else reset_noise r) in *. exists c, c', k. rewrite W_len in K.
  split; [reflexivity|]. split; [exact K|]. split; [reflexivity|].
  assert (B' : bytes3 c') by (unfold c'; destruct (val3 c <? 2097152) eqn:T; [apply enc3_bytes; lia|exact NB]).
  assert (V' : val3 c' < 16777215) by (unfold c'; destruct (val3 c <? 2097152) eqn:T; [rewrite val3_enc by lia; lia|lia]).
  split; [intros ->; rewrite prefix_now_rd3, <- R; apply rd3_meq; intros q _; apply M|]. split; [|exact M].
  intros K4. rewrite prefix_now_rd3. transitivity (rd3 (applyw (firstn k (W c')) (mem s))); [apply rd3_meq; intros q _; apply M|].
  pose proof (rd3_W c' (mem s) B') as RW. rewrite rd3_raw in RW |- *.
  assert (F : forall j, 0 <= j < 4 -> raw (applyw (firstn k (W c')) (mem s)) j = raw (applyw (W c') (mem s)) j).
  { intros j Hj. rewrite raw_W_all by (exact B' || lia). unfold W. rewrite firstn_at_addr. unfold raw. rewrite applyw_at. unfold TXC_START.
    assert (HL : Zlen (firstn k (map inv8 (two_copies c'))) = Z.of_nat k) by (unfold Zlen; rewrite firstn_length, map_length, two_copies_len; lia).
    rewrite HL. replace ((104 <=? 104 + j) && (104 + j <? 104 + Z.of_nat k)) with true by lia. replace (104 + j - 104) with j by lia.
    rewrite znth_firstn by lia. rewrite znth_inv8 by (unfold Zlen; rewrite two_copies_len; lia). rewrite inv8_inv. apply two_copies_fld; [exact B'|lia]. }
  rewrite (F 0), (F 1), (F 2), (F 3) by lia.
  assert (G : forall j, 0 <= j < 4 -> raw (applyw (W c') (mem s)) (j + 4) = raw (applyw (W c') (mem s)) j).
  { intros j Hj. rewrite !raw_W_all by (exact B' || lia). f_equal. replace (j + 4) with (j + 1 * 4) by lia. apply Z.mod_add. lia. }
  pose proof (G 0 ltac:(lia)) as G0. pose proof (G 1 ltac:(lia)) as G1. pose proof (G 2 ltac:(lia)) as G2. pose proof (G 3 ltac:(lia)) as G3. cbn [Z.add Pos.add Pos.succ] in G0, G1, G2, G3.
  rewrite G0, G1, G2, G3 in RW. replace (val3 c' =? 16777215) with false in RW by lia. destruct (readOne _ _ _ _) as [x|] in RW |- *; [exact RW|].
  exfalso. clear -RW. inversion RW.
Qed.

Definition ctr_store (c : Ctr3) : EE := mkEE (applyw (W c) (fun _ => 255)) [].
Lemma ctr_store_raw c j : raw (mem (ctr_store c)) j = raw (applyw (W c) (fun _ => 255)) j.
Proof. unfold ctr_store. cbn [mem]. reflexivity. Qed.
Lemma raw_same m m' j : m (104 + j) = m' (104 + j) -> raw m j = raw m' j.
Proof. unfold raw. intros ->. reflexivity. Qed.
Lemma ctr_store_win c m : bytes3 c -> (forall a, 104 <= a < 112 -> m a = mem (ctr_store c) a) -> win (val3 c) 0 m.
Proof.
  intros B HS j Hj. exists 0. pose proof (val3_range c B) as VR. split; [lia|]. split; [lia|].
  rewrite (raw_same m (mem (ctr_store c))) by (apply HS; lia). rewrite ctr_store_raw, raw_W_all by assumption. f_equal. lia.
Qed.
Lemma win_old_new c m d : bytes3 c -> win (val3 c) 1 m -> rd3 m = Some d -> d = c \/ val3 d = val3 c + 1.
Proof.
  intros B W1 RD. pose proof (val3_range c B) as VR. destruct (win_read (val3 c) 1 m d (proj1 VR) ltac:(clear; lia) W1 RD) as (BD & VD & _).
  assert (X : val3 d = val3 c \/ val3 d = val3 c + 1) by lia. destruct X as [X|X]; [left|right; exact X].
  rewrite <- (enc3_val d BD), <- (enc3_val c B), X. reflexivity.
Qed.
Lemma mixed_first v m' m k v' d : win v 0 m -> wr m' m k v' -> 0 <= v -> 0 < k < 4 -> 0 <= v' -> v' < 1048576 -> rd3 m' = Some d ->
  val3 d < 1048576 \/ ro m' 4 = Some d.
Proof.
  intros HW WR Hv K V0 V1 RD. rewrite rd3_ro in RD. destruct (ro m' 0) as [e|] eqn:R0; [|right; exact RD].
  left. apply some_inj in RD. subst e.
  assert (BY : forall j, 0 <= j < 4 -> byte (raw m' j)).
  { intros j Hj. rewrite (WR j) by lia. destruct (j <? k); [apply win_fld_byte; lia|].
    destruct (HW j ltac:(lia)) as (i & A & A2 & C). rewrite C. apply win_fld_byte. lia. }
  pose proof (BY 0 ltac:(lia)) as Y0. pose proof (BY 1 ltac:(lia)) as Y1. pose proof (BY 2 ltac:(lia)) as Y2.
  assert (D0 : val3 d / 65536 = raw m' 0).
  { destruct (ro_full m' 0 d) as (FD & BD & _); [exact Y0|apply BY; lia|apply BY; lia|exact R0|]. pose proof (FD 0 ltac:(lia)) as F0. rewrite fld0 in F0. symmetry. exact F0. }
  pose proof (WR 0 ltac:(lia)) as W0. replace (0 <? k) with true in W0 by lia. replace (0 mod 4) with 0 in W0 by reflexivity. rewrite fld0 in W0.
  rewrite W0 in D0. clear -D0 V0 V1. assert (H16 : v' / 65536 < 16) by (apply Z.div_lt_upper_bound; lia). rewrite <- D0 in H16.
  clear -H16. lia.
Qed.
(** In full, from the state a completed write of a counter leaves: whenever the power fails, the counter still reads, as the
    old or the new one, or - only if it was to be replaced by a random one - as one from the new range. *)
Theorem tx_reset_cond_power : forall r c s f s', bytes_mem (mem s) -> bytes3 c -> val3 c < 16777215 ->
  (forall a, 104 <= a < 112 -> mem s a = mem (ctr_store c) a) -> resetCond r s f = (s', None) ->
  exists d, prefix_now s' = Some d /\
    (d = c \/ val3 c < 2097152 /\ val3 d = val3 c + 1 \/ 2097152 <= val3 c /\ val3 d < 1048576).
Proof.
  intros r c s f s' HB B V HS E. pose proof (val3_range c B) as VR.
  assert (HW : win (val3 c) 0 (mem s)).
  { apply ctr_store_win; assumption. }
  assert (F4 : full (mem s) 4 (val3 c)).
  { intros j Hj. destruct (HW (4 + j) ltac:(lia)) as (i & A & _ & C). rewrite C. f_equal; lia. }
  assert (R : prefix_now s = Some c).
  { rewrite prefix_now_rd3, (win_read0 (val3 c)) by (assumption || lia). f_equal. apply enc3_val, B. }
  destruct (tx_reset_cond_power_partial r s f s' HB E) as (c0 & c' & k & R0 & K & EC & K0 & K4 & M).
  rewrite R in R0. apply some_inj in R0. subst c0. destruct (reset_noise_bytes r) as [NB NV].
  assert (B' : bytes3 c') by (rewrite EC; destruct (val3 c <? 2097152) eqn:T; [apply enc3_bytes; lia|exact NB]).
  assert (V' : val3 c' = if val3 c <? 2097152 then val3 c + 1 else val3 (reset_noise r)) by (rewrite EC; destruct (val3 c <? 2097152) eqn:T; [apply val3_enc; lia|reflexivity]).
  pose proof (val3_range c' B') as VR'.
  destruct (Nat.le_gt_cases 4 k) as [G|G].
  { exists c'. split; [apply K4; exact G|]. destruct (Z.ltb_spec (val3 c) 2097152); right; [left|right]; split; lia. }
  assert (MW : meq (mem s') (applyw (firstn k (W (enc3 (val3 c')))) (mem s))) by (rewrite enc3_val by exact B'; exact M).
  pose proof (wr_W k (val3 c') (mem s) (mem s') ltac:(lia) MW) as WR.
  assert (F4' : full (mem s') 4 (val3 c)).
  { intros j Hj. rewrite (wr_miss _ _ _ _ (4 + j) WR) by lia. apply F4, Hj. }
  pose proof (full_ro _ _ _ F4' ltac:(lia)) as RO4. rewrite enc3_val in RO4 by exact B.
  rewrite prefix_now_rd3. destruct (rd3 (mem s')) as [d|] eqn:RD.
  2: { exfalso. rewrite rd3_ro, RO4 in RD. clear -RD. destruct (ro (mem s') 0); inversion RD. }
  exists d. split; [reflexivity|]. destruct (Z.ltb_spec (val3 c) 2097152) as [T|T].
  - assert (W1 : win (val3 c) 1 (mem s')).
    { eapply win_meq; [intros q; symmetry; apply MW|]. rewrite <- (Z.add_0_l 1). apply win_W; [lia|exact HW|lia|lia]. }
    destruct (win_old_new _ _ _ B W1 RD) as [X|X]; [left; exact X|right; left; split; [exact T|exact X]].
  - destruct k as [|k].
    + left. apply some_inj. rewrite <- RD, <- (K0 eq_refl), prefix_now_rd3. reflexivity.
    + destruct (mixed_first (val3 c) (mem s') (mem s) (Z.of_nat (S k)) (val3 c') d) as [X|X]; [exact HW|exact WR|lia|lia|lia|lia|exact RD|..].
      * right; right. split; [exact T|exact X].
      * left. rewrite RO4 in X. apply some_inj in X. symmetry. exact X.
Qed.
Example tx_reset_cond_power_met :
  match resetCond (200, 7, 9) (ctr_store (32, 0, 0)) 3%nat with (s', None) => prefix_now s' = Some (32, 0, 0) /\ mem s' 104 <> mem (ctr_store (32, 0, 0)) 104 | _ => False end /\
  match resetCond (200, 7, 9) (ctr_store (31, 255, 255)) 5%nat with (s', None) => prefix_now s' = Some (31, 255, 255) \/ prefix_now s' = Some (32, 0, 0) | _ => False end.
Proof. vm_compute. split; [split; [reflexivity|discriminate]|]. tauto. Qed.
Example tx_reset_cond_met :
  match resetCond (200, 7, 9) (ctr_store (31, 255, 255)) 99%nat with (s', Some (b, _)) => b = true /\ prefix_now s' = Some (32, 0, 0) | _ => False end /\
  match resetCond (200, 7, 9) (ctr_store (32, 0, 0)) 99%nat with (s', Some (b, _)) => b = true /\ prefix_now s' = Some (4, 7, 9) | _ => False end.
Proof. vm_compute. repeat split. Qed.
(** Full statement: "resets the restart counter if significant life has been used".  Refuted for the counter that has used
    its whole life: it no longer reads, so the call fails and leaves the node unable to send. *)
Theorem tx_reset_cond_exhausted_refuted :
  (* the increment that uses up the counter succeeds ... *)
  match incrementTXNVCtrPrefix (ctr_store (255, 255, 254)) 99%nat with
  | (s1, Some (b, _)) => b = true /\
    (* ... and then the reset fails *)
    match resetCond (200, 7, 9) s1 99%nat with (s2, Some (b2, _)) => b2 = false /\ prefix_now s2 = None | _ => False end
  | _ => False
  end.
Proof. vm_compute. repeat split. Qed.
(** And the reset goes back: message counters are used again, unless ID or key change too. *)
Theorem tx_reset_cond_reuse_refuted :
  match resetCond (0, 0, 1) (ctr_store (32, 0, 0)) 99%nat with
  | (s', Some (b, _)) => b = true /\ prefix_now s' = Some (0, 0, 1)
  | _ => False end.
Proof. vm_compute. repeat split. Qed.

(** ** C169: polled I2C transfers *)
(** The answer of the peripheral to poll number k (0: the start of the transfer). *)
Definition answer (init : I2CAns) (p : nat -> I2CAns) (k : nat) : I2CAns := match k with O => init | S k => p k end.
Lemma i2c_poll_spec p : forall t k r,
  let '(a, n) := i2c_poll t p k r in
  (k <= n <= k + t)%nat /\ a = (if Nat.eqb n k then r else p (n - 1)%nat) /\
  (a = IInProgress -> n = (k + t)%nat) /\
  (forall j, (k <= j < n)%nat -> (if Nat.eqb j k then r else p (j - 1)%nat) = IInProgress).
Proof.
  induction t as [|t IH]; intros k r; cbn [i2c_poll]; destruct (in_progress r) eqn:P.
  - split; [lia|]. rewrite Nat.eqb_refl. split; [reflexivity|]. split; [intros; lia|]. intros j Hj; lia.
  - split; [lia|]. rewrite Nat.eqb_refl. split; [reflexivity|]. split; [intros ->; discriminate|]. intros j Hj; lia.
  - specialize (IH (S k) (p k)). destruct (i2c_poll t p (S k) (p k)) as [a n]. destruct IH as (A & B & C & D).
    split; [lia|]. replace (Nat.eqb n k) with false by (symmetry; apply Nat.eqb_neq; lia). split.
    { destruct (Nat.eqb_spec n (S k)) as [->|]; [rewrite B; f_equal; lia|exact B]. }
    split; [intros X; specialize (C X); lia|]. intros j Hj. destruct (Nat.eqb_spec j k) as [EJ|N]; [destruct r; try discriminate; reflexivity|].
    specialize (D j ltac:(lia)). destruct (Nat.eqb_spec j (S k)) as [EJ|NJ]; [rewrite <- D; f_equal; lia|exact D].
  - split; [lia|]. rewrite Nat.eqb_refl. split; [reflexivity|]. split; [intros ->; discriminate|]. intros j Hj; lia.
Qed.
(** The transfer ends, after at most 300000 polls, with the peripheral's first answer other than "in progress" - or, if there
    is none in that many polls, with "in progress". *)
Theorem i2c_transfer_ends_partial : forall init p, let '(a, n) := i2c_transfer init p in
  Z.of_nat n <= 300000 /\ a = answer init p n /\ (forall j, (j < n)%nat -> answer init p j = IInProgress) /\
  (a = IInProgress -> Z.of_nat n = 300000).
Proof.
  intros init p. unfold i2c_transfer. pose proof (i2c_poll_spec p (Z.to_nat I2C_TIMEOUT) 0 init) as H.
  assert (T : Z.of_nat (Z.to_nat I2C_TIMEOUT) = 300000) by (rewrite Z2Nat.id by (unfold I2C_TIMEOUT; lia); reflexivity).
  revert H T. generalize (Z.to_nat I2C_TIMEOUT). intros t H T. destruct (i2c_poll t p 0 init) as [a n]. destruct H as (A & B & C & D).
  split; [lia|]. split; [rewrite B; destruct n; [reflexivity|]; cbn [Nat.eqb answer]; f_equal; lia|]. split.
  - intros j Hj. specialize (D j ltac:(lia)). destruct j; [exact D|]. cbn [Nat.eqb answer] in *. rewrite <- D. f_equal. lia.
  - intros X. rewrite (C X). lia.
Qed.
Example i2c_transfer_met : let p k := if Nat.eqb k 3 then IDone else IInProgress in i2c_poll 10 p 0 IInProgress = (IDone, 4%nat).
Proof. reflexivity. Qed.
(** Full statement, i2c_driver.cpp: "It does not return until the transfer is complete".  Refuted: with a slow device it
    returns while the transfer goes on, into buffers of the caller that need not exist any more. *)
Theorem i2c_transfer_complete_refuted : exists init p, fst (i2c_transfer init p) = IInProgress /\ exists k, answer init p k = IDone.
Proof.
  exists IInProgress, (fun k => if Z.of_nat k <? 300000 then IInProgress else IDone).
  split; [|exists (S (Z.to_nat 300000)); cbn [answer]; rewrite Z2Nat.id by lia; reflexivity].
  pose proof (i2c_transfer_ends_partial IInProgress (fun k => if Z.of_nat k <? 300000 then IInProgress else IDone)) as H.
  destruct (i2c_transfer _ _) as [a n]. destruct H as (A & B & _). cbn [fst]. rewrite B. destruct n as [|n]; [reflexivity|]. cbn [answer].
  replace (Z.of_nat n <? 300000) with true by lia. reflexivity.
Qed.
(** The seven-bit address is sent in the upper bits of the address byte, and only well-formed requests reach the bus. *)
Theorem i2c_requests : forall addr cmd n, 0 <= addr < 128 ->
  (i2c_read addr cmd n <> None <-> (exists c cs k, cmd = Some (c :: cs) /\ n = Some k /\ k <> 0)) /\
  (forall a w k, i2c_read addr cmd n = Some (a, w, k) -> a / 2 = addr /\ a mod 2 = 0 /\ 0 <= a < 256 /\ cmd = Some w /\ n = Some k) /\
  (forall a w k, i2c_write addr cmd = Some (a, w, k) -> a / 2 = addr /\ a mod 2 = 0 /\ 0 <= a < 256 /\ cmd = Some w /\ k = 0).
Proof.
  intros addr cmd n H. assert (U : u16 (addr * 2) = addr * 2) by (apply u16_id; lia).
  assert (A : (addr * 2) / 2 = addr /\ (addr * 2) mod 2 = 0 /\ 0 <= addr * 2 < 256) by (split; [apply Z.div_mul; lia|split; [apply Z.mod_mul; lia|lia]]).
  split; [|split].
  - unfold i2c_read. destruct cmd as [[|c cs]|]; [split; [congruence|intros (? & ? & ? & X & _); discriminate]| |split; [congruence|intros (? & ? & ? & X & _); discriminate]].
    destruct n as [n|]; [|split; [congruence|intros (? & ? & ? & _ & X & _); discriminate]].
    destruct (Z.eqb_spec n 0) as [->|N]; [split; [congruence|intros (? & ? & ? & _ & X & Y); congruence]|]. split; [intros _; eauto 8|discriminate].
  - intros a w k E. unfold i2c_read in E. destruct cmd as [[|c cs]|]; try discriminate. destruct n as [n|]; try discriminate. destruct (n =? 0); try discriminate.
    apply some_inj in E. apply pair_inj in E as [E <-]. apply pair_inj in E as [<- <-]. rewrite U. tauto.
  - intros a w k E. unfold i2c_write in E. destruct cmd as [[|c cs]|]; try discriminate.
    apply some_inj in E. apply pair_inj in E as [E <-]. apply pair_inj in E as [<- <-]. rewrite U. tauto.
Qed.
