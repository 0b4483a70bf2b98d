(** C25: how many frames the receive queue can be relied on to hold; C24 for the 1-deep queue. *)
From Verif Require Import Base RxQueueModel RxQueueProps.

(** Bytes taken by queued frames, each with its length byte. *)
Fixpoint occupied (fs : list (list Z)) : Z :=
  match fs with [] => 0 | f :: fs => 1 + Zlen f + occupied fs end.

Lemma occupied_app fs gs : occupied (fs ++ gs) = occupied fs + occupied gs.
Proof. induction fs as [|f fs IH]; cbn [occupied app]; lia. Qed.

Lemma lin_occupied mx l b fs : forall p e, lin mx l b p fs e -> e = p + occupied fs.
Proof.
  induction fs as [|f fs IH]; cbn [lin occupied]; intros p e H; [lia|].
  destruct H as (_ & _ & _ & H). apply IH in H. lia.
Qed.
Lemma lin_sizes mx l b fs : forall p e, lin mx l b p fs e -> Forall (fun f => 1 <= Zlen f <= mx) fs.
Proof.
  induction fs as [|f fs IH]; cbn [lin]; intros p e H; constructor.
  - apply H.
  - destruct H as (_ & _ & _ & H). eapply IH; exact H.
Qed.

Lemma full_held c q fs : cfg_ok c -> inv c q fs -> isFull c q = true ->
  fs <> [] /\ bufsiz c - 2 * maxRX c <= occupied fs /\ Forall (fun f => 1 <= Zlen f <= maxRX c) fs.
Proof.
  intros H I F. pose proof H as [? ?]. pose proof (cfg_bs c H) as BS. pose proof (cfg_lui c H) as LU.
  destruct I as (L & C & O & N & [A | (f1 & fs1 & fs2 & e & -> & A & E & B & D)]).
  - exfalso. unfold isFull in F.
    destruct (lin_bounds _ _ _ _ _ _ A ltac:(lia)) as (_ & A2 & _). pose proof (Zlen_nonneg fs).
    destruct (next q >? oldest q) eqn:E1; [discriminate|].
    replace (next q =? oldest q) with true in F by lia.
    unfold isEmpty in F. rewrite C in F. destruct (Zlen fs =? 0) eqn:E2; [discriminate|]. lia.
  - split; [discriminate|]. split.
    + rewrite occupied_app. apply lin_occupied in A. apply lin_occupied in B.
      unfold isFull in F. replace (next q >? oldest q) with false in F by lia.
      destruct (next q =? oldest q) eqn:E1; [lia|].
      cbv zeta in F. rewrite u8_id in F by (unfold byte; lia). lia.
    + apply Forall_app. split; eapply lin_sizes; eassumption.
Qed.

(** ** Histories *)

Lemma run_app c es1 es2 : forall s, run c (es1 ++ es2) s =
  (do (s1, o1) <- run c es1 s ; do (s2, o2) <- run c es2 s1 ; Some (s2, o1 ++ o2)).
Proof.
  induction es1 as [|e es IH]; intros s; cbn [run app].
  - cbn [bind]. destruct (run c es2 s) as [[s2 o2]|]; reflexivity.
  - destruct (step c e s) as [[s1 o1]|]; cbn [bind]; [|reflexivity]. rewrite IH.
    destruct (run c es s1) as [[s2 o2]|]; cbn [bind]; [|reflexivity].
    destruct (run c es2 s2) as [[s3 o3]|]; cbn [bind]; [|reflexivity]. rewrite app_assoc. reflexivity.
Qed.

Lemma app_last_inj {A} (l1 l2 : list A) x y : l1 ++ [x] = l2 ++ [y] -> l1 = l2 /\ x = y.
Proof. intros H. apply app_inj_tail in H. exact H. Qed.

(** After history [es], frame (data, len) arrives and is dropped for lack of room. *)
Definition dropped_after (c : cfg) (junk : list Z) (es : list event) (data : list Z) (len : Z)
    (os : list obs) : Prop :=
  exists s, run c (es ++ [EFrame data len]) (Sys (vq_init junk) Idle) = Some (s, os ++ [ODropped]).

Lemma dropped_state c junk es data len os :
  cfg_ok c -> Zlen junk = bufsiz c -> Forall (event_ok c) es -> event_ok c (EFrame data len) ->
  dropped_after c junk es data len os ->
  exists s held, run c es (Sys (vq_init junk) Idle) = Some (s, os) /\ fifo [] os = Some held /\
    sinv c s held /\ isFull c (sq s) = true.
Proof.
  intros H J F E (s2 & R).
  destruct (run_ok c es (Sys (vq_init junk) Idle) [] H F) as (s & os' & held & R1 & Q & I).
  { split; [apply inv_init; auto|exact Logic.I]. }
  rewrite run_app, R1 in R. cbn [bind run] in R.
  destruct I as [I1 I2].
  destruct (isr_ok c (sq s) held data len H I1 E) as (q' & r & IS & RR & _).
  cbn [step] in R. rewrite IS in R. cbn [bind] in R. rewrite app_nil_r in R.
  apply some_pair_inj in R. destruct R as [_ R].
  destruct r as [f | |]; apply app_last_inj in R; destruct R as [R1' R2']; try discriminate R2'.
  subst os'. exists s, held. split; [exact R1|]. split; [exact Q|]. split; [split; assumption|]. apply RR.
Qed.

(** C25 (what is guaranteed).  After any history, a frame is dropped only if the frames held
    at that moment (accepted and not yet removed) occupy, with their length bytes, at least
    the buffer size less twice the maximum frame size; in particular the queue is then not
    empty. *)
Theorem rxqueue_drop_occupancy c junk es data len os :
  cfg_ok c -> Zlen junk = bufsiz c -> Forall (event_ok c) es -> event_ok c (EFrame data len) ->
  dropped_after c junk es data len os ->
  exists held, fifo [] os = Some held /\ held = skipn (removals os) (accepted os) /\
    held <> [] /\ bufsiz c - 2 * maxRX c <= occupied held.
Proof.
  intros H J F E D. destruct (dropped_state _ _ _ _ _ _ H J F E D) as (s & held & _ & Q & [I _] & FU).
  exists held. split; [exact Q|]. split; [apply (fifo_accounting _ _ _ Q)|].
  destruct (full_held c _ held H I FU) as (A & B & _). auto.
Qed.

Lemma occupied_count mx fs : Forall (fun f => 1 <= Zlen f <= mx) fs -> occupied fs <= (mx + 1) * Zlen fs.
Proof.
  induction 1 as [|f fs Hf _ IH]; cbn [occupied].
  - change (Zlen (@nil (list Z))) with 0. lia.
  - rewrite Zlen_cons. nia.
Qed.

(** C25 (frames, partial).  Provided the buffer was not capped at 256 bytes (and the target does
    not exceed the frame size), no frame is dropped while the queue holds fewer than
    target - 1 frames, of whatever sizes.  The documented minimum is higher: refuted below. *)
Theorem rxqueue_capacity_partial c junk es data len os :
  cfg_ok c -> maxRX c * (1 + target c) <= 256 -> target c <= maxRX c + 1 ->
  Zlen junk = bufsiz c -> Forall (event_ok c) es -> event_ok c (EFrame data len) ->
  dropped_after c junk es data len os ->
  target c - 1 <= Zlen (skipn (removals os) (accepted os)).
Proof.
  intros H B T J F E D. destruct (dropped_state _ _ _ _ _ _ H J F E D) as (s & held & _ & Q & [I _] & FU).
  destruct (fifo_accounting _ _ _ Q) as [EQ _]. cbn [app] in EQ. rewrite <- EQ.
  destruct (full_held c _ held H I FU) as (A & O & S).
  pose proof (occupied_count _ _ S) as OC. destruct H as [H1 H2].
  assert (BS : bufsiz c = maxRX c * (1 + target c)) by (unfold bufsiz; lia).
  rewrite BS in O. pose proof (Zlen_nonneg held).
  destruct (Z_lt_le_dec (Zlen held) (target c - 1)) as [L|L]; [exfalso|exact L].
  assert ((maxRX c + 1) * Zlen held <= (maxRX c + 1) * (target c - 2)) by (apply Z.mul_le_mono_nonneg_l; lia).
  nia.
Qed.

Example capacity_partial_example :
  cfg_ok (Cfg 64 2) /\ 64 * (1 + 2) <= 256 /\
  dropped_after (Cfg 64 2) (repeat 0 192)
    [EFrame (repeat 7 62) 62; ERemoveTest; ERemoveBody; EFrame (repeat 8 64) 64] (repeat 9 64) 64
    [OQueued (repeat 7 62); ORemoved; OQueued (repeat 8 64)].
Proof.
  split; [unfold cfg_ok; cbn; lia|]. split; [lia|]. eexists. vm_compute. reflexivity.
Qed.

(** C25 (documented claim, refuted).  MinQueueCapacityMsgs is documented as the "guaranteed
    minimum number of (full-length) messages that can be queued" and reported through
    getRXCapacity().  For the RFM23B driver's default configuration it is 3, yet after one
    61-byte frame has come and gone the queue drops a frame while holding 2. *)
Theorem rxqueue_capacity_refuted :
  let c := Cfg 64 3 in
  minQueueCapacityMsgs c = 3 /\ target c = 3 /\
  exists es data os held,
    Forall (event_ok c) es /\ event_ok c (EFrame data 64) /\
    dropped_after c (repeat 0 256) es data 64 os /\
    fifo [] os = Some held /\ Zlen held = 2.
Proof.
  cbv zeta. split; [reflexivity|]. split; [reflexivity|].
  exists [EFrame (repeat 7 61) 61; ERemoveTest; ERemoveBody; EFrame (repeat 8 64) 64; EFrame (repeat 9 64) 64],
         (repeat 10 64), [OQueued (repeat 7 61); ORemoved; OQueued (repeat 8 64); OQueued (repeat 9 64)],
         [repeat 8 64; repeat 9 64].
  assert (RB : forall v n, byte v -> Forall byte (repeat v n)).
  { intros v n Hv. apply Forall_forall. intros x Hx. apply repeat_spec in Hx. subst. exact Hv. }
  assert (B7 : byte 7 /\ byte 8 /\ byte 9 /\ byte 10) by (unfold byte; lia).
  destruct B7 as (B7 & B8 & B9 & B10).
  split.
  { repeat constructor; cbn [event_ok]; try (split; [apply RB; assumption|]); rewrite ?Zlen_repeat; cbn; lia. }
  split; [split; [apply RB; assumption|rewrite Zlen_repeat; cbn; lia]|].
  split; [eexists; vm_compute; reflexivity|].
  split; [vm_compute; reflexivity|reflexivity].
Qed.

(** ** All frames of maximum size: the advertised capacity does hold *)

Lemma occupied_max mx fs : Forall (fun f => Zlen f = mx) fs -> occupied fs = (mx + 1) * Zlen fs.
Proof.
  induction 1 as [|f fs Hf _ IH]; cbn [occupied].
  - change (Zlen (@nil (list Z))) with 0. lia.
  - rewrite Zlen_cons. nia.
Qed.

Definition aligned (c : cfg) (s : sys) : Prop := exists k, oldest (sq s) = k * (maxRX c + 1).

Lemma fifo_held_max mx os : forall q q', fifo q os = Some q' ->
  Forall (fun f => Zlen f = mx) (q ++ accepted os) -> Forall (fun f => Zlen f = mx) q'.
Proof.
  intros q q' H F. destruct (fifo_accounting _ _ _ H) as [-> _].
  apply Forall_skipn'. exact F.
Qed.

Lemma step_aligned c e s fs s' os : cfg_ok c -> event_ok c e -> sinv c s fs ->
  Forall (fun f => Zlen f = maxRX c) fs -> aligned c s ->
  step c e s = Some (s', os) -> aligned c s'.
Proof.
  intros H EV (I & P) FM AL. destruct s as [q p]. cbn [sq spc] in *. unfold aligned in *; cbn [sq] in *.
  destruct e as [data len | | | i | | |]; cbn [step sq spc].
  - destruct (isr_ok c q fs data len H I EV) as (q' & r & -> & R & OL). cbn [bind].
    intros X. apply some_pair_inj in X. destruct X as [<- _]. cbn [sq]. rewrite OL. exact AL.
  - destruct p; destruct (isEmpty q); intros X; apply some_pair_inj in X; destruct X as [<- _]; exact AL.
  - destruct p; intros X; apply some_pair_inj in X; destruct X as [<- _]; exact AL.
  - destruct p as [| |p|]; try (intros X; apply some_pair_inj in X; destruct X as [<- _]; exact AL).
    destruct (rd (vbuf q) (p - 1)) as [l|]; cbn [bind]; [|discriminate].
    destruct ((0 <=? i) && (i <=? l)).
    + destruct (rd (vbuf q) (p - 1 + i)); cbn [bind]; [|discriminate].
      intros X; apply some_pair_inj in X; destruct X as [<- _]; exact AL.
    + intros X; apply some_pair_inj in X; destruct X as [<- _]; exact AL.
  - destruct p; destruct (isEmpty q); intros X; apply some_pair_inj in X; destruct X as [<- _]; exact AL.
  - destruct p; try (intros X; apply some_pair_inj in X; destruct X as [<- _]; exact AL).
    destruct fs as [|f fs]; [congruence|].
    destruct (remove_ok c q f fs H I) as (q' & -> & _ & O). cbn [bind].
    intros X; apply some_pair_inj in X; destruct X as [<- _]. cbn [sq].
    destruct AL as [k AL]. pose proof (Forall_inv FM) as LF. cbn beta in LF.
    destruct O as [O|O].
    + exists 0. lia.
    + exists (k + 1). rewrite O, AL, LF. lia.
  - intros X; apply some_pair_inj in X; destruct X as [<- _]; exact AL.
Qed.

Lemma accepted_app a b : accepted (a ++ b) = accepted a ++ accepted b.
Proof. induction a as [|o a IH]; [reflexivity|]. destruct o; cbn [accepted app]; rewrite ?IH; reflexivity. Qed.

Lemma run_aligned c es : forall s fs s' os, cfg_ok c -> Forall (event_ok c) es -> sinv c s fs ->
  Forall (fun f => Zlen f = maxRX c) fs -> aligned c s ->
  run c es s = Some (s', os) -> Forall (fun f => Zlen f = maxRX c) (accepted os) -> aligned c s'.
Proof.
  induction es as [|e es IH]; intros s fs s' os H F I FM AL; cbn [run].
  - intros X _; apply some_pair_inj in X; destruct X as [<- _]; exact AL.
  - pose proof (Forall_inv F) as F1. pose proof (Forall_inv_tail F) as F2.
    destruct (step_ok c e s fs H F1 I) as (s1 & o1 & fs1 & ST & Q1 & I1).
    pose proof (step_aligned c e s fs s1 o1 H F1 I FM AL ST) as AL1.
    rewrite ST. cbn [bind].
    destruct (run c es s1) as [[s2 o2]|] eqn:R; cbn [bind]; [|discriminate].
    intros X FA. apply some_pair_inj in X; destruct X as [<- <-].
    rewrite accepted_app in FA. apply Forall_app in FA. destruct FA as [FA1 FA2].
    eapply IH; [exact H|exact F2|exact I1| |exact AL1|exact R|exact FA2].
    eapply fifo_held_max; [exact Q1|]. apply Forall_app. split; assumption.
Qed.

(** C25 (full-size frames).  If every frame accepted so far had the maximum length (as for the
    driver's non-packet mode, OTRFM23BLink.h 853, without a trimming filter), then no frame is
    dropped while the queue holds fewer than the reported MinQueueCapacityMsgs. *)
Theorem rxqueue_capacity_fullsize c junk es data len os :
  cfg_ok c -> Zlen junk = bufsiz c -> Forall (event_ok c) es -> event_ok c (EFrame data len) ->
  Forall (fun f => Zlen f = maxRX c) (accepted os) ->
  dropped_after c junk es data len os ->
  minQueueCapacityMsgs c <= Zlen (skipn (removals os) (accepted os)).
Proof.
  intros H J F E FA D. destruct (dropped_state _ _ _ _ _ _ H J F E D) as (s & held & R & Q & [I IP] & FU).
  destruct (fifo_accounting _ _ _ Q) as [EQ _]. cbn [app] in EQ. rewrite <- EQ.
  assert (FM : Forall (fun f => Zlen f = maxRX c) held) by (eapply fifo_held_max; [exact Q|exact FA]).
  assert (AL : aligned c s).
  { eapply run_aligned; [exact H|exact F| |constructor| |exact R|exact FA].
    - split; [apply inv_init; auto|exact Logic.I].
    - exists 0. reflexivity. }
  pose proof H as [? ?]. pose proof (cfg_bs c H) as BS. pose proof (cfg_lui c H) as LU.
  assert (MQ : minQueueCapacityMsgs c = bufsiz c / (maxRX c + 1)).
  { unfold minQueueCapacityMsgs. apply u8_id. unfold byte.
    split; [apply Z.div_pos; lia|]. apply Z.div_lt_upper_bound; nia. }
  rewrite MQ. destruct AL as [k AL]. destruct s as [q p]; cbn [sq] in *.
  destruct I as (L & C & O & N & [A | (f1 & fs1 & fs2 & e & -> & A & EE & B & DD)]).
  - exfalso. unfold isFull in FU.
    destruct (lin_bounds _ _ _ _ _ _ A ltac:(lia)) as (_ & A2 & _). pose proof (Zlen_nonneg held).
    destruct (next q >? oldest q) eqn:E1; [discriminate|].
    replace (next q =? oldest q) with true in FU by lia.
    unfold isEmpty in FU. rewrite C in FU. destruct (Zlen held =? 0) eqn:E2; [discriminate|]. lia.
  - apply Forall_app in FM. destruct FM as [FM1 FM2].
    apply lin_occupied in A. apply lin_occupied in B.
    rewrite (occupied_max _ _ FM1) in A. rewrite (occupied_max _ _ FM2) in B.
    set (a := Zlen (f1 :: fs1)) in *. set (b := Zlen fs2) in *.
    assert (ON : next q = oldest q).
    { unfold isFull in FU. replace (next q >? oldest q) with false in FU by lia.
      destruct (next q =? oldest q) eqn:E1; [lia|exfalso].
      cbv zeta in FU. rewrite u8_id in FU by (unfold byte; lia).
      assert (X : (k - b) * (maxRX c + 1) = oldest q - next q) by nia.
      assert (1 <= k - b) by nia. nia. }
    rewrite Zlen_app. fold a b.
    assert (EV : e = (a + b) * (maxRX c + 1)) by nia.
    apply Z.lt_succ_r. apply Z.div_lt_upper_bound; [lia|]. nia.
Qed.

Example capacity_fullsize_example :
  minQueueCapacityMsgs (Cfg 64 3) = 3 /\
  dropped_after (Cfg 64 3) (repeat 0 256)
    [EFrame (repeat 7 64) 64; EFrame (repeat 6 64) 64; ERemoveTest; ERemoveBody;
     EFrame (repeat 8 64) 64; EFrame (repeat 8 64) 64] (repeat 9 64) 64
    [OQueued (repeat 7 64); OQueued (repeat 6 64); ORemoved; OQueued (repeat 8 64); OQueued (repeat 8 64)].
Proof. split; [reflexivity|]. eexists. vm_compute. reflexivity. Qed.

(** ** The 1-deep queue *)

Definition inv1 (mx : Z) (s : sys1) (fs : list (list Z)) : Prop :=
  Zlen (fullBuf (sq1 s)) = 1 + mx /\
  match fs with
  | [] => cnt1 (sq1 s) = 0 /\ held1 s = false
  | [f] => cnt1 (sq1 s) = 1 /\ 1 <= Zlen f <= mx /\ stored (fullBuf (sq1 s)) 0 f
  | _ => False
  end.

Lemma step1_ok mx e s fs : 1 <= mx <= 255 -> event_ok (Cfg mx 1) e -> inv1 mx s fs ->
  exists s' os fs', step1 mx e s = Some (s', os) /\ fifo fs os = Some fs' /\ inv1 mx s' fs'.
Proof.
  intros H EV (L & I). destruct s as [[b n] h]. cbn [sq1 held1 fullBuf cnt1] in *.
  destruct e as [data len | | | i | | |]; cbn [step1 sq1 held1 fullBuf cnt1].
  - destruct EV as (FB & DL & LL). cbn [maxRX] in DL. unfold isr1; cbn [fullBuf cnt1].
    destruct fs as [|f [|? ?]]; [|destruct I as (-> & I); cbn [negb bind Z.eqb]|contradiction].
    2:{ eexists _, _, _. split; [reflexivity|]. split; [reflexivity|]. split; [exact L|]. exact (conj eq_refl I). }
    destruct I as (-> & ->). cbn [negb Z.eqb].
    destruct (blit_ok b 1 data ltac:(lia) ltac:(lia)) as [b1 Hb]. rewrite Hb. cbn [bind].
    apply blit_inv in Hb. destruct Hb as (_ & _ & Lb & Zb).
    destruct (len =? 0) eqn:E0; cbn [bind].
    + eexists _, _, _. split; [reflexivity|]. split; [reflexivity|].
      split; cbn [sq1 fullBuf cnt1 held1]; [lia|auto].
    + replace (len >? mx) with false by lia.
      destruct (blit_ok b1 0 [len] ltac:(lia)) as [b2 Hb2]; [change (Zlen [len]) with 1; lia|].
      unfold wr. rewrite Hb2. cbn [bind].
      apply blit_inv in Hb2. change (Zlen [len]) with 1 in Hb2. destruct Hb2 as (_ & _ & Lb2 & Zb2).
      eexists _, _, _. split; [reflexivity|]. split; [reflexivity|].
      split; cbn [sq1 fullBuf cnt1 held1]; [lia|]. cbn [app].
      set (f := firstn (Z.to_nat len) data).
      assert (Lf : Zlen f = len) by (unfold f; rewrite Zlen_firstn; lia).
      split; [reflexivity|]. split; [lia|].
      intros i Hi. rewrite Lf in *. rewrite Zb2 by lia.
      destruct (Z.eq_dec i 0) as [-> | Hn]; [reflexivity|].
      replace ((0 <=? 0 + i) && (0 + i <? 0 + 1)) with false by lia.
      rewrite Zb by lia. replace ((1 <=? 0 + i) && (0 + i <? 1 + Zlen data)) with true by lia.
      rewrite znth_cons by lia. replace (i =? 0) with false by lia.
      unfold f. rewrite znth_firstn by lia. f_equal; lia.
  - destruct fs as [|f [|? ?]]; [| |contradiction].
    + destruct I as (-> & ->). eexists _, _, _. split; [reflexivity|]. split; [reflexivity|].
      split; [exact L|]. cbn. auto.
    + destruct I as (-> & I). eexists _, _, _. split; [reflexivity|]. split; [reflexivity|].
      split; [exact L|]. exact (conj eq_refl I).
  - eexists _, _, fs. split; [reflexivity|]. split; [reflexivity|]. split; assumption.
  - destruct h; [|eexists _, _, fs; split; [reflexivity|]; split; [reflexivity|]; split; assumption].
    destruct fs as [|f [|? ?]]; [destruct I; discriminate| |contradiction].
    destruct I as (-> & I1 & I2).
    rewrite rd_some by lia. cbn [bind].
    replace (znth b 0) with (Zlen f) by (symmetry; apply (I2 0); lia).
    destruct ((0 <=? i) && (i <=? Zlen f)) eqn:Ei.
    + rewrite rd_some by lia. cbn [bind].
      assert (EQ : znth (Zlen f :: f) i = znth b i) by (symmetry; apply (I2 i); lia).
      eexists _, _, [f]. split; [reflexivity|]. cbn [fifo fifo1]. rewrite EQ, Z.eqb_refl.
      split; [reflexivity|]. split; [exact L|]. exact (conj eq_refl (conj I1 I2)).
    + eexists _, _, [f]. split; [reflexivity|]. split; [reflexivity|].
      split; [exact L|]. exact (conj eq_refl (conj I1 I2)).
  - eexists _, _, fs. split; [reflexivity|]. split; [reflexivity|]. split; assumption.
  - destruct fs as [|f [|? ?]]; [| |contradiction]; destruct I as (-> & I);
      eexists _, _, []; (split; [reflexivity|]); (split; [reflexivity|]); (split; [exact L|]); cbn; auto.
  - destruct fs as [|f [|? ?]]; [| |contradiction]; destruct I as (-> & I);
      eexists _, _, _; (split; [reflexivity|]); (split; [reflexivity|]); (split; [exact L|]);
      exact (conj eq_refl I).
Qed.

(** C24 for the 1-deep queue: same statement.  (Its accesses are single loads and stores, so
    there is nothing for an interrupt to divide.) *)
Theorem rxqueue1_fifo mx junk es :
  1 <= mx <= 255 -> Zlen junk = 1 + mx -> Forall (event_ok (Cfg mx 1)) es ->
  exists s' os left,
    run1 mx es (Sys1 (Q1 junk 0) false) = Some (s', os) /\
    fifo [] os = Some left /\
    left = skipn (removals os) (accepted os).
Proof.
  intros H J F.
  assert (G : forall es s fs, Forall (event_ok (Cfg mx 1)) es -> inv1 mx s fs ->
    exists s' os fs', run1 mx es s = Some (s', os) /\ fifo fs os = Some fs' /\ inv1 mx s' fs').
  { clear - H. induction es as [|e es IH]; intros s fs F I; cbn [run1].
    - eexists _, _, _. split; [reflexivity|]. split; [reflexivity|exact I].
    - pose proof (Forall_inv F) as F1. pose proof (Forall_inv_tail F) as F2.
      destruct (step1_ok mx e s fs H F1 I) as (s1 & o1 & fs1 & -> & Q1 & I1). cbn [bind].
      destruct (IH s1 fs1 F2 I1) as (s2 & o2 & fs2 & -> & Q2 & I2). cbn [bind].
      eexists _, _, _. split; [reflexivity|]. split; [|exact I2].
      rewrite (fifo_app _ _ _ _ Q1). exact Q2. }
  destruct (G es (Sys1 (Q1 junk 0) false) [] F) as (s' & os & fs' & R & Q & _).
  { split; [exact J|]. split; reflexivity. }
  eexists _, _, _. split; [exact R|]. split; [exact Q|]. apply (fifo_accounting _ _ _ Q).
Qed.

Example rxqueue1_example :
  exists s, run1 4 [EFrame [1;2;3] 3; EFrame [4] 1; EPeekTest; EFrame [6] 1; EByte 0; EByte 3; ERemoveBody;
                    EFrame [9;8] 2; EPeekTest; EByte 2; ECount] (Sys1 (Q1 (repeat 0 5) 0) false)
   = Some (s, [OQueued [1;2;3]; ODropped; OPeekMsg; ODropped; OByte 0 3; OByte 3 3; ORemoved;
               OQueued [9;8]; OPeekMsg; OByte 2 8; OCount 1]).
Proof. eexists. vm_compute. reflexivity. Qed.
