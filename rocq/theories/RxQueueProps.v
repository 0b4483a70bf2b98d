(** C24: the receive queue is a faithful FIFO under every interleaving of the interrupt
    routine with the application; C25: capacity. *)
From Verif Require Import Base RxQueueModel.

(** ** Specification: an unbounded FIFO of frames, as seen through the observations. *)

(** Play the observations against an ideal FIFO holding [q]; [None] if some observation is
    not what the ideal FIFO would show. *)
Definition fifo1 (q : list (list Z)) (o : obs) : option (list (list Z)) :=
  match o, q with
  | OQueued f, _ => Some (q ++ [f])
  | ODropped, _ | OAbandoned, _ => Some q
  | OPeekNull, [] | ORemoveNone, [] => Some []
  | OPeekMsg, _ :: _ => Some q
  | OByte i v, f :: _ => if znth (Zlen f :: f) i =? v then Some q else None
  | ORemoved, _ :: q' => Some q'
  | OCount n, _ => if n =? Zlen q then Some q else None
  | _, _ => None
  end.

Fixpoint fifo (q : list (list Z)) (os : list obs) : option (list (list Z)) :=
  match os with
  | [] => Some q
  | o :: os => match fifo1 q o with Some q' => fifo q' os | None => None end
  end.

(** Frames accepted from the radio, in order. *)
Fixpoint accepted (os : list obs) : list (list Z) :=
  match os with
  | [] => []
  | OQueued f :: os => f :: accepted os
  | _ :: os => accepted os
  end.
Fixpoint removals (os : list obs) : nat :=
  match os with
  | [] => 0%nat
  | ORemoved :: os => S (removals os)
  | _ :: os => removals os
  end.

(** What an ideal FIFO shows: what is left is what was accepted less the oldest removed. *)
Lemma fifo_accounting os : forall q q', fifo q os = Some q' ->
  q' = skipn (removals os) (q ++ accepted os) /\ (removals os <= length (q ++ accepted os))%nat.
Proof.
  induction os as [|o os IH]; cbn [fifo accepted removals]; intros q q' H.
  - apply some_inj in H. subst. rewrite app_nil_r. cbn. split; [reflexivity|lia].
  - destruct (fifo1 q o) as [q1|] eqn:E; [|discriminate].
    destruct o; destruct q as [|f0 q]; cbn in E; try discriminate E;
      try (destruct (_ =? _); [|discriminate E]); apply some_inj in E; subst q1;
      destruct (IH _ _ H) as [-> L]; cbn [app] in *; rewrite <- ?app_assoc in *; cbn [app] in *;
      try (split; [reflexivity|exact L]).
    cbn [skipn length]. split; [reflexivity|lia].
Qed.

(** Supported configurations: "[1,255]" for both parameters, ISRRXQueue.h 348-349. *)
Definition cfg_ok (c : cfg) : Prop := 1 <= maxRX c <= 255 /\ 1 <= target c <= 255.
(** The driver never writes more than maxRX bytes and queues at most what it wrote. *)
Definition event_ok (c : cfg) (e : event) : Prop :=
  match e with
  | EFrame data len => Forall byte data /\ Zlen data <= maxRX c /\ 0 <= len <= Zlen data
  | _ => True
  end.

Lemma cfg_bs c : cfg_ok c -> maxRX c + 1 <= bufsiz c <= 256.
Proof. unfold cfg_ok, bufsiz. intros. nia. Qed.
Lemma cfg_lui c : cfg_ok c -> lui c = bufsiz c - 1 - maxRX c.
Proof.
  intros H. pose proof H as [? ?]. pose proof (cfg_bs c H). unfold cfg_ok in H. unfold lui, bsm1.
  rewrite (u8_id (bufsiz c - 1)) by (unfold byte; lia). apply u8_id. unfold byte. lia.
Qed.

(** ** Invariant *)

(** Frame [f] stored at [p]: length byte then contents. *)
Definition stored (b : list Z) (p : Z) (f : list Z) : Prop :=
  forall i, 0 <= i <= Zlen f -> znth b (p + i) = znth (Zlen f :: f) i.

(** Frames [fs] stored back to back from [p] up to [e], all starting at or below [l]. *)
Fixpoint lin (mx l : Z) (b : list Z) (p : Z) (fs : list (list Z)) (e : Z) : Prop :=
  match fs with
  | [] => p = e
  | f :: fs => 0 <= p <= l /\ 1 <= Zlen f <= mx /\ stored b p f /\ lin mx l b (p + 1 + Zlen f) fs e
  end.

Definition inv (c : cfg) (q : vq) (fs : list (list Z)) : Prop :=
  Zlen (vbuf q) = bufsiz c /\ count q = Zlen fs /\
  0 <= oldest q <= lui c /\ 0 <= next q <= lui c /\
  (  lin (maxRX c) (lui c) (vbuf q) (oldest q) fs (next q)
  \/ exists f1 fs1 fs2 e, fs = (f1 :: fs1) ++ fs2 /\
       lin (maxRX c) (lui c) (vbuf q) (oldest q) (f1 :: fs1) e /\ lui c < e /\
       lin (maxRX c) (lui c) (vbuf q) 0 fs2 (next q) /\ next q <= oldest q).

Lemma lin_bounds mx l b fs : forall p e, lin mx l b p fs e -> 0 <= l ->
  (fs <> [] -> p <= l) /\ p + 2 * Zlen fs <= e /\ (fs <> [] -> e <= l + 1 + mx).
Proof.
  induction fs as [|f fs IH]; cbn [lin]; intros p e H Hl.
  - subst. change (Zlen (@nil (list Z))) with 0. repeat split; try lia; congruence.
  - destruct H as (A & B & _ & H). destruct (IH _ _ H Hl) as (I1 & I2 & I3).
    rewrite Zlen_cons. destruct fs as [|g fs].
    + change (Zlen (@nil (list Z))) with 0 in *. cbn [lin] in H.
      repeat split; intros; try lia.
    + assert (g :: fs <> []) by congruence. specialize (I1 H0). specialize (I3 H0).
      repeat split; intros; try lia.
Qed.

Lemma lin_app mx l b fs gs : forall p e e', lin mx l b p fs e -> lin mx l b e gs e' ->
  lin mx l b p (fs ++ gs) e'.
Proof.
  induction fs as [|f fs IH]; cbn [lin app]; intros p e e' H G.
  - subst. exact G.
  - destruct H as (A & B & C & H). repeat split; try lia; try assumption. eapply IH; eassumption.
Qed.

Lemma lin_frame mx l b b' fs : forall p e, lin mx l b p fs e -> 0 <= l ->
  (forall i, p <= i < e -> znth b' i = znth b i) -> lin mx l b' p fs e.
Proof.
  induction fs as [|f fs IH]; cbn [lin]; intros p e H Hl G.
  - exact H.
  - destruct H as (A & B & C & H). pose proof (lin_bounds _ _ _ _ _ _ H Hl) as (I1 & I2 & _).
    pose proof (Zlen_nonneg fs).
    repeat split; try lia.
    + intros i Hi. rewrite G by lia. apply C. exact Hi.
    + apply IH; auto. intros i Hi. apply G. lia.
Qed.

Lemma inv_init c junk : cfg_ok c -> Zlen junk = bufsiz c -> inv c (vq_init junk) [].
Proof.
  intros H J. pose proof H as [? ?]. pose proof (cfg_bs c H). pose proof (cfg_lui c H).
  unfold inv, vq_init; cbn [vbuf count oldest next]. change (Zlen (@nil (list Z))) with 0.
  repeat split; try lia. left. reflexivity.
Qed.

Lemma inv_count c q fs : cfg_ok c -> inv c q fs -> 2 * Zlen fs <= 256.
Proof.
  intros H (L & _ & O & N & [A | (f1 & fs1 & fs2 & e & -> & A & E & B & D)]);
    pose proof (cfg_bs c H); pose proof (cfg_lui c H).
  - destruct (lin_bounds _ _ _ _ _ _ A ltac:(lia)) as (_ & A2 & _). unfold cfg_ok in H. lia.
  - pose proof (lin_bounds _ _ _ _ _ _ A ltac:(lia)) as (_ & A2 & A3).
    specialize (A3 ltac:(congruence)).
    pose proof (lin_bounds _ _ _ _ _ _ B ltac:(lia)) as (_ & B2 & _).
    rewrite Zlen_app. lia.
Qed.

Lemma newIndex_eq c p l : cfg_ok c -> 0 <= p <= lui c -> 0 <= l <= 255 ->
  newIndex c p l = if p + 1 + l >? lui c then 0 else p + 1 + l.
Proof.
  intros H P L. pose proof H as [? ?]. pose proof (cfg_bs c H). pose proof (cfg_lui c H).
  unfold newIndex. replace (1 + p + l) with (p + 1 + l) by lia.
  rewrite u16_id by lia.
  destruct (p + 1 + l >? lui c) eqn:E; [reflexivity|]. apply u8_id. unfold byte. unfold cfg_ok in H. lia.
Qed.

(** Free area: [next, next+maxRX] lies in the buffer and outside every queued frame. *)
Lemma not_full c q fs : cfg_ok c -> inv c q fs -> isFull c q = false ->
  (lin (maxRX c) (lui c) (vbuf q) (oldest q) fs (next q)) \/
  (next q + maxRX c < oldest q /\
   exists f1 fs1 fs2 e, fs = (f1 :: fs1) ++ fs2 /\
       lin (maxRX c) (lui c) (vbuf q) (oldest q) (f1 :: fs1) e /\ lui c < e /\
       lin (maxRX c) (lui c) (vbuf q) 0 fs2 (next q)).
Proof.
  intros H I F. pose proof H as [? ?]. pose proof (cfg_bs c H). pose proof (cfg_lui c H). pose proof (inv_count c q fs H I) as K.
  destruct I as (L & C & O & N & [A | (f1 & fs1 & fs2 & e & -> & A & E & B & D)]); [left; exact A|].
  right. unfold isFull in F.
  replace (next q >? oldest q) with false in F by lia.
  destruct (next q =? oldest q) eqn:E1.
  - exfalso. unfold isEmpty in F. rewrite C, Zlen_app, Zlen_cons in F.
    pose proof (Zlen_nonneg fs1). pose proof (Zlen_nonneg fs2).
    destruct (1 + Zlen fs1 + Zlen fs2 =? 0) eqn:E2; [lia|discriminate].
  - unfold cfg_ok in H. cbv zeta in F. rewrite u8_id in F by (unfold byte; lia).
    split; [lia|]. exists f1, fs1, fs2, e. auto.
Qed.

Lemma isr_ok c q fs data len : cfg_ok c -> inv c q fs ->
  event_ok c (EFrame data len) ->
  exists q' r, isr c data len q = Some (q', r) /\
    match r with
    | Queued f => f = firstn (Z.to_nat len) data /\ inv c q' (fs ++ [f])
    | Abandoned => len = 0 /\ inv c q' fs
    | Dropped => isFull c q = true /\ inv c q' fs
    end /\ oldest q' = oldest q.
Proof.
  intros H I (FB & DL & LL). pose proof H as [? ?]. pose proof (cfg_bs c H) as BS. pose proof (cfg_lui c H) as LU.
  pose proof (inv_count c q fs H I) as K.
  unfold isr, getRXBufForInbound.
  destruct (isFull c q) eqn:F.
  { eexists _, _. split; [reflexivity|]. cbn. auto. }
  pose proof (not_full c q fs H I F) as NF.
  destruct I as (L & C & O & N & _).
  pose proof (Zlen_nonneg data) as DP.
  destruct (blit_ok (vbuf q) (next q + 1) data ltac:(lia) ltac:(lia)) as [b Hb].
  rewrite Hb. cbn [bind].
  apply blit_inv in Hb. destruct Hb as (_ & _ & Lb & Zb).
  unfold loadedBuf; cbn [vbuf oldest next count].
  destruct (len =? 0) eqn:E0; cbn [bind].
  - eexists _, _. split; [reflexivity|]. cbn [oldest]. split; [|reflexivity].
    split; [lia|].
    assert (FR : forall i, (i < next q + 1 \/ next q + 1 + maxRX c <= i) -> 0 <= i < Zlen (vbuf q) -> znth b i = znth (vbuf q) i).
    { intros i Hi Hr. rewrite Zb by lia.
      replace ((next q + 1 <=? i) && (i <? next q + 1 + Zlen data)) with false by lia. reflexivity. }
    unfold inv; cbn [vbuf oldest next count]. repeat split; try lia.
    destruct NF as [A | (D & f1 & fs1 & fs2 & e & -> & A & E & B)].
    + left. apply (lin_frame _ _ (vbuf q)); [exact A|lia|]. intros i Hi. apply FR; lia.
    + right. exists f1, fs1, fs2, e. split; [reflexivity|]. split; [|split; [lia|split; [|lia]]].
      * pose proof (lin_bounds _ _ _ _ _ _ A ltac:(lia)) as (_ & _ & A3). specialize (A3 ltac:(congruence)).
        apply (lin_frame _ _ (vbuf q)); [exact A|lia|]. intros i Hi. apply FR; lia.
      * apply (lin_frame _ _ (vbuf q)); [exact B|lia|]. intros i Hi. apply FR; lia.
  - destruct (blit_ok b (next q) [len] ltac:(lia)) as [b' Hb']; [change (Zlen [len]) with 1; lia|].
    unfold wr. rewrite Hb'. cbn [bind].
    apply blit_inv in Hb'. change (Zlen [len]) with 1 in Hb'. destruct Hb' as (_ & _ & Lb' & Zb').
    eexists _, _. split; [reflexivity|]. cbn [oldest]. split; [|reflexivity].
    split; [reflexivity|].
    set (f := firstn (Z.to_nat len) data).
    assert (Lf : Zlen f = len) by (unfold f; rewrite Zlen_firstn; lia).
    assert (FR : forall i, (i < next q \/ next q + 1 + maxRX c <= i) -> 0 <= i < Zlen (vbuf q) -> znth b' i = znth (vbuf q) i).
    { intros i Hi Hr. rewrite Zb' by lia. replace ((next q <=? i) && (i <? next q + 1)) with false by lia.
      rewrite Zb by lia.
      replace ((next q + 1 <=? i) && (i <? next q + 1 + Zlen data)) with false by lia. reflexivity. }
    assert (ST : stored b' (next q) f).
    { intros i Hi. rewrite Lf in *. rewrite Zb' by lia.
      destruct (Z.eq_dec i 0) as [-> | Hn].
      - replace ((next q <=? next q + 0) && (next q + 0 <? next q + 1)) with true by lia.
        replace (next q + 0 - next q) with 0 by lia. reflexivity.
      - replace ((next q <=? next q + i) && (next q + i <? next q + 1)) with false by lia.
        rewrite Zb by lia.
        replace ((next q + 1 <=? next q + i) && (next q + i <? next q + 1 + Zlen data)) with true by lia.
        rewrite znth_cons by lia. replace (i =? 0) with false by lia.
        unfold f. rewrite znth_firstn by lia. f_equal. lia. }
    assert (ONE : lin (maxRX c) (lui c) b' (next q) [f] (next q + 1 + len)).
    { cbn [lin]. rewrite Lf. repeat split; try lia. exact ST. }
    assert (CNT : u8 (count q + 1) = Zlen (fs ++ [f])).
    { rewrite Zlen_app, Zlen_cons. change (Zlen (@nil (list Z))) with 0. rewrite C.
      pose proof (Zlen_nonneg fs). rewrite u8_id by (unfold byte; lia). lia. }
    rewrite newIndex_eq by (auto; unfold cfg_ok in H; lia).
    unfold inv; cbn [vbuf oldest next count].
    destruct (next q + 1 + len >? lui c) eqn:EW.
    + (* next wraps to 0 *)
      repeat split; try lia.
      destruct NF as [A | (D & f1 & fs1 & fs2 & e & -> & A & E & B)].
      * pose proof (lin_bounds _ _ _ _ _ _ A ltac:(lia)) as (_ & A2 & _). pose proof (Zlen_nonneg fs).
        assert (A' : lin (maxRX c) (lui c) b' (oldest q) (fs ++ [f]) (next q + 1 + len)).
        { eapply lin_app; [|exact ONE]. apply (lin_frame _ _ (vbuf q)); [exact A|lia|].
          intros i Hi. apply FR; lia. }
        right. destruct (fs ++ [f]) as [|g gs] eqn:EG; [destruct fs; discriminate|].
        exists g, gs, [], (next q + 1 + len). rewrite app_nil_r.
        split; [reflexivity|]. split; [exact A'|]. split; [lia|]. split; [reflexivity|lia].
      * exfalso. lia.
    + repeat split; try lia.
      destruct NF as [A | (D & f1 & fs1 & fs2 & e & -> & A & E & B)].
      * left. eapply lin_app; [|exact ONE]. apply (lin_frame _ _ (vbuf q)); [exact A|lia|].
        intros i Hi. apply FR; lia.
      * right. exists f1, fs1, (fs2 ++ [f]), e. rewrite app_assoc.
        pose proof (lin_bounds _ _ _ _ _ _ A ltac:(lia)) as (_ & _ & A3). specialize (A3 ltac:(congruence)).
        split; [reflexivity|]. split.
        { apply (lin_frame _ _ (vbuf q)); [exact A|lia|]. intros i Hi. apply FR; lia. }
        split; [lia|]. split; [|lia].
        eapply lin_app; [|exact ONE]. apply (lin_frame _ _ (vbuf q)); [exact B|lia|].
        intros i Hi. apply FR; lia.
Qed.

(** The oldest frame sits at [oldest]. *)
Lemma inv_front c q f fs : cfg_ok c -> inv c q (f :: fs) ->
  1 <= Zlen f <= maxRX c /\ stored (vbuf q) (oldest q) f /\ oldest q + maxRX c < bufsiz c /\ 0 <= oldest q.
Proof.
  intros H (L & C & O & N & [A | (f1 & fs1 & fs2 & e & EQ & A & _)]); pose proof (cfg_lui c H).
  - cbn [lin] in A. destruct A as (A1 & A2 & A3 & _). repeat split; try lia. exact A3.
  - injection EQ as -> _. cbn [lin] in A. destruct A as (A1 & A2 & A3 & _).
    repeat split; try lia. exact A3.
Qed.

Lemma stored_rd c q f fs i : cfg_ok c -> inv c q (f :: fs) -> 0 <= i <= Zlen f ->
  rd (vbuf q) (oldest q + i) = Some (znth (Zlen f :: f) i).
Proof.
  intros H I Hi. destruct (inv_front c q f fs H I) as (B1 & B2 & B3 & B4).
  destruct I as (L & _). rewrite rd_some by lia. f_equal. apply B2. exact Hi.
Qed.

Lemma remove_ok c q f fs : cfg_ok c -> inv c q (f :: fs) ->
  exists q', remove_body c q = Some q' /\ inv c q' fs /\
    (oldest q' = 0 \/ oldest q' = oldest q + 1 + Zlen f).
Proof.
  intros H I. pose proof (stored_rd c q f fs 0 H I) as R.
  destruct (inv_front c q f fs H I) as (B1 & B2 & B3 & B4).
  pose proof (inv_count c q _ H I) as K. rewrite Zlen_cons in K.
  rewrite Z.add_0_r in R. specialize (R ltac:(lia)). change (znth (Zlen f :: f) 0) with (Zlen f) in R.
  pose proof H as [? ?]. pose proof (cfg_bs c H) as BS. pose proof (cfg_lui c H) as LU.
  unfold remove_body. rewrite R. cbn [bind]. eexists; split; [reflexivity|]. split.
  2:{ cbn [oldest]. rewrite newIndex_eq by (auto; destruct I as (_ & _ & ? & _); lia).
      destruct (_ >? _); auto. }
  destruct I as (L & C & O & N & I). rewrite Zlen_cons in C. pose proof (Zlen_nonneg fs).
  rewrite newIndex_eq by (auto; unfold cfg_ok in H; lia).
  unfold inv; cbn [vbuf oldest next count].
  rewrite u8_id by (unfold byte; lia).
  destruct I as [A | (f1 & fs1 & fs2 & e & EQ & A & E & B & D)].
  - cbn [lin] in A. destruct A as (_ & _ & _ & A).
    pose proof (lin_bounds _ _ _ _ _ _ A ltac:(lia)) as (_ & A2 & _).
    replace (oldest q + 1 + Zlen f >? lui c) with false by lia.
    repeat split; try lia. left. exact A.
  - injection EQ as -> ->. cbn [lin] in A. destruct A as (_ & _ & _ & A).
    pose proof (lin_bounds _ _ _ _ _ _ A ltac:(lia)) as (A1 & A2 & _).
    destruct (oldest q + 1 + Zlen f1 >? lui c) eqn:EW.
    + destruct fs1 as [|g gs]; [|specialize (A1 ltac:(congruence)); lia].
      repeat split; try lia. left. exact B.
    + destruct fs1 as [|g gs]; [cbn [lin] in A; lia|].
      repeat split; try lia. right. exists g, gs, fs2, e. split; [reflexivity|]. split; [exact A|].
      split; [lia|]. split; [exact B|lia].
Qed.

(** ** The system refines the ideal FIFO *)

Definition sinv (c : cfg) (s : sys) (fs : list (list Z)) : Prop :=
  inv c (sq s) fs /\
  match spc s with
  | Idle => True
  | InPeek | InRemove => fs <> []
  | Holding p => fs <> [] /\ p = oldest (sq s) + 1
  end.

Lemma step_ok c e s fs : cfg_ok c -> event_ok c e -> sinv c s fs ->
  exists s' os fs', step c e s = Some (s', os) /\ fifo fs os = Some fs' /\ sinv c s' fs'.
Proof.
  intros H EV (I & P). destruct s as [q p]. cbn [sq spc] in *.
  assert (EE : isEmpty q = match fs with [] => true | _ => false end).
  { destruct I as (_ & C & _). unfold isEmpty. rewrite C. destruct fs as [|g gs]; [reflexivity|].
    rewrite Zlen_cons. pose proof (Zlen_nonneg gs). lia. }
  destruct e as [data len | | | i | | |]; cbn [step sq spc].
  - destruct (isr_ok c q fs data len H I EV) as (q' & r & -> & R & OL). cbn [bind].
    destruct r as [f | |].
    + destruct R as [_ R]. eexists _, _, (fs ++ [f]). split; [reflexivity|]. split; [reflexivity|].
      split; [exact R|]. cbn [sq spc]. destruct p; auto; try (destruct fs; [congruence|discriminate]).
      destruct P as [P1 P2]. rewrite OL. split; [destruct fs; [congruence|discriminate]|exact P2].
    + destruct R as [_ R]. eexists _, _, fs. split; [reflexivity|]. split; [reflexivity|].
      split; [exact R|]. cbn [sq spc]. destruct p; auto. destruct P as [P1 P2]. rewrite OL. auto.
    + destruct R as [_ R]. eexists _, _, fs. split; [reflexivity|]. split; [reflexivity|].
      split; [exact R|]. cbn [sq spc]. destruct p; auto. destruct P as [P1 P2]. rewrite OL. auto.
  - rewrite EE. destruct p; cbn [spc] in P; destruct fs as [|g gs];
      eexists _, _, _; (split; [reflexivity|]); (split; [reflexivity|]); unfold sinv; cbn [sq spc]; auto;
      try (split; [exact I|]; try exact P; try congruence).
  - destruct p; try (eexists _, _, _; split; [reflexivity|]; split; [reflexivity|]; split; [exact I|]; exact P).
    destruct fs as [|g gs]; [congruence|].
    eexists _, _, (g :: gs). split; [reflexivity|]. split; [reflexivity|]. split; [exact I|]. cbn [spc sq]. auto.
  - destruct p as [| |p|]; try (eexists _, _, _; split; [reflexivity|]; split; [reflexivity|]; split; [exact I|]; exact P).
    destruct P as [P1 ->]. destruct fs as [|g gs]; [congruence|].
    destruct (inv_front c q g gs H I) as (B1 & _).
    pose proof (stored_rd c q g gs 0 H I ltac:(lia)) as R0.
    replace (oldest q + 1 - 1) with (oldest q + 0) by lia. rewrite R0. cbn [bind].
    change (znth (Zlen g :: g) 0) with (Zlen g).
    destruct ((0 <=? i) && (i <=? Zlen g)) eqn:Ei.
    + replace (oldest q + 0 + i) with (oldest q + i) by lia.
      rewrite (stored_rd c q g gs i H I) by lia. cbn [bind].
      eexists _, _, (g :: gs). split; [reflexivity|]. cbn [fifo fifo1]. rewrite Z.eqb_refl.
      split; [reflexivity|]. split; [exact I|]. cbn [spc sq]. split; [congruence|reflexivity].
    + eexists _, _, (g :: gs). split; [reflexivity|]. split; [reflexivity|]. split; [exact I|].
      cbn [spc sq]. split; [congruence|reflexivity].
  - rewrite EE. destruct p; cbn [spc] in P; destruct fs as [|g gs];
      eexists _, _, _; (split; [reflexivity|]); (split; [reflexivity|]); unfold sinv; cbn [sq spc]; auto;
      try (split; [exact I|]; try exact P; try congruence).
  - destruct p; try (eexists _, _, _; split; [reflexivity|]; split; [reflexivity|]; split; [exact I|]; exact P).
    destruct fs as [|g gs]; [congruence|].
    destruct (remove_ok c q g gs H I) as (q' & -> & I' & _). cbn [bind].
    eexists _, _, gs. split; [reflexivity|]. split; [reflexivity|]. split; [exact I'|]. exact Logic.I.
  - eexists _, _, fs. split; [reflexivity|]. cbn [fifo fifo1].
    destruct I as (I1 & C & I2). rewrite C, Z.eqb_refl. split; [reflexivity|].
    split; [exact (conj I1 (conj C I2))|exact P].
Qed.

Lemma fifo_app os1 : forall q q1 os2, fifo q os1 = Some q1 -> fifo q (os1 ++ os2) = fifo q1 os2.
Proof.
  induction os1 as [|o os IH]; cbn [fifo app]; intros q q1 os2 H.
  - apply some_inj in H. subst. reflexivity.
  - destruct (fifo1 q o) as [q'|]; [|discriminate]. apply IH. exact H.
Qed.

Lemma run_ok c es : forall s fs, cfg_ok c -> Forall (event_ok c) es -> sinv c s fs ->
  exists s' os fs', run c es s = Some (s', os) /\ fifo fs os = Some fs' /\ sinv c s' fs'.
Proof.
  induction es as [|e es IH]; intros s fs H F I; cbn [run].
  - eexists _, _, _. split; [reflexivity|]. split; [reflexivity|exact I].
  - pose proof (Forall_inv F) as F1. pose proof (Forall_inv_tail F) as F2.
    destruct (step_ok c e s fs H F1 I) as (s1 & o1 & fs1 & -> & Q1 & I1). cbn [bind].
    destruct (IH s1 fs1 H F2 I1) as (s2 & o2 & fs2 & -> & Q2 & I2). cbn [bind].
    eexists _, _, _. split; [reflexivity|]. split; [|exact I2].
    rewrite (fifo_app _ _ _ _ Q1). exact Q2.
Qed.

(** C24.  For every supported configuration, whatever the buffer holds initially, and every
    interleaving of frame arrivals with the application's steps, no access leaves the buffer
    and everything observed is what an ideal FIFO of the accepted frames would show: each
    message byte read is that of the oldest accepted and not yet removed frame, NULL is
    returned exactly when there is none, and the reported count is exact. *)
Theorem rxqueue_fifo c junk es :
  cfg_ok c -> Zlen junk = bufsiz c -> Forall (event_ok c) es ->
  exists s' os left,
    run c es (Sys (vq_init junk) Idle) = Some (s', os) /\
    fifo [] os = Some left /\
    left = skipn (removals os) (accepted os).
Proof.
  intros H J F.
  destruct (run_ok c es (Sys (vq_init junk) Idle) [] H F) as (s' & os & fs' & R & Q & _).
  { split; [apply inv_init; auto|exact Logic.I]. }
  eexists _, _, _. split; [exact R|]. split; [exact Q|].
  apply (fifo_accounting _ _ _ Q).
Qed.

(** Hypotheses met, with interrupts landing inside peek and remove, a drop, and wrapping. *)
Example rxqueue_example :
  exists s os, run (Cfg 4 2) [EFrame [1;2;3;4] 4; EPeekTest; EFrame [5;6;7;9] 3; EPeekPtr; EByte 0; EByte 4;
      EFrame [8] 1; ERemoveTest; EFrame [7;7] 0; ERemoveBody; EPeekTest; EPeekPtr; EByte 0; EByte 1; ECount;
      EFrame [10;11] 2; ERemoveTest; ERemoveBody; EPeekTest; EPeekPtr; EByte 0; EByte 2]
     (Sys (vq_init (repeat 99 12)) Idle) = Some (s, os) /\
  os = [OQueued [1;2;3;4]; OQueued [5;6;7]; OPeekMsg; OByte 0 4; OByte 4 4; ODropped; ODropped; ORemoved;
        OPeekMsg; OByte 0 3; OByte 1 5; OCount 1; OQueued [10;11]; ORemoved; OPeekMsg; OByte 0 2; OByte 2 11].
Proof. eexists _, _. split; vm_compute; reflexivity. Qed.
Example rxqueue_cfg_example : cfg_ok (Cfg 64 2) /\ Zlen (repeat 99 192) = bufsiz (Cfg 64 2).
Proof. split; [unfold cfg_ok; cbn; lia|reflexivity]. Qed.
