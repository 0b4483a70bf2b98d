(** Receive queues given a frame length beyond the documented maximum ("the frame can be no larger
    than maxRXBytes bytes", ISRRXQueue.h 101-102, 184-185, 302-303). *)
From Verif Require Import Base RxQueueModel RxQueueProps.

(** Frames written into the frame area, with any length byte given to _loadedBuf. *)
Definition event_any (mx : Z) (e : event) : Prop :=
  match e with EFrame data len => Zlen data <= mx /\ 0 <= len <= 255 | _ => True end.
Definition len_le (mx : Z) (o : obs) : Prop :=
  match o with OByte i v => 0 <= i <= mx /\ (i = 0 -> 0 <= v <= mx) | _ => True end.

Definition inv1a (mx : Z) (s : sys1) : Prop :=
  Zlen (fullBuf (sq1 s)) = 1 + mx /\
  ((cnt1 (sq1 s) = 0 /\ held1 s = false) \/ (cnt1 (sq1 s) = 1 /\ 0 <= znth (fullBuf (sq1 s)) 0 <= mx)).

Lemma step1_any mx e s : 1 <= mx <= 255 -> event_any mx e -> inv1a mx s ->
  exists s' os, step1 mx e s = Some (s', os) /\ inv1a mx s' /\ Forall (len_le mx) os.
Proof.
  intros H EV (L & I). destruct s as [[b n] h]. cbn [sq1 held1 fullBuf cnt1] in *.
  destruct e as [data len | | | i | | |]; cbn [step1 sq1 held1 fullBuf cnt1].
  - destruct EV as (DL & LL). unfold isr1; cbn [fullBuf cnt1].
    destruct I as [(-> & ->) | (-> & I)]; cbn [negb bind Z.eqb].
    2:{ eexists _, _. split; [reflexivity|]. split; [split; [exact L|]; right; auto|]. apply Forall_cons; [exact Logic.I | apply Forall_nil]. }
    destruct (blit_ok b 1 data ltac:(lia) ltac:(lia)) as [b1 Hb]. rewrite Hb. cbn [bind].
    apply blit_inv in Hb. destruct Hb as (_ & _ & Lb & Zb).
    destruct (len =? 0) eqn:E0; cbn [bind].
    + eexists _, _. split; [reflexivity|]. split; [split; cbn [sq1 fullBuf cnt1 held1]; [lia | left; auto]|].
      apply Forall_cons; [exact Logic.I | apply Forall_nil].
    + set (len' := if len >? mx then mx else len). assert (LN : 0 <= len' <= mx) by (unfold len'; destruct (len >? mx) eqn:E; lia).
      destruct (blit_ok b1 0 [len'] ltac:(lia)) as [b2 Hb2]; [change (Zlen [len']) with 1; lia|].
      unfold wr. rewrite Hb2. cbn [bind].
      apply blit_inv in Hb2. change (Zlen [len']) with 1 in Hb2. destruct Hb2 as (_ & _ & Lb2 & Zb2).
      eexists _, _. split; [reflexivity|]. split; [|apply Forall_cons; [exact Logic.I | apply Forall_nil]].
      split; cbn [sq1 fullBuf cnt1 held1]; [lia|]. right. split; [reflexivity|]. rewrite Zb2 by lia. exact LN.
  - destruct I as [(-> & ->) | (-> & I)]; cbn [Z.eqb]; eexists _, _; (split; [reflexivity|]); (split; [split; [exact L|]|apply Forall_cons; [exact Logic.I | apply Forall_nil]]); [left | right]; auto.
  - eexists _, _. split; [reflexivity|]. split; [split; assumption | apply Forall_nil].
  - destruct h; [|eexists _, _; split; [reflexivity|]; split; [split; assumption | apply Forall_nil]].
    destruct I as [(_ & ?) | (-> & I)]; [discriminate|].
    rewrite rd_some by lia. cbn [bind].
    destruct ((0 <=? i) && (i <=? znth b 0)) eqn:Ei.
    + rewrite rd_some by lia. cbn [bind]. eexists _, _. split; [reflexivity|]. split; [split; [exact L | right; auto]|].
      apply Forall_cons; [|apply Forall_nil]. cbn [len_le]. split; [lia|]. intros ->. exact I.
    + eexists _, _. split; [reflexivity|]. split; [split; [exact L | right; auto] | apply Forall_nil].
  - eexists _, _. split; [reflexivity|]. split; [split; assumption | apply Forall_nil].
  - eexists _, _. split; [reflexivity|]. split; [split; [exact L | left; auto]|]. destruct (n =? 0); apply Forall_cons; try exact Logic.I; apply Forall_nil.
  - eexists _, _. split; [reflexivity|]. split; [split; assumption|]. apply Forall_cons; [exact Logic.I | apply Forall_nil].
Qed.

(** The 1-deep queue is safe even then: whatever length it is given, no access is outside its buffer,
    and the length it reports is at most maxRXBytes. *)
Theorem rxqueue1_any_length_partial : forall mx junk es,
  1 <= mx <= 255 -> Zlen junk = 1 + mx -> Forall (event_any mx) es ->
  exists s' os, run1 mx es (Sys1 (Q1 junk 0) false) = Some (s', os) /\ Forall (len_le mx) os.
Proof.
  intros mx junk es H J F.
  assert (G : forall es s, Forall (event_any mx) es -> inv1a mx s ->
    exists s' os, run1 mx es s = Some (s', os) /\ Forall (len_le mx) os).
  { clear - H. induction es as [|e es IH]; intros s F I; cbn [run1].
    - eexists _, _. split; [reflexivity | apply Forall_nil].
    - pose proof (Forall_inv F) as F1. pose proof (Forall_inv_tail F) as F2.
      destruct (step1_any mx e s H F1 I) as (s1 & o1 & -> & I1 & Q1). cbn [bind].
      destruct (IH s1 F2 I1) as (s2 & o2 & -> & Q2). cbn [bind].
      eexists _, _. split; [reflexivity|]. apply Forall_app. auto. }
  apply G; [exact F|]. split; [exact J|]. left. auto.
Qed.
(** The variable-length queue is not: a too long length is stored as it is, and the application that
    trusts it reads beyond the buffer. *)
Theorem rxqueue_any_length_refuted :
  exists c junk es, cfg_ok c /\ Zlen junk = bufsiz c /\ Forall (event_any (maxRX c)) es /\
    run c es (Sys (vq_init junk) Idle) = None.
Proof.
  exists (Cfg 4 1), (repeat 0 8), [EFrame [1] 200; EPeekTest; EPeekPtr; EByte 9].
  split; [unfold cfg_ok; cbn [maxRX target]; lia|]. split; [vm_compute; reflexivity|]. split; [|vm_compute; reflexivity].
  apply Forall_cons; [cbn [event_any maxRX]; change (Zlen [1]) with 1; lia|].
  repeat (apply Forall_cons; [exact Logic.I|]). apply Forall_nil.
Qed.
Example rxqueue1_any_length_nonvacuous : exists s,
  run1 4 [EFrame [1;2;3] 200; EPeekTest; EByte 0; EByte 4; EByte 5] (Sys1 (Q1 (repeat 7 5) 0) false)
   = Some (s, [OQueued [1;2;3]; OPeekMsg; OByte 0 4; OByte 4 7]).
Proof. eexists. vm_compute. reflexivity. Qed.
