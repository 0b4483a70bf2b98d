(** C170: the SIM900 link goes on to the next stage only on the module's word. *)
From Verif Require Import Base RtcModel Sim900Model Sim900Props Sim900Hist Sim900Bounds Sim900Timing.

(** ** Specification *)
(** The [k]th character (from 0) after the first [m] in the first [n] characters of the answer is [x]. *)
Definition after (m n : Z) (k : nat) (a : list Z) (x : Z) : Prop :=
  exists pre r, a = pre ++ m :: r /\ ~ In m pre /\ Zlen pre + 1 + Z.of_nat k < n /\ nth_error r k = Some x.
(** "A...": anything at all from a live module, which echoes the command. *)
Definition alive (a : list Z) : Prop := exists r, a = 65 :: r.
(** "+CPIN: R...": no PIN wanted. *)
Definition ready (a : list Z) : Prop := after 32 40 0 a 82.
(** "+CREG: n,1..." or "+CREG: n,5...": registered at home or roaming. *)
Definition registered (a : list Z) : Prop := after 32 64 2 a 49 \/ after 32 64 2 a 53.
(** "STATE: IP GPRSACT" and "STATE: CONNECT OK". *)
Definition gprs_active (a : list Z) : Prop := after 32 64 3 a 71.
Definition connected (a : list Z) : Prop := after 32 64 0 a 67.
(** Since the last power pulse (or ever) there was a poll at which [c] was sent and answered so. *)
Definition answered (tr : list (SEv * list SOut)) (c : ACmd) (P : list Z -> Prop) : Prop :=
  exists tr0 e o trm, tr = tr0 ++ (EPoll e, o) :: trm /\ In (OCmd c) o /\ P (ans e c) /\ no_pulse ((EPoll e, o) :: trm).

(** ** The parsers *)
Lemma getResponse_split : forall d m k, getResponse d m = Some k -> exists pre r, d = pre ++ m :: r /\ ~ In m pre /\ k = Zlen pre + 1.
Proof.
  induction d as [|x d IH]; intros m k H; cbn [getResponse] in H; [discriminate|].
  destruct (x =? m) eqn:E.
  - apply some_inj in H. subst k. apply Z.eqb_eq in E. subst x. exists [], d. split; [reflexivity|]. split; [intros []|reflexivity].
  - destruct (getResponse d m) as [j|] eqn:E2; [|discriminate]. apply some_inj in H. destruct (IH _ _ E2) as (pre & r & -> & HN & ->).
    exists (x :: pre), r. split; [reflexivity|]. split; [intros [HI | HI]; [lia|auto]|rewrite Zlen_cons; lia].
Qed.
Lemma znth_nth_error : forall r k x, x <> 0 -> znth r (Z.of_nat k) = x -> nth_error r k = Some x.
Proof.
  intros r k x Hx H. unfold znth in H. rewrite Nat2Z.id in H.
  destruct (lt_dec k (length r)) as [HL|HL]; [|rewrite nth_overflow in H by lia; lia].
  rewrite (nth_error_nth' r 0 HL). f_equal. exact H.
Qed.
Lemma after_code m n (k : nat) a j x : 0 <= n -> m <> 0 -> x <> 0 ->
  getResponse (readMany n a) m = Some j -> rd (readMany n a) (j + Z.of_nat k) = Some x -> after m n k a x.
Proof.
  intros Hn Hm Hx HG HR. destruct (getResponse_split _ _ _ HG) as (pre & r & HE & HN & ->).
  apply rd_inv in HR. destruct HR as [HB HV]. rewrite readMany_len in HB by exact Hn.
  assert (HZ : forall i, 0 <= i < n -> znth (readMany n a) i = if i <? Zlen a then znth a i else 0).
  { intros i Hi. unfold readMany. rewrite znth_firstn by lia. rewrite znth_app by lia. destruct (i <? Zlen a) eqn:E; [reflexivity|].
    pose proof (Zlen_nonneg a). rewrite znth_repeat by lia. reflexivity. }
  pose proof (Zlen_nonneg pre) as HP.
  assert (HM : znth a (Zlen pre) = m /\ Zlen pre < Zlen a).
  { specialize (HZ (Zlen pre) ltac:(lia)). rewrite HE in HZ. rewrite znth_app in HZ by lia. replace (Zlen pre <? Zlen pre) with false in HZ by lia.
    replace (Zlen pre - Zlen pre) with 0 in HZ by lia. change (znth (m :: r) 0) with m in HZ.
    destruct (Zlen pre <? Zlen a) eqn:E; [split; [auto|lia]|exfalso; lia]. }
  destruct HM as [HM HL].
  set (p := Z.to_nat (Zlen pre)).
  assert (HA : a = firstn p a ++ m :: skipn (S p) a).
  { rewrite <- (firstn_skipn p a) at 1. f_equal.
    assert (HS : (p < length a)%nat) by (unfold p, Zlen in *; lia).
    destruct (skipn p a) as [|y q] eqn:ES.
    - pose proof (skipn_length p a) as HH. rewrite ES in HH. cbn [length] in HH. lia.
    - assert (Hy : nth 0 (skipn p a) 0 = m).
      { rewrite nth_skipn. rewrite Nat.add_0_r. unfold znth in HM. exact HM. }
      rewrite ES in Hy. cbn [nth] in Hy. subst y. f_equal.
      change q with (skipn 1 (m :: q)). rewrite <- ES. clear. revert a. induction p as [|p IH]; intros a; [reflexivity|]. destruct a as [|x a]; [reflexivity|]. cbn [skipn]. apply IH. }
  assert (HF : firstn p a = pre).
  { assert (H1 : firstn p (readMany n a) = pre).
    { rewrite HE. unfold p, Zlen. rewrite Nat2Z.id. rewrite firstn_app, Nat.sub_diag, firstn_all, app_nil_r. reflexivity. }
    rewrite <- H1. unfold readMany. rewrite firstn_firstn. replace (Nat.min p (Z.to_nat n)) with p by (unfold p; lia).
    rewrite firstn_app. replace (p - length a)%nat with 0%nat by (unfold p, Zlen in *; lia). cbn [firstn]. rewrite app_nil_r. reflexivity. }
  exists pre, (skipn (S p) a). split; [rewrite <- HF; exact HA|]. split; [exact HN|]. split; [lia|].
  apply znth_nth_error; [exact Hx|]. rewrite znth_skipn by lia. rewrite HZ in HV by lia.
  destruct (Zlen pre + 1 + Z.of_nat k <? Zlen a) eqn:E; [|exfalso; lia].
  transitivity (znth a (Zlen pre + 1 + Z.of_nat k)); [f_equal; unfold p; lia|auto].
Qed.
Lemma replying_alive a : isReplying a = Some true -> alive a.
Proof.
  unfold isReplying. destruct a as [|x a].
  - intros H. exfalso. revert H. vm_compute. discriminate.
  - change (rd (readMany 16 (x :: a)) 0) with (Some x). cbn [bind]. intros H. apply some_inj in H. exists a. f_equal. lia.
Qed.
Lemma pin_ready a : isPINRequired a = Some true -> ready a.
Proof.
  unfold isPINRequired. cbv zeta. destruct (getResponse _ 32) as [k|] eqn:E; [|discriminate]. intros H.
  destruct (rd _ k) as [v|] eqn:ER; [|discriminate]. cbn [bind] in H. apply some_inj in H. apply Z.eqb_eq in H. subst v.
  eapply after_code; [lia|lia|lia|exact E|]. replace (k + Z.of_nat 0) with k by lia. exact ER.
Qed.
Lemma reg_registered a : isRegistered a = Some true -> registered a.
Proof.
  unfold isRegistered. cbv zeta. destruct (getResponse _ 32) as [k|] eqn:E; [|discriminate]. intros H.
  destruct (rd _ (k + 2)) as [v|] eqn:ER; [|discriminate]. cbn [bind] in H. apply some_inj in H.
  destruct (v =? 49) eqn:E1; [apply Z.eqb_eq in E1|apply Z.eqb_eq in H]; subst v; [left|right];
  (eapply after_code; [lia|lia|lia|exact E|exact ER]).
Qed.
Lemma udp_gprs a : checkUDP a = Some 3 -> gprs_active a.
Proof.
  unfold checkUDP. cbv zeta. destruct (getResponse _ 32) as [k|] eqn:E; [|discriminate]. intros H.
  destruct (rd _ k) as [v|] eqn:ER; [|discriminate]. cbn [bind] in H.
  destruct (v =? 67); [discriminate|]. destruct (v =? 80); [discriminate|].
  destruct (rd _ (k + 3)) as [w|] eqn:E3; [|discriminate]. cbn [bind] in H. destruct (w =? 71) eqn:EW; [|discriminate].
  apply Z.eqb_eq in EW. subst w. eapply after_code; [lia|lia|lia|exact E|exact E3].
Qed.
Lemma udp_conn a : checkUDP a = Some 1 -> connected a.
Proof.
  unfold checkUDP. cbv zeta. destruct (getResponse _ 32) as [k|] eqn:E; [|discriminate]. intros H.
  destruct (rd _ k) as [v|] eqn:ER; [|discriminate]. cbn [bind] in H.
  destruct (v =? 67) eqn:EV; [|exfalso].
  - apply Z.eqb_eq in EV. subst v. eapply after_code; [lia|lia|lia|exact E|]. replace (k + Z.of_nat 0) with k by lia. exact ER.
  - destruct (v =? 80); [discriminate|]. destruct (rd _ (k + 3)) as [w|] eqn:E3; [|discriminate]. cbn [bind] in H. destruct (w =? 71); discriminate.
Qed.

Lemma conn_udp a : connected a -> checkUDP a = Some 1.
Proof.
  intros (pre & r & -> & HN & HL & HX). destruct r as [|x r]; [discriminate|]. cbn [nth_error] in HX. apply some_inj in HX. subst x.
  pose proof (Zlen_nonneg pre) as HP.
  assert (HR : readMany 64 (pre ++ 32 :: 67 :: r) = pre ++ 32 :: 67 :: firstn (62 - length pre) (r ++ repeat 0 (Z.to_nat 64))).
  { unfold readMany. rewrite <- app_assoc. rewrite firstn_app. unfold Zlen in HL. f_equal; [apply firstn_all2; lia|].
    replace (Z.to_nat 64 - length pre)%nat with (S (S (62 - length pre))) by lia. reflexivity. }
  unfold checkUDP. cbv zeta. rewrite HR.
  assert (HG : forall q, getResponse (pre ++ 32 :: q) 32 = Some (Zlen pre + 1)).
  { clear -HN. induction pre as [|x pre IH]; intros q; cbn [app getResponse]; [reflexivity|].
    destruct (x =? 32) eqn:E; [exfalso; apply HN; left; lia|]. rewrite IH by (intros HI; apply HN; right; exact HI). rewrite Zlen_cons. f_equal. lia. }
  rewrite HG. unfold rd. rewrite Zlen_app, !Zlen_cons. match goal with |- context[Zlen (firstn ?n ?x)] => pose proof (Zlen_nonneg (firstn n x)) end.
  match goal with |- context[if ?c then Some _ else None] => replace c with true by lia end. cbn [bind].
  rewrite znth_app by lia. replace (Zlen pre + 1 <? Zlen pre) with false by lia. replace (Zlen pre + 1 - Zlen pre) with 1 by lia. reflexivity.
Qed.

(** ** The invariant *)
Definition sending (x : SSt) : bool := match x with INIT_SEND | WRITE_PACKET => true | _ => false end.
Definition gate (tr : list (SEv * list SOut)) (s : Sim) : Prop :=
  (2 <= rank (st s) <= 10 -> answered tr AT alive) /\ (3 <= rank (st s) <= 10 -> answered tr CPIN ready) /\
  (4 <= rank (st s) <= 10 -> answered tr CREG registered) /\ (6 <= rank (st s) <= 10 -> answered tr CIPSTATUS gprs_active) /\
  (sending (st s) = true -> answered tr CIPSTATUS connected).
Lemma answered_more tr c P v o : answered tr c P -> ~ In (OPin true) o -> answered (tr ++ [(v, o)]) c P.
Proof.
  intros (tr0 & e & o1 & trm & -> & HC & HP & HN) HO. exists tr0, e, o1, (trm ++ [(v, o)]).
  rewrite <- app_assoc. split; [reflexivity|]. split; [exact HC|]. split; [exact HP|].
  intros v' o' HI. destruct HI as [HI | HI]; [apply (HN v' o'); left; exact HI|]. apply in_app_or in HI. destruct HI as [HI | [HI | []]].
  - apply (HN v' o'). right. exact HI.
  - apply pair_inj in HI. destruct HI as [_ <-]. exact HO.
Qed.
Lemma answered_now tr c (P : list Z -> Prop) e o : In (OCmd c) o -> P (ans e c) -> ~ In (OPin true) o -> answered (tr ++ [(EPoll e, o)]) c P.
Proof.
  intros HC HP HO. exists tr, e, o, []. split; [reflexivity|]. split; [exact HC|]. split; [exact HP|].
  intros v' o' [HI | []]. apply pair_inj in HI. destruct HI as [_ <-]. exact HO.
Qed.
(** The state is kept or restarted, nothing is sent. *)
Lemma gate_quiet tr s v o s' : gate tr s -> ~ In (OPin true) o -> st s' = st s \/ rank (st s') = 20 /\ sending (st s') = false -> gate (tr ++ [(v, o)]) s'.
Proof.
  intros (H1 & H2 & H3 & H4 & H5) HO [HQ | [HR HS]].
  - unfold gate. rewrite HQ. split; [|split; [|split; [|split]]]; intros H; apply answered_more; auto.
  - unfold gate. rewrite HR, HS. split; [|split; [|split; [|split]]]; intros H; (lia || discriminate).
Qed.
Lemma osc_st s : st (onStateChange s) = st s.
Proof. unfold onStateChange. destruct (SSt_eqb _ _); reflexivity. Qed.
Lemma lock_st s t : st (setRetryLock s t) = st s. Proof. reflexivity. Qed.
Ltac nopulse := cbn [In]; intros HPP; repeat (destruct HPP as [HPP | HPP]; try discriminate HPP); exact HPP.
(** Move to a state from an earlier one, with what is newly known. *)
Ltac gates ES := match goal with HG : gate _ _ |- _ => let H1 := fresh in let H2 := fresh in let H3 := fresh in let H4 := fresh in let H5 := fresh in
  destruct HG as (H1 & H2 & H3 & H4 & H5); rewrite ES in H1, H2, H3, H4, H5; cbn [rank sending] in H1, H2, H3, H4, H5;
  unfold gate; rewrite ?osc_st, ?lock_st; cbn [st set_st set_ctr set_queue set_avail set_power rank sending];
  split; [|split; [|split; [|split]]]; intros HH; try lia; try discriminate HH;
  try (apply answered_more; [first [apply H1; lia|apply H2; lia|apply H3; lia|apply H4; lia|apply H5; exact HH|apply H5; reflexivity]|nopulse]) end.
Lemma gate_machine tr s e s1 o : wf s -> gate tr s -> machine s e = Some (s1, o) -> gate (tr ++ [(EPoll e, o)]) (onStateChange s1).
Proof.
  intros W HG H. unfold machine in H. cbv zeta in H. destruct (st s) eqn:ES;
  try (apply some_inj, pair_inj in H; destruct H as [<- <-]).
  - exfalso. destruct (w_st _ W) as [W1 _]. auto.
  - destruct (isReplying _) as [r|]; [|discriminate]. cbn [bind] in H. apply some_inj, pair_inj in H. destruct H as [<- <-].
    unfold gate. rewrite osc_st. cbn [st set_st rank sending]. split; [|split; [|split; [|split]]]; intros HH; try lia; discriminate.
  - destruct (waited (powerT s) 2 (now e)) eqn:E; apply some_inj, pair_inj in H; destruct H as [<- <-].
    + gates ES.
    + apply (gate_quiet _ _ _ _ _ HG); [nopulse|]. left. rewrite osc_st. reflexivity.
  - destruct (waited (powerT s) 12 (now e)) eqn:E; apply some_inj, pair_inj in H; destruct H as [<- <-].
    + gates ES.
    + apply (gate_quiet _ _ _ _ _ HG); [nopulse|]. left. rewrite osc_st. reflexivity.
  - destruct (isReplying _) as [r|] eqn:E; [|discriminate]. cbn [bind] in H. apply some_inj, pair_inj in H. destruct H as [<- <-].
    destruct r; gates ES. apply answered_now; [left; reflexivity|apply replying_alive; exact E|nopulse].
  - destruct (isPINRequired _) as [r|] eqn:E; [|discriminate]. cbn [bind] in H. apply some_inj, pair_inj in H. destruct H as [<- <-].
    destruct r; [gates ES|apply (gate_quiet _ _ _ _ _ HG); [nopulse|]; left; rewrite osc_st, lock_st; reflexivity].
    apply answered_now; [left; reflexivity|apply pin_ready; exact E|nopulse].
  - destruct (isRegistered _) as [r|] eqn:E; [|discriminate]. cbn [bind] in H. apply some_inj, pair_inj in H. destruct H as [<- <-].
    destruct r; [gates ES|apply (gate_quiet _ _ _ _ _ HG); [nopulse|]; left; rewrite osc_st, lock_st; reflexivity].
    apply answered_now; [left; reflexivity|apply reg_registered; exact E|nopulse].
  - destruct (setAPN _) as [r|] eqn:E; [|discriminate]. cbn [bind] in H. apply some_inj, pair_inj in H. destruct H as [<- <-].
    destruct r; [gates ES|apply (gate_quiet _ _ _ _ _ HG); [nopulse|]; left; rewrite osc_st, lock_st; reflexivity].
  - destruct (checkUDP _) as [u|] eqn:E; [|discriminate]. cbn [bind] in H. destruct (3 =? u) eqn:E3.
    + apply some_inj, pair_inj in H. destruct H as [<- <-]. apply Z.eqb_eq in E3. subst u. gates ES.
      apply answered_now; [left; reflexivity|apply udp_gprs; exact E|nopulse].
    + destruct (0 =? u); [destruct (startGPRS _) as [g|]; [|discriminate]|]; cbn [bind] in H;
      apply some_inj, pair_inj in H; destruct H as [<- <-];
      (apply (gate_quiet _ _ _ _ _ HG); [nopulse|]; left; rewrite osc_st, lock_st; reflexivity).
  - destruct (getIP _) as [r|]; [|discriminate]. cbn [bind] in H. apply some_inj, pair_inj in H. destruct H as [<- <-]. gates ES.
  - destruct (openUDP _) as [r|] eqn:E; [|discriminate]. cbn [bind] in H. apply some_inj, pair_inj in H. destruct H as [<- <-].
    destruct r; [gates ES|apply (gate_quiet _ _ _ _ _ HG); [nopulse|]; left; rewrite osc_st, lock_st; reflexivity].
  - destruct (queue s >? 0) eqn:E; [gates ES|apply (gate_quiet _ _ _ _ _ HG); [nopulse|]; left; rewrite osc_st; reflexivity].
  - destruct (checkUDP _) as [u|] eqn:E; [|discriminate]. cbn [bind] in H. apply some_inj, pair_inj in H. destruct H as [<- <-].
    destruct (u =? 1) eqn:E1.
    + apply Z.eqb_eq in E1. subst u. gates ES. apply answered_now; [left; reflexivity|apply udp_conn; exact E|nopulse].
    + destruct (u =? 2); (apply (gate_quiet _ _ _ _ _ HG); [nopulse|]; rewrite osc_st); [right; split; reflexivity|left; reflexivity].
  - destruct (isReplying _) as [r|]; [|discriminate]. cbn [bind] in H.
    assert (HX : queue (if r then s else set_st s RESET) = queue s) by (destruct r; reflexivity). rewrite HX in H.
    destruct (0 <? queue s) eqn:E; apply some_inj, pair_inj in H; destruct H as [<- <-]; gates ES.
  - destruct (sub (txq s) 0 (msgLen s)) as [b|] eqn:E; [|discriminate]. cbn [bind] in H. apply some_inj, pair_inj in H. destruct H as [<- <-]. gates ES.
  - apply (gate_quiet _ _ _ _ _ HG); [nopulse|]. right. rewrite osc_st. split; reflexivity.
  - apply (gate_quiet _ _ _ _ _ HG); [nopulse|]. left. rewrite osc_st. reflexivity.
Qed.
Lemma gate_step tr s v s' o : wf s -> gate tr s -> sim_step s v = Some (s', o) -> gate (tr ++ [(v, o)]) s'.
Proof.
  intros W HG H. destruct v as [e|b|]; cbn [sim_step] in H.
  - unfold poll in H. destruct (-1 =? retryT s) eqn:E1; cbn [negb] in H.
    2:{ apply some_inj, pair_inj in H. destruct H as [<- <-]. apply (gate_quiet _ _ _ _ _ HG); [nopulse|].
        unfold retryLockOut. destruct (0 =? retries s); [right; split; reflexivity|]. destruct (waited _ _ _); left; reflexivity. }
    destruct (255 =? msgCtr s) eqn:E2.
    { apply some_inj, pair_inj in H. destruct H as [<- <-]. apply (gate_quiet _ _ _ _ _ HG); [nopulse|]. right; split; reflexivity. }
    destruct (near e) eqn:E3; cbn [negb] in H.
    2:{ apply some_inj, pair_inj in H. destruct H as [<- <-]. apply (gate_quiet _ _ _ _ _ HG); [nopulse|]. left; reflexivity. }
    destruct (machine s e) as [[s1 o1]|] eqn:EM; [|discriminate]. cbn [bind] in H. apply some_inj, pair_inj in H. destruct H as [<- <-].
    apply (gate_machine _ _ _ _ _ W HG EM).
  - apply some_inj, pair_inj in H. destruct H as [<- <-]. apply (gate_quiet _ _ _ _ _ HG); [nopulse|]. left.
    unfold queueToSend. destruct b as [b|]; [|reflexivity]. destruct (Zlen b >? 64); reflexivity.
  - unfold sim_end in H. apply some_inj, pair_inj in H. destruct H as [<- <-]. apply (gate_quiet _ _ _ _ _ HG); [nopulse|]. left; reflexivity.
Qed.
Lemma gate_started : gate [] started.
Proof. unfold gate. cbn. split; [|split; [|split; [|split]]]; intros H; try lia; discriminate. Qed.

(** Which state each command is sent from. *)
Lemma sent_from s t s1 o c : goes s t s1 o -> In (OCmd c) o ->
  match c with
  | CPIN => st s = CHECK_PIN | CREG => st s = WAIT_FOR_REGISTRATION | CSTT => st s = SET_APN | CIICR => st s = START_GPRS
  | CIFSR => st s = GET_IP | CIPSTART => st s = OPEN_UDP | CIPSEND _ => st s = INIT_SEND | _ => True end.
Proof.
  intros HG HI. inversion HG as [| | | | | | |x c0 Hx| | | | | | | | | |]; subst; cbn [In] in HI;
  try (repeat (destruct HI as [HI | HI]; try discriminate HI); try (injection HI as <-); auto; contradiction).
  decompose [and or] Hx; subst; cbn [In] in HI; repeat (destruct HI as [HI | HI]; try discriminate HI); try contradiction; injection HI as <-; auto.
Qed.

(** ** C170 *)
(** Whatever the module answers and whenever the link is polled: the PIN is asked for only of a module that has answered since it was
    last power-cycled, registration only once no PIN is wanted, the access point is set and GPRS started only once registered,
    the address asked for and the socket opened only once GPRS is reported active, and a message announced only once the socket has been
    reported connected. *)
Theorem sim_gate : forall vs s tr tr1 e o tr2 c, sim_run started vs = Some (s, tr) -> tr = tr1 ++ (EPoll e, o) :: tr2 -> In (OCmd c) o ->
  match c with
  | CPIN => answered tr1 AT alive
  | CREG => answered tr1 CPIN ready
  | CSTT => answered tr1 CREG registered
  | CIICR => answered tr1 CREG registered /\ ~ connected (ans e CIPSTATUS)
  | CIFSR | CIPSTART => answered tr1 CREG registered /\ answered tr1 CIPSTATUS gprs_active
  | CIPSEND _ => answered tr1 CREG registered /\ answered tr1 CIPSTATUS gprs_active /\ answered tr1 CIPSTATUS connected
  | _ => True
  end.
Proof.
  intros vs s tr tr1 e o tr2 c HR HE HI.
  destruct (sim_run_inv gate gate_step _ [] _ _ _ wf_started gate_started HR) as [_ HX].
  destruct (HX _ _ _ _ HE) as (a & b & W & (H1 & H2 & H3 & H4 & H5) & HS). cbn [app sim_step] in *.
  destruct (poll_cases _ _ _ _ HS) as [(_ & _ & ->) | [(_ & _ & _ & ->) | [(_ & _ & _ & _ & ->) | (_ & _ & _ & s1 & HG & _)]]]; try contradiction HI.
  pose proof (sent_from _ _ _ _ c HG HI) as HF.
  destruct c; try exact I; rewrite HF in H1, H2, H3, H4, H5; cbn [rank sending] in H1, H2, H3, H4, H5.
  - apply H1. lia.
  - apply H2. lia.
  - apply H3. lia.
  - split; [apply H3; lia|]. intros HC. unfold poll in HS.
    destruct (negb _); [apply some_inj, pair_inj in HS; destruct HS as [_ <-]; contradiction|].
    destruct (255 =? _); [apply some_inj, pair_inj in HS; destruct HS as [_ <-]; contradiction|].
    destruct (negb _); [apply some_inj, pair_inj in HS; destruct HS as [_ <-]; contradiction|].
    unfold machine in HS. cbv zeta in HS. rewrite HF in HS.
    rewrite (conn_udp _ HC) in HS. cbn [bind] in HS. change (3 =? 1) with false in HS. change (0 =? 1) with false in HS. cbv iota in HS.
    apply some_inj, pair_inj in HS. destruct HS as [_ <-]. cbn [In] in HI. destruct HI as [HI | []]; discriminate HI.
  - split; [apply H3|apply H4]; lia.
  - split; [apply H3|apply H4]; lia.
  - split; [apply H3; lia|]. split; [apply H4; lia|apply H5; reflexivity].
Qed.

(** A start through to an announcement, and a module that stays unregistered: the link goes no further than asking. *)
From Coq Require Import String.
From Verif Require Import Sim900Live.
Example sim_gate_ex :
  (match sim_run started (EPoll (mkSEnv 0 true (fun _ => [])) :: EQueue (Some [1; 2; 3]) ::
      map (fun '(t, c) => EPoll (mkSEnv t true (answer apn1 udp1 (mkMod true c 0 None []))))
        [(3, MInit); (13, MInit); (14, MInit); (15, MInit); (18, MInit); (19, MInit); (22, MInit); (23, MInit); (26, MInit); (27, MStart); (30, MStart); (31, MGprs);
         (34, MGprs); (35, MGprs); (36, MStatus); (39, MStatus); (40, MConn); (43, MConn); (46, MConn); (49, MConn); (52, MConn); (55, MConn); (56, MConn)]) with
   | Some (_, tr) => In (OCmd (CIPSEND 3)) (flat_map snd tr) | None => False end) /\
  registered (chars "AT+CREG?" ++ crlf ++ crlf ++ chars "+CREG: 0,1" ++ crlf) /\ ~ registered (chars "AT+CREG?" ++ crlf ++ crlf ++ chars "+CREG: 0,0" ++ crlf).
Proof.
  split; [vm_compute; tauto|]. split.
  - left. exists (chars "AT+CREG?" ++ crlf ++ crlf ++ chars "+CREG:"), (chars "0,1" ++ crlf). split; [reflexivity|].
    split; [intros H; revert H; vm_compute; intuition lia|]. split; [reflexivity|reflexivity].
  - assert (HU : forall p q r r', p ++ 32 :: r = q ++ 32 :: r' -> ~ In 32 p -> ~ In 32 q -> r = r').
    { induction p as [|x p IH]; intros [|y q] r r' H HP HQ; cbn [app] in H.
      - congruence.
      - injection H as <- _. exfalso. apply HQ. left. reflexivity.
      - injection H as -> _. exfalso. apply HP. left. reflexivity.
      - injection H as _ H. apply (IH q); [exact H| |]; intros HI; [apply HP|apply HQ]; right; exact HI. }
    assert (HK : forall x, after 32 64 2 (chars "AT+CREG?" ++ crlf ++ crlf ++ chars "+CREG: 0,0" ++ crlf) x -> x = 48).
    { intros x (pre & r & HE & HN & _ & HX).
      assert (r = chars "0,0" ++ crlf).
      { symmetry. apply (HU (chars "AT+CREG?" ++ crlf ++ crlf ++ chars "+CREG:") pre); [rewrite <- HE; reflexivity| |exact HN].
        intros H; revert H; vm_compute; intuition lia. }
      subst r. change (Some 48 = Some x) in HX. apply some_inj in HX. auto. }
    intros [H | H]; apply HK in H; discriminate.
Qed.
