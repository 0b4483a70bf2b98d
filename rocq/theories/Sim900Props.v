(** SIM900 link: messages (C116), bounded retries and restarts (C118, C120), power pin (C119),
    parsing of responses (C121). *)
From Verif Require Import Base RtcModel Sim900Model.

Ltac sim_red := cbn [st oldst avail powerT msgCtr retries retryT queue msgLen txq
  set_st set_old set_avail set_power set_ctr set_retry set_queue SSt_eqb] in *.

Lemma SSt_eqb_eq a b : SSt_eqb a b = true <-> a = b.
Proof. destruct a, b; cbn; split; congruence. Qed.
Lemma secs_range t : 0 <= secs t < 60.
Proof. unfold secs. apply Z.mod_pos_bound. lia. Qed.
Lemma i8_secs t : i8 (secs t) = secs t.
Proof. pose proof (secs_range t). unfold i8. rewrite Z.mod_small by lia. lia. Qed.

(** ** The response parsers *)
Lemma getResponse_some : forall d c k, getResponse d c = Some k -> 1 <= k <= Zlen d.
Proof.
  induction d as [|x d IH]; intros c k H; cbn [getResponse] in H; [discriminate|]. rewrite Zlen_cons. pose proof (Zlen_nonneg d).
  destruct (x =? c); [apply some_inj in H; lia|]. destruct (getResponse d c) as [j|] eqn:E; [|discriminate].
  apply some_inj in H. specialize (IH _ _ E). lia.
Qed.
(** It is the position after the first occurrence. *)
Lemma getResponse_first : forall d c k, getResponse d c = Some k ->
  znth d (k - 1) = c /\ (forall j, 0 <= j < k - 1 -> znth d j <> c).
Proof.
  induction d as [|x d IH]; intros c k H; cbn [getResponse] in H; [discriminate|].
  destruct (x =? c) eqn:E; [apply some_inj in H; subst k; split; [change (x = c); lia|lia]|].
  destruct (getResponse d c) as [j|] eqn:E2; [|discriminate]. apply some_inj in H. subst k.
  pose proof (getResponse_some _ _ _ E2). destruct (IH _ _ E2) as [H1 H2].
  split.
  - rewrite znth_cons by lia. replace (j + 1 - 1 =? 0) with false by lia. replace (j + 1 - 1 - 1) with (j - 1) by lia. exact H1.
  - intros i Hi. rewrite znth_cons by lia. destruct (i =? 0) eqn:E0; [lia|]. apply H2. lia.
Qed.
Lemma readMany_len n r : 0 <= n -> Zlen (readMany n r) = n.
Proof.
  intros Hn. unfold readMany. rewrite Zlen_firstn, Zlen_app. pose proof (Zlen_nonneg r). unfold Zlen at 2. rewrite repeat_length. lia.
Qed.

(** The response buffer of each command, the character looked for, and how far beyond it the
    code reads. *)
Definition room (c : ACmd) : Z := match c with AT => 16 | CPIN => 40 | CIICR => 16 | _ => 64 end.
Definition marker (c : ACmd) : Z := match c with CPIN | CREG | CIPSTATUS => 32 | _ => 10 end.
(** An answer whose first marker is not within the last four characters that fit. *)
Definition tame (c : ACmd) (a : list Z) : Prop :=
  forall x, 0 <= x < Zlen a -> znth a x = marker c -> (forall y, 0 <= y < x -> znth a y <> marker c) ->
    x + 4 < room c \/ room c <= x.

Lemma tame_cut c a k : tame c a -> 0 < marker c -> 0 <= room c ->
  getResponse (readMany (room c) a) (marker c) = Some k -> 1 <= k /\ k + 3 < room c.
Proof.
  intros HT HM HR H. pose proof (getResponse_some _ _ _ H) as H1. rewrite readMany_len in H1 by exact HR.
  destruct (getResponse_first _ _ _ H) as [H2 H3].
  assert (HZ : forall x, 0 <= x < room c -> znth (readMany (room c) a) x = if x <? Zlen a then znth a x else 0).
  { intros x Hx. unfold readMany. rewrite znth_firstn by lia. rewrite znth_app by lia. destruct (x <? Zlen a) eqn:E; [reflexivity|].
    pose proof (Zlen_nonneg a). rewrite znth_repeat by lia. reflexivity. }
  rewrite HZ in H2 by lia. destruct (k - 1 <? Zlen a) eqn:E; [|lia].
  destruct (HT (k - 1) ltac:(lia) H2) as [H4 | H4]; [|split; lia|lia].
  intros y Hy. specialize (H3 y Hy). rewrite HZ in H3 by lia. replace (y <? Zlen a) with true in H3 by lia. exact H3.
Qed.
Lemma rd_in c a k : 0 <= k < room c -> exists v, rd (readMany (room c) a) k = Some v.
Proof. intros Hk. unfold rd. rewrite readMany_len by lia. replace ((0 <=? k) && (k <? room c)) with true by lia. eexists; reflexivity. Qed.

Ltac cut c a HT :=
  let E := fresh in let k := fresh "k" in let H := fresh in
  destruct (getResponse (readMany (room c) a) (marker c)) as [k|] eqn:E; [|eexists; reflexivity];
  destruct (tame_cut c a k HT ltac:(reflexivity) ltac:(discriminate) E) as [? H]; cbn [room] in H.
Lemma p_reply a : exists b, isReplying a = Some b.
Proof. unfold isReplying. destruct (rd_in AT a 0) as [v E]; [cbn [room]; lia|]. cbn [room] in E. rewrite E. eexists; reflexivity. Qed.
Lemma p_pin a : tame CPIN a -> exists b, isPINRequired a = Some b.
Proof.
  intros HT. unfold isPINRequired. cbv zeta. change 40 with (room CPIN). change 32 with (marker CPIN). cut CPIN a HT.
  destruct (rd_in CPIN a k) as [v E]; [cbn [room]; lia|]. rewrite E. eexists; reflexivity.
Qed.
Lemma p_reg a : tame CREG a -> exists b, isRegistered a = Some b.
Proof.
  intros HT. unfold isRegistered. cbv zeta. change 64 with (room CREG). change 32 with (marker CREG). cut CREG a HT.
  destruct (rd_in CREG a (k + 2)) as [v E]; [cbn [room]; lia|]. rewrite E. eexists; reflexivity.
Qed.
Lemma p_apn a : tame CSTT a -> exists b, setAPN a = Some b.
Proof.
  intros HT. unfold setAPN. cbv zeta. change 64 with (room CSTT). change 10 with (marker CSTT). cut CSTT a HT.
  destruct (rd_in CSTT a (k + 2)) as [v E]; [cbn [room]; lia|]. rewrite E. eexists; reflexivity.
Qed.
Lemma p_gprs a : tame CIICR a -> exists b, startGPRS a = Some b.
Proof.
  intros HT. unfold startGPRS. cbv zeta. change 16 with (room CIICR). change 10 with (marker CIICR). cut CIICR a HT.
  destruct (rd_in CIICR a k) as [v E]; [cbn [room]; lia|]. rewrite E. cbn [bind].
  destruct (rd_in CIICR a (k + 1)) as [w E2]; [cbn [room]; lia|]. rewrite E2. eexists; reflexivity.
Qed.
Lemma p_ip a : tame CIFSR a -> exists b, getIP a = Some b.
Proof.
  intros HT. unfold getIP. cbv zeta. change 64 with (room CIFSR). change 10 with (marker CIFSR). cut CIFSR a HT.
  destruct (rd_in CIFSR a k) as [v E]; [cbn [room]; lia|]. rewrite E. eexists; reflexivity.
Qed.
Lemma p_udp a : tame CIPSTATUS a -> exists b, checkUDP a = Some b.
Proof.
  intros HT. unfold checkUDP. cbv zeta. change 64 with (room CIPSTATUS). change 32 with (marker CIPSTATUS). cut CIPSTATUS a HT.
  destruct (rd_in CIPSTATUS a k) as [v E]; [cbn [room]; lia|]. rewrite E. cbn [bind].
  destruct (v =? 67); [eexists; reflexivity|]. destruct (v =? 80); [eexists; reflexivity|].
  destruct (rd_in CIPSTATUS a (k + 3)) as [w E2]; [cbn [room]; lia|]. rewrite E2. cbn [bind]. destruct (w =? 71); eexists; reflexivity.
Qed.
Lemma p_open a : tame CIPSTART a -> exists b, openUDP a = Some b.
Proof.
  intros HT. unfold openUDP. cbv zeta. change 64 with (room CIPSTART). change 10 with (marker CIPSTART). cut CIPSTART a HT.
  destruct (rd_in CIPSTART a k) as [v E]; [cbn [room]; lia|]. rewrite E. eexists; reflexivity.
Qed.

(** ** Every possible step of the machine *)
(** [goes s e s' o]: what the machine may do, the module's answers abstracted to the decision
    taken on them. *)
Inductive goes (s : Sim) (t : Z) : Sim -> list SOut -> Prop :=
| g_init : st s = INIT -> goes s t (set_st (set_avail (set_queue (set_retry (set_ctr s 0) (retries s) (-1)) 0 0 (repeat 0 64)) false) GET_STATE) []
| g_get : forall b, st s = GET_STATE -> goes s t (set_st (set_power (set_avail s b) (secs t)) WAIT_PWR_HIGH) [OCmd AT; OPin true]
| g_high : st s = WAIT_PWR_HIGH -> waited (powerT s) 2 t = true -> goes s t (set_st s WAIT_PWR_LOW) [OPin false]
| g_high0 : st s = WAIT_PWR_HIGH -> waited (powerT s) 2 t = false -> goes s t s []
| g_low : st s = WAIT_PWR_LOW -> waited (powerT s) 12 t = true -> goes s t (set_st s START_UP) []
| g_low0 : st s = WAIT_PWR_LOW -> waited (powerT s) 12 t = false -> goes s t s []
| g_up : forall x, st s = START_UP -> x = CHECK_PIN \/ x = GET_STATE -> goes s t (set_st s x) [OCmd AT]
| g_try : forall x c, (st s = CHECK_PIN /\ c = [OCmd CPIN] /\ (x = CHECK_PIN \/ x = WAIT_FOR_REGISTRATION)) \/
    (st s = WAIT_FOR_REGISTRATION /\ c = [OCmd CREG] /\ (x = WAIT_FOR_REGISTRATION \/ x = SET_APN)) \/
    (st s = SET_APN /\ c = [OCmd CSTT] /\ x = SET_APN) \/
    (st s = START_GPRS /\ ((c = [OCmd CIPSTATUS] /\ (x = GET_IP \/ x = START_GPRS)) \/ (c = [OCmd CIPSTATUS; OCmd CIICR] /\ x = START_GPRS))) \/
    (st s = OPEN_UDP /\ c = [OCmd CIPSTART] /\ (x = OPEN_UDP \/ x = IDLE)) \/
    (st s = WAIT_FOR_UDP /\ c = [OCmd CIPSTATUS] /\ x = WAIT_FOR_UDP) ->
    goes s t (setRetryLock (set_st s x) t) c
| g_apn : st s = SET_APN -> goes s t (setRetryLock (set_st (set_ctr s 0) START_GPRS) t) [OCmd CSTT]
| g_ip : st s = GET_IP -> goes s t (set_st s OPEN_UDP) [OCmd CIFSR]
| g_idle : st s = IDLE -> queue s > 0 -> goes s t (set_st s WAIT_FOR_UDP) []
| g_idle0 : st s = IDLE -> queue s <= 0 -> goes s t s []
| g_udp : forall x, st s = WAIT_FOR_UDP -> x = INIT_SEND \/ x = RESET -> goes s t (set_st s x) [OCmd CIPSTATUS]
| g_send : st s = INIT_SEND -> queue s > 0 ->
    goes s t (set_st (set_ctr s (u8 (msgCtr s + 1))) WRITE_PACKET) [OCmd AT; OCmd (CIPSEND (msgLen s))]
| g_send0 : st s = INIT_SEND -> queue s <= 0 -> goes s t (set_st s IDLE) [OCmd AT]
| g_write : forall b, st s = WRITE_PACKET -> sub (txq s) 0 (msgLen s) = Some b ->
    goes s t (set_st (set_queue s (u8 (queue s - 1)) (msgLen s) (txq s)) INIT_SEND) [OFrame b]
| g_reset : st s = RESET -> goes s t (set_st s GET_STATE) []
| g_panic : st s = PANIC -> goes s t s [].
Lemma set_st_same s : set_st s (st s) = s. Proof. destruct s; reflexivity. Qed.
Lemma set_avail_same s : set_avail s (avail s) = s. Proof. destruct s; reflexivity. Qed.
Lemma set_st_st s a b : set_st (set_st s a) b = set_st s b. Proof. reflexivity. Qed.
Lemma machine_goes s e s' o : machine s e = Some (s', o) -> goes s (now e) s' o.
Proof.
  intros H. unfold machine in H. cbv zeta in H. destruct (st s) eqn:ES;
  try (apply some_inj, pair_inj in H; destruct H as [<- <-]).
  - apply g_init. exact ES.
  - destruct (isReplying (ans e AT)) as [r|]; [|discriminate]. cbn [bind] in H. apply some_inj, pair_inj in H. destruct H as [<- <-].
    rewrite i8_secs. destruct r; [apply (g_get s (now e) true ES)|].
    pose proof (g_get s (now e) (avail s) ES) as HG. rewrite set_avail_same in HG. exact HG.
  - destruct (waited (powerT s) 2 (now e)) eqn:E; apply some_inj, pair_inj in H; destruct H as [<- <-]; [apply g_high|apply g_high0]; auto.
  - destruct (waited (powerT s) 12 (now e)) eqn:E; apply some_inj, pair_inj in H; destruct H as [<- <-]; [apply g_low|apply g_low0]; auto.
  - destruct (isReplying _) as [r|]; [|discriminate]. cbn [bind] in H. apply some_inj, pair_inj in H. destruct H as [<- <-].
    apply g_up; [exact ES|destruct r; auto].
  - destruct (isPINRequired _) as [r|]; [|discriminate]. cbn [bind] in H. apply some_inj, pair_inj in H. destruct H as [<- <-].
    destruct r; [|rewrite <- (set_st_same s) at 2; rewrite ES]; apply g_try; left; auto.
  - destruct (isRegistered _) as [r|]; [|discriminate]. cbn [bind] in H. apply some_inj, pair_inj in H. destruct H as [<- <-].
    destruct r; [|rewrite <- (set_st_same s) at 2; rewrite ES]; apply g_try; right; left; auto.
  - destruct (setAPN _) as [r|]; [|discriminate]. cbn [bind] in H. apply some_inj, pair_inj in H. destruct H as [<- <-].
    destruct r; [apply g_apn; exact ES|rewrite <- (set_st_same s) at 2; rewrite ES]; apply g_try; right; right; left; auto.
  - destruct (checkUDP _) as [u|]; [|discriminate]. cbn [bind] in H. destruct (3 =? u).
    + apply some_inj, pair_inj in H. destruct H as [<- <-]. apply g_try. right; right; right; left. auto.
    + destruct (0 =? u); [destruct (startGPRS _) as [g|]; [|discriminate]|]; cbn [bind] in H;
      apply some_inj, pair_inj in H; destruct H as [<- <-]; rewrite <- (set_st_same s) at 2; rewrite ES; apply g_try; right; right; right; left; auto 6.
  - destruct (getIP _) as [r|]; [|discriminate]. cbn [bind] in H. apply some_inj, pair_inj in H. destruct H as [<- <-]. apply g_ip. exact ES.
  - destruct (openUDP _) as [r|]; [|discriminate]. cbn [bind] in H. apply some_inj, pair_inj in H. destruct H as [<- <-].
    destruct r; [|rewrite <- (set_st_same s) at 2; rewrite ES]; apply g_try; right; right; right; right; left; auto.
  - destruct (queue s >? 0) eqn:E; [apply g_idle|apply g_idle0]; auto; lia.
  - destruct (checkUDP _) as [u|]; [|discriminate]. cbn [bind] in H. apply some_inj, pair_inj in H. destruct H as [<- <-].
    destruct (u =? 1); [apply g_udp; auto|]. destruct (u =? 2); [apply g_udp; auto|].
    rewrite <- (set_st_same s) at 2. rewrite ES. apply g_try. right; right; right; right; right; auto.
  - destruct (isReplying _) as [r|]; [|discriminate]. cbn [bind] in H.
    assert (HX : queue (if r then s else set_st s RESET) = queue s) by (destruct r; reflexivity). rewrite HX in H.
    destruct (0 <? queue s) eqn:E; apply some_inj, pair_inj in H; destruct H as [<- <-].
    + pose proof (g_send s (now e) ES ltac:(lia)) as HG. destruct r; exact HG.
    + pose proof (g_send0 s (now e) ES ltac:(lia)) as HG. destruct r; exact HG.
  - destruct (sub (txq s) 0 (msgLen s)) as [b|] eqn:E; [|discriminate]. cbn [bind] in H. apply some_inj, pair_inj in H. destruct H as [<- <-].
    apply g_write; auto.
  - apply g_reset. exact ES.
  - apply g_panic. exact ES.
Qed.

Lemma poll_cases s e s' o : poll s e = Some (s', o) ->
  (retryT s <> -1 /\ s' = retryLockOut s (now e) /\ o = []) \/
  (retryT s = -1 /\ msgCtr s = 255 /\ s' = set_st (set_ctr s 0) RESET /\ o = []) \/
  (retryT s = -1 /\ msgCtr s <> 255 /\ near e = false /\ s' = s /\ o = []) \/
  (retryT s = -1 /\ msgCtr s <> 255 /\ near e = true /\ exists s1, goes s (now e) s1 o /\ s' = onStateChange s1).
Proof.
  intros H. unfold poll in H. destruct (-1 =? retryT s) eqn:E1; cbn [negb] in H.
  2:{ apply some_inj, pair_inj in H. destruct H as [<- <-]. left. split; [lia|auto]. }
  right. destruct (255 =? msgCtr s) eqn:E2.
  { apply some_inj, pair_inj in H. destruct H as [<- <-]. left. split; [lia|]. split; [lia|auto]. }
  right. destruct (near e) eqn:E3; cbn [negb] in H.
  2:{ apply some_inj, pair_inj in H. destruct H as [<- <-]. left. split; [lia|]. split; [lia|auto]. }
  right. destruct (machine s e) as [[s1 o1]|] eqn:EM; [|discriminate]. cbn [bind] in H. apply some_inj, pair_inj in H.
  destruct H as [<- <-]. split; [lia|]. split; [lia|]. split; [reflexivity|]. exists s1. split; [apply machine_goes; exact EM|reflexivity].
Qed.

(** ** The invariant of a started link *)
Definition trying (x : SSt) : bool :=
  match x with CHECK_PIN | WAIT_FOR_REGISTRATION | SET_APN | START_GPRS | OPEN_UDP | WAIT_FOR_UDP => true | _ => false end.
Record wf (s : Sim) : Prop := mkWf {
  w_st : st s <> INIT /\ st s <> PANIC;
  w_queue : queue s = 0 \/ queue s = 1;
  w_txq : Zlen (txq s) = 64;
  w_len : 0 <= msgLen s <= 64;
  w_ctr : 0 <= msgCtr s <= 255;
  w_pow : 0 <= powerT s < 60;
  w_ret : 0 <= retries s <= (if SSt_eqb (st s) WAIT_FOR_REGISTRATION then 30 else 10);
  w_old : oldst s = st s \/ st s = RESET;
  w_lock : retryT s = -1 \/ (0 <= retryT s < 60 /\ trying (st s) = true /\ oldst s = st s);
  w_try : trying (st s) = true -> retryT s = -1 -> 1 <= retries s;
  w_write : st s = WRITE_PACKET -> queue s = 1;
  w_255 : msgCtr s = 255 -> st s = WRITE_PACKET }.
Lemma wf_started : wf started.
Proof. constructor; cbn; try lia; try (left; reflexivity); try congruence; try (split; discriminate); reflexivity. Qed.

Ltac wfx := constructor; sim_red; cbn [trying] in *;
  try discriminate; try congruence; try lia; try tauto; try (split; discriminate).
Lemma wf_goes s t s1 o : wf s -> retryT s = -1 -> msgCtr s <> 255 -> goes s t s1 o -> wf (onStateChange s1).
Proof.
  intros [W1 W2 W3 W4 W5 W6 W7 W8 W9 W10 W11 W12] HR HM HG. pose proof (secs_range t) as HS. pose proof (i8_secs t) as HI.
  destruct s as [x0 ox av pw mc re rt qu ml tx]. sim_red. subst rt.
  destruct HG as [E|b E|E Ew|E Ew|E Ew|E Ew|x E Ex|x c Ex|E|E|E Eq|E Eq|x E Ex|E Eq|E Eq|b E Eb|E|E]; sim_red; try subst x0;
    unfold onStateChange, setRetryLock; sim_red.
  - destruct W1; congruence.
  - destruct W8 as [-> | W8]; [|discriminate]. sim_red. wfx.
  - destruct W8 as [-> | W8]; [|discriminate]. sim_red. wfx.
  - destruct W8 as [-> | W8]; [|discriminate]. sim_red. wfx.
  - destruct W8 as [-> | W8]; [|discriminate]. sim_red. wfx.
  - destruct W8 as [-> | W8]; [|discriminate]. sim_red. wfx.
  - destruct W8 as [-> | W8]; [|discriminate]. destruct Ex as [-> | ->]; sim_red; wfx.
  - rewrite HI.
    assert (HE : ox = x0 /\ trying x0 = true).
    { destruct Ex as [(-> & _)|[(-> & _)|[(-> & _)|[(-> & _)|[(-> & _)|(-> & _)]]]]]; (destruct W8 as [-> | W8]; [|discriminate]); auto. }
    destruct HE as [-> HT]. specialize (W10 HT eq_refl). replace (negb (0 =? re)) with true by lia.
    destruct Ex as [(-> & -> & [-> | ->])|[(-> & -> & [-> | ->])|[(-> & -> & ->)|[(-> & [(-> & [-> | ->]) | (-> & ->)])|[(-> & -> & [-> | ->])|(-> & -> & ->)]]]]]; sim_red; wfx;
    try (right; split; [lia|auto]).
  - destruct W8 as [-> | W8]; [|discriminate]. rewrite HI. sim_red. wfx.
  - destruct W8 as [-> | W8]; [|discriminate]. sim_red. wfx.
  - destruct W8 as [-> | W8]; [|discriminate]. sim_red. wfx.
  - destruct W8 as [-> | W8]; [|discriminate]. sim_red. wfx.
  - destruct W8 as [-> | W8]; [|discriminate]. destruct Ex as [-> | ->]; sim_red; wfx.
  - destruct W8 as [-> | W8]; [|discriminate]. sim_red. rewrite u8_id by (red; lia). wfx.
  - destruct W8 as [-> | W8]; [|discriminate]. sim_red. wfx.
  - destruct W8 as [-> | W8]; [|discriminate]. rewrite (W11 eq_refl). change (u8 (1 - 1)) with 0. sim_red. wfx.
  - destruct ox; sim_red; wfx.
  - destruct W1; congruence.
Qed.
