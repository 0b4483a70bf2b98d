(** SIM900 link: properties of all histories (C116, C118, C119, C120, C121). *)
From Verif Require Import Base RtcModel Sim900Model Sim900Props.

Lemma wf_poll s e s' o : wf s -> poll s e = Some (s', o) -> wf s'.
Proof.
  intros W H. destruct (poll_cases _ _ _ _ H) as [(H1 & -> & _) | [(H1 & H2 & -> & _) | [(_ & _ & _ & -> & _) | (H1 & H2 & _ & s1 & HG & ->)]]].
  - destruct W as [W1 W2 W3 W4 W5 W6 W7 W8 W9 W10 W11 W12]. destruct W9 as [W9 | (W9 & W13 & W14)]; [congruence|].
    destruct s as [x0 ox av pw mc re rt qu ml tx]. unfold retryLockOut. sim_red. subst ox.
    destruct (0 =? re) eqn:E.
    + constructor; sim_red; try discriminate; try congruence; try lia; try tauto; try (split; discriminate).
      * intros H3. rewrite (W12 H3) in W13. discriminate.
    + destruct (waited rt 2 (now e)); constructor; sim_red; try discriminate; try congruence; try lia; try tauto.
  - destruct W as [W1 W2 W3 W4 W5 W6 W7 W8 W9 W10 W11 W12]. destruct s as [x0 ox av pw mc re rt qu ml tx]. sim_red.
    rewrite (W12 H2) in *. constructor; sim_red; try discriminate; try congruence; try lia; try tauto; try (split; discriminate).
  - exact W.
  - exact (wf_goes _ _ _ _ W H1 H2 HG).
Qed.
Lemma wf_step s v s' o : wf s -> sim_step s v = Some (s', o) -> wf s'.
Proof.
  intros W H. destruct v as [e|b|]; cbn [sim_step] in H.
  - exact (wf_poll _ _ _ _ W H).
  - apply some_inj, pair_inj in H. destruct H as [<- _]. unfold queueToSend. destruct b as [b|]; [|exact W].
    destruct (Zlen b >? 64) eqn:E; [exact W|]. cbn [fst]. pose proof (Zlen_nonneg b) as HB.
    destruct W as [W1 W2 W3 W4 W5 W6 W7 W8 W9 W10 W11 W12]. destruct s as [x0 ox av pw mc re rt qu ml tx]. sim_red.
    constructor; sim_red; auto; try lia.
    rewrite Zlen_app, Zlen_skipn, W3. unfold Zlen. unfold Zlen in E, HB. lia.
  - unfold sim_end in H. apply some_inj, pair_inj in H. destruct H as [<- _]. exact W.
Qed.
Lemma sim_run_app : forall vs ws s, sim_run s (vs ++ ws) =
  bind (sim_run s vs) (fun '(s1, t1) => bind (sim_run s1 ws) (fun '(s2, t2) => Some (s2, t1 ++ t2))).
Proof.
  induction vs as [|v vs IH]; intros ws s; cbn [sim_run app bind].
  - destruct (sim_run s ws) as [[s2 t2]|]; reflexivity.
  - destruct (sim_step s v) as [[s1 o]|]; cbn [bind]; [|reflexivity]. rewrite IH.
    destruct (sim_run s1 vs) as [[s2 t2]|]; cbn [bind]; [|reflexivity].
    destruct (sim_run s2 ws) as [[s3 t3]|]; reflexivity.
Qed.
(** Invariants carried along a history: [J] relates the trace so far to the state. *)
Lemma sim_run_inv (J : list (SEv * list SOut) -> Sim -> Prop) :
  (forall tr s v s' o, wf s -> J tr s -> sim_step s v = Some (s', o) -> J (tr ++ [(v, o)]) s') ->
  forall vs tr0 s s' tr, wf s -> J tr0 s -> sim_run s vs = Some (s', tr) ->
  (wf s' /\ J (tr0 ++ tr) s') /\
  forall tr1 v o tr2, tr = tr1 ++ (v, o) :: tr2 -> exists a b, wf a /\ J (tr0 ++ tr1) a /\ sim_step a v = Some (b, o).
Proof.
  intros HJ. induction vs as [|v vs IH]; intros tr0 s s' tr W HS H; cbn [sim_run] in H.
  - apply some_inj, pair_inj in H. destruct H as [<- <-]. rewrite app_nil_r. split; [auto|]. intros [|? ?] v o tr2 E; discriminate.
  - destruct (sim_step s v) as [[s1 o]|] eqn:E1; [|discriminate]. cbn [bind] in H.
    destruct (sim_run s1 vs) as [[s2 t2]|] eqn:E2; [|discriminate]. cbn [bind] in H. apply some_inj, pair_inj in H. destruct H as [<- <-].
    pose proof (wf_step _ _ _ _ W E1) as W1. pose proof (HJ _ _ _ _ _ W HS E1) as HS1.
    destruct (IH (tr0 ++ [(v, o)]) s1 s2 t2 W1 HS1 E2) as [[HA HB] HC]. rewrite <- app_assoc in HB. cbn [app] in HB.
    split; [auto|]. intros tr1 v' o' tr2 HE. destruct tr1 as [|x tr1].
    + cbn [app] in HE. injection HE as -> -> ->. exists s, s1. rewrite app_nil_r. auto.
    + cbn [app] in HE. injection HE as <- HE. destruct (HC _ _ _ _ HE) as (a & b & Ha & Hb & Hc).
      exists a, b. rewrite <- app_assoc in Hb. cbn [app] in Hb. auto.
Qed.

(** ** C116: what is sent *)
(** The message waiting after a history: the last one accepted, unless it has been written. *)
Definition has_frame (o : list SOut) : bool := existsb (fun x => match x with OFrame _ => true | _ => false end) o.
Definition pend1 (p : option (list Z)) (x : SEv * list SOut) : option (list Z) :=
  match x with
  | (EQueue (Some b), _) => if Zlen b <=? 64 then Some b else p
  | (_, o) => if has_frame o then None else p
  end.
Definition pending (tr : list (SEv * list SOut)) : option (list Z) := fold_left pend1 tr None.
Definition holds (tr : list (SEv * list SOut)) (s : Sim) : Prop :=
  pending tr = if queue s =? 1 then Some (firstn (Z.to_nat (msgLen s)) (txq s)) else None.

(** Only WRITE_PACKET touches the queue or writes a frame. *)
Lemma goes_queue s t s1 o : goes s t s1 o -> wf s ->
  (has_frame o = false /\ queue s1 = queue s /\ msgLen s1 = msgLen s /\ txq s1 = txq s) \/
  (st s = WRITE_PACKET /\ queue s1 = 0 /\ o = [OFrame (firstn (Z.to_nat (msgLen s)) (txq s))]).
Proof.
  intros HG W. destruct HG as [E|b E|E Ew|E Ew|E Ew|E Ew|x E Ex|x c Ex|E|E|E Eq|E Eq|x E Ex|E Eq|E Eq|b E Eb|E|E]; try (left; auto; fail).
  - exfalso. apply (proj1 (w_st _ W)). exact E.
  - left. destruct Ex as [(_ & -> & _)|[(_ & -> & _)|[(_ & -> & _)|[(_ & [(-> & _) | (-> & _)])|[(_ & -> & _)|(_ & -> & _)]]]]]; auto.
  - right. split; [exact E|]. split; [cbn; rewrite (w_write _ W E); reflexivity|].
    unfold sub in Eb. destruct (_ && _); [|discriminate]. apply some_inj in Eb. subst b. reflexivity.
Qed.
Lemma onStateChange_queue s : queue (onStateChange s) = queue s /\ msgLen (onStateChange s) = msgLen s /\ txq (onStateChange s) = txq s /\
  st (onStateChange s) = st s /\ powerT (onStateChange s) = powerT s /\ msgCtr (onStateChange s) = msgCtr s.
Proof. unfold onStateChange. destruct (SSt_eqb _ _); auto 6. Qed.
Lemma holds_step tr s v s' o : wf s -> holds tr s -> sim_step s v = Some (s', o) -> holds (tr ++ [(v, o)]) s'.
Proof.
  intros W HH H. unfold holds, pending in *. rewrite fold_left_app. cbn [fold_left]. rewrite HH. clear HH.
  destruct v as [e|b|]; cbn [sim_step pend1] in *.
  - destruct (poll_cases _ _ _ _ H) as [(H1 & -> & ->) | [(H1 & H2 & -> & ->) | [(_ & _ & _ & -> & ->) | (H1 & H2 & _ & s1 & HG & ->)]]]; try reflexivity.
    + unfold retryLockOut. destruct (0 =? retries s); [reflexivity|]. destruct (waited _ _ _); reflexivity.
    + destruct (onStateChange_queue s1) as (-> & -> & -> & _).
      destruct (goes_queue _ _ _ _ HG W) as [(-> & -> & -> & ->) | (_ & -> & ->)]; reflexivity.
  - apply some_inj, pair_inj in H. destruct H as [<- <-]. unfold queueToSend. destruct b as [b|]; [|reflexivity].
    destruct (Zlen b >? 64) eqn:E.
    + replace (Zlen b <=? 64) with false by lia. reflexivity.
    + replace (Zlen b <=? 64) with true by lia. cbn [fst queue set_queue msgLen txq]. change (1 =? 1) with true. cbv iota.
      unfold Zlen. rewrite Nat2Z.id, firstn_app, Nat.sub_diag, firstn_all. cbn [firstn]. rewrite app_nil_r. reflexivity.
  - unfold sim_end in H. apply some_inj, pair_inj in H. destruct H as [<- <-]. reflexivity.
Qed.

(** Every frame written is exactly the message then waiting -- the last one accepted, not yet
    written -- so that each message is written at most once and a replaced one never. *)
Theorem sim_frames : forall vs s tr tr1 e o tr2 b, sim_run started vs = Some (s, tr) ->
  tr = tr1 ++ (EPoll e, o) :: tr2 -> In (OFrame b) o -> pending tr1 = Some b /\ o = [OFrame b].
Proof.
  intros vs s tr tr1 e o tr2 b HR HE HI.
  destruct (sim_run_inv holds holds_step vs [] started s tr wf_started eq_refl HR) as [_ HX].
  destruct (HX _ _ _ _ HE) as (a & a' & Wa & Ha & HS). cbn [app] in Ha. cbn [sim_step] in HS.
  destruct (poll_cases _ _ _ _ HS) as [(_ & _ & ->) | [(_ & _ & _ & ->) | [(_ & _ & _ & _ & ->) | (H1 & H2 & _ & s1 & HG & _)]]]; try (destruct HI; fail).
  destruct (goes_queue _ _ _ _ HG Wa) as [(HF & _) | (HW & _ & ->)].
  - exfalso. assert (HT : has_frame o = true) by (apply existsb_exists; eexists; split; [exact HI|reflexivity]). congruence.
  - destruct HI as [HI | []]. injection HI as <-. split; [|reflexivity]. unfold holds in Ha. rewrite Ha, (w_write _ Wa HW). reflexivity.
Qed.
(** Frames are written by polls only. *)
Theorem sim_frames_polls : forall vs s tr v o b, sim_run started vs = Some (s, tr) -> In (v, o) tr -> In (OFrame b) o -> exists e, v = EPoll e.
Proof.
  intros vs s tr v o b HR HI HB. apply in_split in HI. destruct HI as (t1 & t2 & HE).
  destruct (sim_run_inv (fun _ _ => True) (fun _ _ _ _ _ _ _ _ => I) vs [] started s tr wf_started I HR) as [_ HX].
  destruct (HX _ _ _ _ HE) as (a & a' & _ & _ & HS). destruct v as [e|q|]; cbn [sim_step] in HS; [eexists; reflexivity| |];
  unfold sim_end in HS; apply some_inj, pair_inj in HS; destruct HS as [_ <-]; cbn in HB; intuition discriminate.
Qed.
(** A message too long or a NULL pointer is refused and changes nothing; anything else is taken. *)
Theorem sim_queue_accepts : forall s b,
  (snd (queueToSend s b) = true <-> exists m, b = Some m /\ Zlen m <= 64) /\
  (snd (queueToSend s b) = false -> fst (queueToSend s b) = s).
Proof.
  intros s [b|]; cbn [queueToSend]; [|split; [split; [discriminate|intros (m & E & _); discriminate]|auto]].
  destruct (Zlen b >? 64) eqn:E; cbn [fst snd]; (split; [split|]); intros H; try discriminate; auto.
  - destruct H as (m & [= <-] & H). lia.
  - exists b. split; [reflexivity|lia].
Qed.

(** The output of the last poll that output anything, and whether a message has been accepted
    since. *)
Definition ann1 (p : list SOut * bool) (x : SEv * list SOut) : list SOut * bool :=
  match x with
  | (EQueue (Some b), _) => (fst p, snd p || (Zlen b <=? 64))
  | (EPoll _, (_ :: _) as o) => (o, false)
  | _ => p
  end.
Definition last_out (tr : list (SEv * list SOut)) : list SOut * bool := fold_left ann1 tr ([], false).
Definition announced (tr : list (SEv * list SOut)) (s : Sim) : Prop :=
  st s = WRITE_PACKET -> exists n, fst (last_out tr) = [OCmd AT; OCmd (CIPSEND n)] /\ (snd (last_out tr) = false -> n = msgLen s).
Lemma announced_step tr s v s' o : wf s -> announced tr s -> sim_step s v = Some (s', o) -> announced (tr ++ [(v, o)]) s'.
Proof.
  intros W HH H. unfold announced, last_out in *. rewrite fold_left_app. cbn [fold_left]. set (p := fold_left ann1 tr ([], false)) in *. clearbody p.
  destruct v as [e|b|]; cbn [sim_step ann1] in *.
  - destruct (poll_cases _ _ _ _ H) as [(H1 & -> & ->) | [(H1 & H2 & -> & ->) | [(_ & _ & _ & -> & ->) | (H1 & H2 & _ & s1 & HG & ->)]]].
    + unfold retryLockOut. destruct (0 =? retries s); [discriminate|]. destruct (waited _ _ _); exact HH.
    + discriminate.
    + exact HH.
    + destruct (onStateChange_queue s1) as (_ & -> & _ & -> & _). intros HS.
      destruct HG as [E|b E|E Ew|E Ew|E Ew|E Ew|x E Ex|x c Ex|E|E|E Eq|E Eq|x E Ex|E Eq|E Eq|b E Eb|E|E]; cbn in HS; try discriminate; try congruence.
      * destruct Ex; congruence.
      * exfalso. decompose [and or] Ex; congruence.
      * destruct Ex; congruence.
      * cbn. exists (msgLen s). auto.
  - apply some_inj, pair_inj in H. destruct H as [<- <-]. unfold queueToSend. destruct b as [b|]; [|exact HH].
    destruct (Zlen b >? 64) eqn:E; cbn [fst snd].
    + replace (Zlen b <=? 64) with false by lia. rewrite orb_false_r. exact HH.
    + replace (Zlen b <=? 64) with true by lia. rewrite orb_true_r. intros HS. destruct (HH HS) as (n & H1 & _). exists n. split; [exact H1|discriminate].
  - unfold sim_end in H. apply some_inj, pair_inj in H. destruct H as [<- <-]. exact HH.
Qed.
(** Each frame directly follows the announcement of a frame, which gives its exact length
    unless another message was queued in between. *)
Theorem sim_length_partial : forall vs s tr tr1 e o tr2 b, sim_run started vs = Some (s, tr) ->
  tr = tr1 ++ (EPoll e, o) :: tr2 -> In (OFrame b) o ->
  exists n, fst (last_out tr1) = [OCmd AT; OCmd (CIPSEND n)] /\ (snd (last_out tr1) = false -> n = Zlen b).
Proof.
  intros vs s tr tr1 e o tr2 b HR HE HI.
  destruct (sim_run_inv announced announced_step vs [] started s tr wf_started ltac:(discriminate) HR) as [_ HX].
  destruct (HX _ _ _ _ HE) as (a & a' & Wa & Ha & HS). cbn [app] in Ha. cbn [sim_step] in HS.
  destruct (poll_cases _ _ _ _ HS) as [(_ & _ & ->) | [(_ & _ & _ & ->) | [(_ & _ & _ & _ & ->) | (H1 & H2 & _ & s1 & HG & _)]]]; try (destruct HI; fail).
  destruct (goes_queue _ _ _ _ HG Wa) as [(HF & _) | (HW & _ & ->)].
  - exfalso. assert (HT : has_frame o = true) by (apply existsb_exists; eexists; split; [exact HI|reflexivity]). congruence.
  - destruct (Ha HW) as (n & H3 & H4). exists n. split; [exact H3|]. intros H5. rewrite (H4 H5).
    destruct HI as [HI | []]. injection HI as <-. rewrite Zlen_firstn, (w_txq _ Wa). pose proof (w_len _ Wa). lia.
Qed.

(** ** C118, C120: attempts and messages between power cycles *)
Definition is_high (x : SOut) : bool := match x with OPin true => true | _ => false end.
(** Everything output since the power pin was last raised (or since the start). *)
Definition since1 (acc : list SOut) (x : SEv * list SOut) : list SOut :=
  if existsb is_high (snd x) then [] else acc ++ snd x.
Definition since_pulse (tr : list (SEv * list SOut)) : list SOut := fold_left since1 tr [].
Definition is_cmd (c : ACmd) (x : SOut) : bool :=
  match c, x with
  | CPIN, OCmd CPIN | CREG, OCmd CREG | CSTT, OCmd CSTT | CIICR, OCmd CIICR | CIPSTART, OCmd CIPSTART
  | CIPSEND _, OCmd (CIPSEND _) => true
  | _, _ => false
  end.
Definition cnt (c : ACmd) (l : list SOut) : Z := Zlen (filter (is_cmd c) l).
Lemma cnt_app c l m : cnt c (l ++ m) = cnt c l + cnt c m.
Proof. unfold cnt. rewrite filter_app, Zlen_app. reflexivity. Qed.
Lemma cnt_nonneg c l : 0 <= cnt c l. Proof. apply Zlen_nonneg. Qed.

Definition bounds (s : Sim) (a r t g u x : Z) : Prop :=
  (0 <= a <= 10 /\ 0 <= r <= 30 /\ 0 <= t <= 10 /\ 0 <= g <= 10 /\ 0 <= u <= 10 /\ 0 <= x <= 255) /\
  match st s with
  | GET_STATE | RESET => True
  | WAIT_PWR_HIGH | WAIT_PWR_LOW | START_UP => a = 0 /\ r = 0 /\ t = 0 /\ g = 0 /\ u = 0 /\ x = 0
  | CHECK_PIN => a + retries s <= 10 /\ r = 0 /\ t = 0 /\ g = 0 /\ u = 0 /\ x = 0
  | WAIT_FOR_REGISTRATION => r + retries s <= 30 /\ t = 0 /\ g = 0 /\ u = 0 /\ x = 0
  | SET_APN => t + retries s <= 10 /\ g = 0 /\ u = 0 /\ x = 0
  | START_GPRS => g + retries s <= 10 /\ u = 0 /\ x = 0 /\ msgCtr s = 0
  | GET_IP => u = 0 /\ x = 0 /\ msgCtr s = 0
  | OPEN_UDP => u + retries s <= 10 /\ x = 0 /\ msgCtr s = 0
  | IDLE | WAIT_FOR_UDP | INIT_SEND | WRITE_PACKET => x = msgCtr s
  | INIT | PANIC => False
  end.
Definition counted (tr : list (SEv * list SOut)) (s : Sim) : Prop :=
  let l := since_pulse tr in
  bounds s (cnt CPIN l) (cnt CREG l) (cnt CSTT l) (cnt CIICR l) (cnt CIPSTART l) (cnt (CIPSEND 0) l).
Lemma bounds_goes s t s1 o a r p g u x : wf s -> retryT s = -1 -> msgCtr s <> 255 -> goes s t s1 o -> bounds s a r p g u x ->
  if existsb is_high o then bounds (onStateChange s1) 0 0 0 0 0 0
  else bounds (onStateChange s1) (a + cnt CPIN o) (r + cnt CREG o) (p + cnt CSTT o) (g + cnt CIICR o) (u + cnt CIPSTART o) (x + cnt (CIPSEND 0) o).
Proof.
  intros [W1 W2 W3 W4 W5 W6 W7 W8 W9 W10 W11 W12] HR HM HG [HB HC].
  destruct s as [x0 ox av pw mc re rt qu ml tx]. unfold bounds. sim_red. subst rt.
  destruct HG as [E|b E|E Ew|E Ew|E Ew|E Ew|y E Ey|y c Ey|E|E|E Eq|E Eq|y E Ey|E Eq|E Eq|b E Eb|E|E]; sim_red; try subst x0;
    unfold onStateChange, setRetryLock; sim_red; try (destruct HC; fail);
    try (destruct W8 as [-> | W8]; [|discriminate]).
  all: try (change (existsb is_high [OCmd AT; OPin true]) with true; cbv iota; sim_red; lia).
  all: try (cbn [existsb is_high orb filter is_cmd cnt]; unfold cnt; cbn [filter is_cmd]; rewrite ?Zlen_cons; change (@Zlen SOut []) with 0; sim_red; lia).
  - unfold cnt; cbn [existsb is_high orb filter is_cmd]; change (@Zlen SOut []) with 0. destruct Ey as [-> | ->]; sim_red; lia.
  - assert (HE : trying x0 = true /\ ox = x0).
    { destruct Ey as [(-> & _)|[(-> & _)|[(-> & _)|[(-> & _)|[(-> & _)|(-> & _)]]]]]; (destruct W8 as [-> | W8]; [|discriminate]); auto. }
    destruct HE as [HT ->]. specialize (W10 HT eq_refl). replace (negb (0 =? re)) with true by lia.
    destruct Ey as [(-> & -> & [-> | ->])|[(-> & -> & [-> | ->])|[(-> & -> & ->)|[(-> & [(-> & [-> | ->]) | (-> & ->)])|[(-> & -> & [-> | ->])|(-> & -> & ->)]]]]];
      unfold cnt; cbn [existsb is_high orb filter is_cmd]; rewrite ?Zlen_cons; change (@Zlen SOut []) with 0; sim_red; lia.
  - unfold cnt; cbn [existsb is_high orb filter is_cmd]; rewrite ?Zlen_cons; change (@Zlen SOut []) with 0; sim_red.
    specialize (W10 eq_refl eq_refl). replace (negb (0 =? re)) with true by lia. lia.
  - unfold cnt; cbn [existsb is_high orb filter is_cmd]; change (@Zlen SOut []) with 0. destruct Ey as [-> | ->]; sim_red; lia.
  - unfold cnt; cbn [existsb is_high orb filter is_cmd]; rewrite ?Zlen_cons; change (@Zlen SOut []) with 0; sim_red.
    rewrite u8_id by (red; lia). lia.
  - unfold cnt; cbn [existsb is_high orb filter is_cmd]; change (@Zlen SOut []) with 0. destruct ox; sim_red; lia.
Qed.
