(** SIM900 link: delivery (C117).  From any state the link can get into, whatever the module did
    before, once the module behaves a queued message is delivered within a bounded number of
    polls. *)
From Coq Require String. Import String.StringSyntax.
From Coq Require Ascii.
Delimit Scope string_scope with string.
From Verif Require Import Base RtcModel Sim900Model Sim900Props Sim900Hist.

(** ** A module that behaves *)
(** Connection states as reported by AT+CIPSTATUS (the text quoted at .h 795-803). *)
Inductive Conn := MInit | MStart | MGprs | MStatus | MConn.
(** Powered; connection; negative answers to give to AT+CREG? before registering; length of the
    frame it was told to expect; frames transmitted. *)
Record Mod := mkMod { on : bool; conn : Conn; srch : Z; expc : option Z; got : list (list Z) }.
Definition chars (s : String.string) : list Z := map (fun a => Z.of_nat (Ascii.nat_of_ascii a)) (String.list_ascii_of_string s).
Arguments chars _%string.
Definition crlf : list Z := [13; 10].
Definition nl (s : String.string) : list Z := chars s ++ crlf ++ crlf.
Arguments nl _%string.
Definition state_text (c : Conn) : list Z :=
  match c with
  | MInit => chars "IP INITIAL" | MStart => chars "IP START" | MGprs => chars "IP GPRSACT"
  | MStatus => chars "IP STATUS" | MConn => chars "CONNECT OK"
  end.
(** What it answers: the echo, then the result, as quoted in the comments of the .h (674-689,
    705-710, 725-730, 760-765, 790-804, 870-879, 948-954, 1008-1011); [apn] and [udp] are the echoes of the
    two commands carrying configuration.  Nothing when off. *)
Definition answer (apn udp : list Z) (m : Mod) (c : ACmd) : list Z :=
  if on m then
    match c with
    | AT => nl "AT" ++ chars "OK" ++ crlf
    | CPIN => nl "AT+CPIN?" ++ chars "+CPIN: READY" ++ crlf ++ crlf ++ chars "OK" ++ crlf
    | CREG => nl "AT+CREG?" ++ (if srch m =? 0 then chars "+CREG: 0,5" else chars "+CREG: 0,2") ++ crlf ++ crlf ++ chars "OK" ++ crlf
    | CSTT => apn ++ crlf ++ crlf ++ (match conn m with MInit => chars "OK" | _ => chars "ERROR" end) ++ crlf
    | CIPSTATUS => nl "AT+CIPSTATUS" ++ chars "OK" ++ crlf ++ crlf ++ chars "STATE: " ++ state_text (conn m) ++ crlf
    | CIICR => nl "AT+CIICR" ++ (match conn m with MStart => chars "OK" | _ => chars "ERROR" end) ++ crlf
    | CIFSR => nl "AT+CIFSR" ++ (match conn m with MGprs => chars "172.16.101.199" | _ => chars "ERROR" end) ++ crlf
    | CIPSTART => udp ++ crlf ++ crlf ++ (match conn m with MStatus => chars "OK" ++ crlf ++ crlf ++ chars "CONNECT OK" | _ => chars "ERROR" end) ++ crlf
    | _ => []
    end
  else [].
(** What the commands, the frames and the power pin do to it.  A pulse on the power pin turns it
    on or off; it starts unconnected, and takes [look] questions to register. *)
Definition mod_step (look : Z) (m : Mod) (o : SOut) : Mod :=
  match o with
  | OPin true => m
  | OPin false => mkMod (negb (on m)) MInit look None (got m)
  | OCmd c => if on m then
      match c, conn m with
      | CREG, _ => mkMod true (conn m) (if srch m =? 0 then 0 else srch m - 1) (expc m) (got m)
      | CSTT, MInit => mkMod true MStart (srch m) (expc m) (got m)
      | CIICR, MStart => mkMod true MGprs (srch m) (expc m) (got m)
      | CIFSR, MGprs => mkMod true MStatus (srch m) (expc m) (got m)
      | CIPSTART, MStatus => mkMod true MConn (srch m) (expc m) (got m)
      | CIPSEND n, MConn => mkMod true MConn (srch m) (Some n) (got m)
      | _, _ => m
      end else m
  | OFrame b =>
      match on m, conn m, expc m with
      | true, MConn, Some n => mkMod true MConn (srch m) None (if n =? Zlen b then got m ++ [b] else got m)
      | _, _, _ => m
      end
  end.
(** One poll at time [t] with this module; several. *)
Definition co_step (apn udp : list Z) (look : Z) (x : Sim * Mod) (t : Z) : option (Sim * Mod * list SOut) :=
  bind (poll (fst x) (mkSEnv t true (answer apn udp (snd x)))) (fun '(s', o) => Some (s', fold_left (mod_step look) o (snd x), o)).
Fixpoint co_run (apn udp : list Z) (look : Z) (x : Sim * Mod) (ts : list Z) : option (Sim * Mod * list SOut) :=
  match ts with
  | [] => Some (x, [])
  | t :: r => bind (co_step apn udp look x t) (fun '(x1, o) => bind (co_run apn udp look x1 r) (fun '(x2, o2) => Some (x2, o ++ o2)))
  end.
(** Polls from 1 s to 46 s apart. *)
Fixpoint paced (t : Z) (ts : list Z) : Prop :=
  match ts with [] => True | u :: r => 1 <= u - t <= 46 /\ paced u r end.
(** An echo: short enough and without a new line. *)
Definition echo (l : list Z) : Prop := Zlen l <= 50 /\ ~ In 10 l.

(** ** The link's view of such a module *)
Lemma getResponse_echo : forall l r, ~ In 10 l -> getResponse (l ++ 13 :: 10 :: r) 10 = Some (Zlen l + 2).
Proof.
  induction l as [|x l IH]; intros r H; cbn [app getResponse].
  - reflexivity.
  - destruct (x =? 10) eqn:E; [exfalso; apply H; left; lia|]. rewrite IH by (intros HI; apply H; right; exact HI). rewrite Zlen_cons. f_equal. lia.
Qed.
Lemma firstn_echo l a b r n : Zlen l <= 50 -> firstn (Z.to_nat 64) ((l ++ 13 :: 10 :: 13 :: 10 :: a :: b :: r) ++ repeat 0 n) =
  l ++ 13 :: 10 :: 13 :: 10 :: a :: firstn (Z.to_nat 64 - length l - 5) (b :: r ++ repeat 0 n).
Proof.
  intros H. rewrite <- app_assoc. rewrite firstn_app. f_equal; [apply firstn_all2; unfold Zlen in H; lia|].
  unfold Zlen in H. replace (Z.to_nat 64 - length l)%nat with (5 + (Z.to_nat 64 - length l - 5))%nat at 1 by lia. reflexivity.
Qed.
Lemma znth_after l k r : 0 <= k -> znth (l ++ r) (Zlen l + k) = znth r k.
Proof.
  intros H. pose proof (Zlen_nonneg l). rewrite znth_app by lia. replace (Zlen l + k <? Zlen l) with false by lia. f_equal. lia.
Qed.
Lemma echo_read l a b r k : echo l -> 0 <= k <= 2 ->
  let d := readMany 64 (l ++ crlf ++ crlf ++ a :: b :: r) in
  getResponse d 10 = Some (Zlen l + 2) /\ rd d (Zlen l + 2 + k) = Some (znth [13; 10; a] k).
Proof.
  intros [HE HN] Hk d. unfold d, readMany. cbn [crlf app]. rewrite firstn_echo by exact HE. split.
  - apply getResponse_echo. exact HN.
  - assert (HL : Zlen (l ++ 13 :: 10 :: 13 :: 10 :: a :: firstn (Z.to_nat 64 - length l - 5) (b :: r ++ repeat 0 (Z.to_nat 64))) >= Zlen l + 5).
    { rewrite Zlen_app, !Zlen_cons. match goal with |- context[Zlen (firstn ?n ?x)] => pose proof (Zlen_nonneg (firstn n x)) end. lia. }
    pose proof (Zlen_nonneg l). unfold rd.
    match goal with |- (if ?c then _ else _) = _ => replace c with true by lia end. f_equal.
    replace (Zlen l + 2 + k) with (Zlen l + (2 + k)) by lia. rewrite znth_after by lia.
    assert (HK : k = 0 \/ k = 1 \/ k = 2) by lia. destruct HK as [-> | [-> | ->]]; reflexivity.
Qed.
Section View.
Variables (apn udp : list Z) (m : Mod).
Hypotheses (HA : echo apn) (HU : echo udp).
Let an := answer apn udp m.
Lemma v_reply : isReplying (an AT) = Some (on m).
Proof. unfold an, answer. destruct (on m); reflexivity. Qed.
Lemma v_pin : isPINRequired (an CPIN) = Some (on m).
Proof. unfold an, answer. destruct (on m); reflexivity. Qed.
Lemma v_reg : isRegistered (an CREG) = Some (on m && (srch m =? 0)).
Proof. unfold an, answer. destruct (on m); [destruct (srch m =? 0)|]; reflexivity. Qed.
Lemma v_apn : setAPN (an CSTT) = Some (if on m then match conn m with MInit => true | _ => false end else true).
Proof.
  unfold an, answer. destruct (on m); [|reflexivity].
  assert (H : forall a b r, setAPN (apn ++ crlf ++ crlf ++ a :: b :: r) = Some (a =? 79)).
  { intros a b r. unfold setAPN. cbv zeta. destruct (echo_read apn a b r 2 HA ltac:(lia)) as [-> ->]. reflexivity. }
  destruct (conn m); (etransitivity; [apply H|]; reflexivity).
Qed.
Lemma v_udp : checkUDP (an CIPSTATUS) = Some (if on m then match conn m with MConn => 1 | MGprs => 3 | _ => 0 end else 0).
Proof. unfold an, answer. destruct (on m); [destruct (conn m)|]; reflexivity. Qed.
Lemma v_gprs : exists b, startGPRS (an CIICR) = Some b.
Proof. unfold an, answer. destruct (on m); [destruct (conn m)|]; eexists; reflexivity. Qed.
Lemma v_ip : exists b, getIP (an CIFSR) = Some b.
Proof. unfold an, answer. destruct (on m); [destruct (conn m)|]; eexists; reflexivity. Qed.
Lemma v_open : openUDP (an CIPSTART) = Some (on m).
Proof.
  unfold an, answer. destruct (on m); [|reflexivity].
  assert (H : forall a b r, openUDP (udp ++ crlf ++ crlf ++ a :: b :: r) = Some true).
  { intros a b r. unfold openUDP. cbv zeta. destruct (echo_read udp a b r 0 HU ltac:(lia)) as [E1 E2]. rewrite E1.
    replace (Zlen udp + 2 + 0) with (Zlen udp + 2) in E2 by lia. rewrite E2. reflexivity. }
  destruct (conn m); (etransitivity; [apply H|]; reflexivity).
Qed.
End View.

(** ** A measure that every poll decreases *)
Definition isc (a b : Conn) : bool :=
  match a, b with MInit, MInit | MStart, MStart | MGprs, MGprs | MStatus, MStatus | MConn, MConn => true | _, _ => false end.
(** The link and the module agree, and enough attempts are left. *)
Definition good (s : Sim) (m : Mod) : bool := on m &&
  match st s with
  | START_UP | WAIT_PWR_LOW => isc (conn m) MInit
  | CHECK_PIN | SET_APN => isc (conn m) MInit && (1 <=? retries s)
  | WAIT_FOR_REGISTRATION => isc (conn m) MInit && (srch m + 1 <=? retries s)
  | START_GPRS => isc (conn m) MStart && (2 <=? retries s) || isc (conn m) MGprs && (1 <=? retries s)
  | GET_IP => isc (conn m) MGprs
  | OPEN_UDP => isc (conn m) MStatus && (1 <=? retries s)
  | IDLE | INIT_SEND => isc (conn m) MConn
  | WAIT_FOR_UDP => isc (conn m) MConn && (1 <=? retries s)
  | WRITE_PACKET => isc (conn m) MConn && match expc m with Some n => n =? msgLen s | None => false end
  | _ => false
  end.
(** Polls still to wait, for more than [d] seconds since [x] in the code's clock. *)
Definition wait (x d t : Z) : Z := let e := (t - x) mod 60 in if e <=? d then d + 1 - e else 14.
Definition tries (s : Sim) (t : Z) : Z := 4 * retries s + (if retryT s =? -1 then 0 else wait (retryT s) 2 t).
Definition doomed (s : Sim) : bool :=
  match st s with
  | START_GPRS | GET_IP | OPEN_UDP | IDLE | WAIT_FOR_UDP | INIT_SEND => msgCtr s =? 254
  | WRITE_PACKET => msgCtr s =? 255
  | _ => false
  end.
Definition measure (s : Sim) (m : Mod) (t : Z) : Z :=
  (if doomed s then 1400 else 0) +
  match st s with
  | INIT | PANIC => 0
  | WRITE_PACKET => 1
  | INIT_SEND => 2
  | WAIT_FOR_UDP => (if good s m then 3 else 720) + tries s t
  | IDLE => if good s m then 60 else 780
  | OPEN_UDP => (if good s m then 61 else 781) + tries s t
  | GET_IP => if good s m then 120 else 840
  | START_GPRS => (if good s m then 121 else 841) + tries s t
  | SET_APN => (if good s m then 180 else 900) + tries s t
  | WAIT_FOR_REGISTRATION => (if good s m then 240 else 960) + tries s t
  | CHECK_PIN => (if good s m then 380 else 1100) + tries s t
  | START_UP => if on m then if good s m then 440 else 1160 else 530
  | WAIT_PWR_LOW => (if on m then if good s m then 450 else 1170 else 540) + wait (powerT s) 12 t
  | WAIT_PWR_HIGH => (if on m then 560 else 480) + wait (powerT s) 2 t
  | GET_STATE => if on m then 600 else 520
  | RESET => 601
  end.
Definition most : Z := 2700.
Lemma wait_range x d t : 0 <= d <= 13 -> 1 <= wait x d t <= 14.
Proof. intros H. unfold wait. cbv zeta. pose proof (Z.mod_pos_bound (t - x) 60 ltac:(lia)). destruct (_ <=? d) eqn:E; lia. Qed.
Lemma wait_less x d t u : 0 <= x < 60 -> d = 2 \/ d = 12 -> 1 <= u - t <= 46 -> waited x d u = false -> wait x d u < wait x d t.
Proof.
  intros Hx Hd Hu HW. unfold waited in HW. pose proof (secs_range u) as HS. rewrite (u8_id x) in HW by (red; lia). unfold getElapsedSecondsLT in HW.
  assert (HE : (u - x) mod 60 <= d).
  { destruct (secs u >=? x) eqn:E; rewrite u8_id in HW by (red; lia); unfold secs in *; Z.div_mod_to_equations; lia. }
  unfold wait. cbv zeta. pose proof (Z.mod_pos_bound (u - x) 60 ltac:(lia)). replace ((u - x) mod 60 <=? d) with true by lia.
  pose proof (Z.mod_pos_bound (t - x) 60 ltac:(lia)). destruct ((t - x) mod 60 <=? d) eqn:E; [|lia].
  assert ((u - x) mod 60 = (t - x) mod 60 + (u - t)); [|lia].
  assert (0 <= (t - x) mod 60 + (u - t) < 60) by lia.
  replace (u - x) with ((t - x) + (u - t)) by lia. rewrite Z.add_mod by lia. rewrite (Z.mod_small (u - t)) by lia. apply Z.mod_small. lia.
Qed.
Lemma wait_secs u : wait (secs u) 2 u = 3 /\ wait (secs u) 12 u = 13.
Proof.
  unfold wait, secs. cbv zeta. replace ((u - u mod 60) mod 60) with 0; [split; reflexivity|]. Z.div_mod_to_equations; lia.
Qed.
Definition sound (m : Mod) : Prop := 0 <= srch m <= 29.
Lemma measure_range s m t : wf s -> 1 <= measure s m t <= most.
Proof.
  intros W. unfold measure, most. pose proof (w_ret _ W) as HR. pose proof (w_st _ W) as HI.
  pose proof (wait_range (retryT s) 2 t ltac:(lia)). pose proof (wait_range (powerT s) 2 t ltac:(lia)). pose proof (wait_range (powerT s) 12 t ltac:(lia)).
  assert (HT : 4 * retries s <= tries s t <= 4 * retries s + 14) by (unfold tries; destruct (retryT s =? -1); lia).
  destruct (doomed s); revert HR HI; destruct (st s); intros HR HI; try (destruct HI; congruence); cbn [SSt_eqb] in HR; destruct (good s m); destruct (on m); lia.
Qed.

Lemma sound_step look m o : 0 <= look <= 29 -> sound m -> sound (mod_step look m o).
Proof.
  intros HL HM. unfold sound in *. destruct o as [c|b|[|]]; cbn [mod_step].
  - destruct (on m); [|exact HM]. destruct c; destruct (conn m); cbn [srch]; try exact HM; destruct (srch m =? 0) eqn:E; lia.
  - destruct (on m); [|exact HM]. destruct (conn m); try exact HM. destruct (expc m); exact HM.
  - exact HM.
  - cbn [srch]. exact HL.
Qed.
Lemma sound_steps look : forall o m, 0 <= look <= 29 -> sound m -> sound (fold_left (mod_step look) o m).
Proof. induction o as [|x o IH]; intros m HL HM; cbn [fold_left]; [exact HM|]. apply IH; [exact HL|]. apply sound_step; assumption. Qed.

Section Progress.
Variables (apn udp : list Z) (look : Z).
Hypotheses (HA : echo apn) (HU : echo udp) (HL : 0 <= look <= 29).
Ltac red_all := unfold measure, good, doomed, tries, onStateChange, setRetryLock in *; sim_red; cbn [on conn srch expc got isc andb orb fold_left mod_step negb] in *.
Definition post (s : Sim) (m : Mod) (t u : Z) (s' : Sim) (m' : Mod) (o : list SOut) : Prop :=
    (queue s' = 1 /\ msgLen s' = msgLen s /\ txq s' = txq s /\ has_frame o = false /\ got m' = got m /\ measure s' m' u < measure s m t /\
       ((st s = INIT_SEND \/ st s = WRITE_PACKET -> good s m = true) -> st s' = INIT_SEND \/ st s' = WRITE_PACKET -> good s' m' = true)) \/
     (let b := firstn (Z.to_nat (msgLen s)) (txq s) in o = [OFrame b] /\
       ((st s = INIT_SEND \/ st s = WRITE_PACKET -> good s m = true) -> got m' = got m ++ [b])).
Lemma prog_lock s m t u : wf s -> sound m -> queue s = 1 -> 1 <= u - t <= 46 -> retryT s <> -1 ->
  post s m t u (retryLockOut s u) m [].
Proof.
  intros W HM HQ Hu HR. left. destruct (w_lock _ W) as [|(HR2 & HT & HO)]; [contradiction|]. unfold sound in HM.
  assert (HN : st s <> INIT_SEND /\ st s <> WRITE_PACKET) by (split; intros E; rewrite E in HT; discriminate).
  pose proof (wait_range (retryT s) 2 t ltac:(lia)) as HW.
  unfold retryLockOut. destruct (0 =? retries s) eqn:E0; [|destruct (waited (retryT s) 2 u) eqn:EW].
  - assert (HG : good s m = false).
    { unfold good. destruct (st s); try discriminate; destruct (on m); cbn [andb]; try reflexivity; destruct (conn m); cbn [isc andb orb]; try reflexivity; lia. }
    repeat split; try assumption; try (sim_red; intros _ [|]; discriminate).
    unfold measure at 1. cbn [st set_st doomed]. unfold measure. rewrite HG.
    assert (HTr : 0 <= tries s t) by (unfold tries; destruct (retryT s =? -1); lia).
    assert (HD : 0 <= if doomed s then 1400 else 0) by (destruct (doomed s); lia).
    destruct (st s); try discriminate; lia.
  - repeat split; try assumption; [|intros _ [|]; tauto].
    unfold measure. change (doomed (set_retry s (retries s) (-1))) with (doomed s). change (good (set_retry s (retries s) (-1)) m) with (good s m).
    change (st (set_retry s (retries s) (-1))) with (st s).
    assert (HTr : tries (set_retry s (retries s) (-1)) u < tries s t).
    { unfold tries. sim_red. change (-1 =? -1) with true. replace (retryT s =? -1) with false by lia. lia. }
    destruct (st s); try discriminate; lia.
  - repeat split; try assumption; [|intros _ [|]; tauto].
    unfold measure.
    assert (HTr : tries s u < tries s t).
    { unfold tries. replace (retryT s =? -1) with false by lia. pose proof (wait_less (retryT s) 2 t u HR2 ltac:(lia) Hu EW). lia. }
    destruct (st s); try discriminate; lia.
Qed.
Lemma sub_ok (l : list Z) n : 0 <= n <= Zlen l -> sub l 0 n = Some (firstn (Z.to_nat n) l).
Proof. intros H. unfold sub. replace ((0 <=? 0) && (0 <=? n) && (0 + n <=? Zlen l)) with true by lia. reflexivity. Qed.
Ltac meas := change (-1 =? -1) with true in *; cbv iota in *; repeat match goal with |- context[if ?c then _ else _] => destruct c eqn:? end; try lia.
Ltac fin := unfold post; left; red_all; repeat match goal with |- _ /\ _ => split end;
  lazymatch goal with |- _ = _ => reflexivity | |- _ < _ => idtac | |- _ => first [intros _ [|]; discriminate | idtac] end.
Lemma prog_machine s m t u : wf s -> sound m -> queue s = 1 -> 1 <= u - t <= 46 -> retryT s = -1 -> msgCtr s <> 255 ->
  exists s1 o, machine s (mkSEnv u true (answer apn udp m)) = Some (s1, o) /\
    post s m t u (onStateChange s1) (fold_left (mod_step look) o m) o.
Proof.
  intros [W1 W2 W3 W4 W5 W6 W7 W8 W9 W10 W11 W12] HM HQ Hu HR HC. unfold sound in HM.
  pose proof (i8_secs u) as HI. pose proof (secs_range u) as HS. destruct (wait_secs u) as [HW2 HW12].
  pose proof (wait_range (powerT s) 2 t ltac:(lia)) as HWa. pose proof (wait_range (powerT s) 12 t ltac:(lia)) as HWb.
  destruct s as [x ox av pw mc re rt qu ml tx]. destruct m as [mon mcn msr mex mgo]. sim_red. cbn [srch] in HM. subst rt qu.
  unfold machine. cbv zeta. cbn [st now ans].
  destruct x; try (destruct W1; congruence).
  - (* GET_STATE *)
    destruct W8 as [-> | W8]; [|discriminate]. rewrite v_reply by assumption. cbn [bind on]. rewrite HI.
    eexists _, _; split; [reflexivity|]. destruct mon; red_all; fin; rewrite ?HW2; try lia.
  - destruct W8 as [-> | W8]; [|discriminate].
    sim_red. destruct (waited pw 2 u) eqn:EW; eexists _, _; (split; [reflexivity|]).
    + pose proof (wait_range pw 12 u ltac:(lia)). red_all. fin. destruct mon; red_all; lia.
    + pose proof (wait_less pw 2 t u W6 ltac:(lia) Hu EW). red_all. fin; meas.
  - destruct W8 as [-> | W8]; [|discriminate].
    sim_red. destruct (waited pw 12 u) eqn:EW; eexists _, _; (split; [reflexivity|]).
    + red_all. fin. destruct mon; red_all; [destruct mcn; red_all|]; lia.
    + pose proof (wait_less pw 12 t u W6 ltac:(lia) Hu EW). red_all. fin; meas.
  - (* START_UP *)
    destruct W8 as [-> | W8]; [|discriminate]. rewrite v_reply by assumption. cbn [bind on].
    eexists _, _; split; [reflexivity|]. destruct mon; [destruct mcn|]; red_all; fin; meas.
  - (* CHECK_PIN *)
    destruct W8 as [-> | W8]; [|discriminate]. rewrite v_pin by assumption. cbn [bind on]. specialize (W10 eq_refl eq_refl).
    assert (HRe : (0 =? re) = false) by lia. assert (HSe : (secs u =? -1) = false) by lia.
    destruct mon; [destruct mcn|]; (eexists _, _; split; [reflexivity|]); fin; rewrite ?HRe; cbn [negb]; rewrite ?HI, ?HW2, ?HSe; meas.
  - (* WAIT_FOR_REGISTRATION *)
    destruct W8 as [-> | W8]; [|discriminate]. rewrite v_reg by assumption. cbn [bind on srch]. specialize (W10 eq_refl eq_refl).
    assert (HRe : (0 =? re) = false) by lia. assert (HSe : (secs u =? -1) = false) by lia.
    destruct mon; [destruct (msr =? 0) eqn:E0; destruct mcn|]; cbn [andb]; (eexists _, _; split; [reflexivity|]); fin; rewrite ?HRe; cbn [negb]; rewrite ?HI, ?HW2, ?HSe, ?E0; meas.
  - (* SET_APN *)
    destruct W8 as [-> | W8]; [|discriminate]. rewrite v_apn by assumption. cbn [bind on conn]. specialize (W10 eq_refl eq_refl).
    assert (HRe : (0 =? re) = false) by lia. assert (HSe : (secs u =? -1) = false) by lia.
    destruct mon; [destruct mcn|]; (eexists _, _; split; [reflexivity|]); fin; rewrite ?HRe; cbn [negb]; rewrite ?HI, ?HW2, ?HSe; meas.
  - (* START_GPRS *)
    destruct W8 as [-> | W8]; [|discriminate]. rewrite v_udp by assumption. specialize (W10 eq_refl eq_refl).
    assert (HRe : (0 =? re) = false) by lia. assert (HSe : (secs u =? -1) = false) by lia.
    destruct (v_gprs apn udp {| on := mon; conn := mcn; srch := msr; expc := mex; got := mgo |}) as [g EG].
    cbn [bind on conn]. destruct mon; [destruct mcn|]; cbn [on conn] in *; rewrite ?EG; cbn [bind];
    match goal with |- context[if 3 =? ?k then _ else _] => change (3 =? k) with (ltac:(let v := eval vm_compute in (3 =? k) in exact v)) end; cbv iota;
    try match goal with |- context[if 0 =? ?k then _ else _] => change (0 =? k) with (ltac:(let v := eval vm_compute in (0 =? k) in exact v)) end; cbv iota;
    rewrite ?EG; cbn [bind];
    (eexists _, _; split; [reflexivity|]); fin; rewrite ?HRe; cbn [negb]; rewrite ?HI, ?HW2, ?HSe; meas.
  - (* GET_IP *)
    destruct W8 as [-> | W8]; [|discriminate].
    destruct (v_ip apn udp {| on := mon; conn := mcn; srch := msr; expc := mex; got := mgo |}) as [g EG]. rewrite EG. cbn [bind].
    destruct mon; [destruct mcn|]; (eexists _, _; split; [reflexivity|]); fin; rewrite ?HRe; cbn [negb]; rewrite ?HI, ?HW2, ?HSe; meas.
  - (* OPEN_UDP *)
    destruct W8 as [-> | W8]; [|discriminate]. rewrite v_open by assumption. cbn [bind on conn]. specialize (W10 eq_refl eq_refl).
    assert (HRe : (0 =? re) = false) by lia. assert (HSe : (secs u =? -1) = false) by lia.
    destruct mon; [destruct mcn|]; (eexists _, _; split; [reflexivity|]); fin; rewrite ?HRe; cbn [negb]; rewrite ?HI, ?HW2, ?HSe; meas.
  - (* IDLE *)
    destruct W8 as [-> | W8]; [|discriminate]. cbn [queue]. change (1 >? 0) with true. cbv iota.
    destruct mon; [destruct mcn|]; (eexists _, _; split; [reflexivity|]); fin; rewrite ?HRe; cbn [negb]; rewrite ?HI, ?HW2, ?HSe; meas.
  - (* WAIT_FOR_UDP *)
    destruct W8 as [-> | W8]; [|discriminate]. rewrite v_udp by assumption. cbn [bind on conn]. specialize (W10 eq_refl eq_refl).
    assert (HRe : (0 =? re) = false) by lia. assert (HSe : (secs u =? -1) = false) by lia.
    destruct mon; [destruct mcn|]; cbv iota;
    repeat match goal with |- context[if ?k =? ?j then set_st _ _ else _] => change (k =? j) with (ltac:(let v := eval vm_compute in (k =? j) in exact v)); cbv iota end;
    (eexists _, _; split; [reflexivity|]); fin; rewrite ?HRe; cbn [negb]; rewrite ?HI, ?HW2, ?HSe; meas.
  - (* INIT_SEND *)
    destruct W8 as [-> | W8]; [|discriminate]. rewrite v_reply by assumption. cbn [bind on].
    assert (HB : mc <> 254 \/ mc = 254) by lia.
    exists (set_st (set_ctr (mkSim INIT_SEND INIT_SEND av pw mc re (-1) 1 ml tx) (u8 (mc + 1))) WRITE_PACKET), [OCmd AT; OCmd (CIPSEND ml)].
    split; [destruct mon; reflexivity|]. rewrite u8_id by (red; lia).
    destruct mon; [destruct mcn|]; fin; meas; intros HX _; specialize (HX (or_introl eq_refl)); try discriminate; lia.
  - (* WRITE_PACKET *)
    destruct W8 as [-> | W8]; [|discriminate]. cbn [txq msgLen]. rewrite sub_ok by lia. cbn [bind].
    eexists _, _; split; [reflexivity|]. right. cbv zeta. sim_red. split; [reflexivity|]. intros HX. specialize (HX (or_intror eq_refl)).
    unfold good in HX. cbn [on conn st expc msgLen] in HX. destruct mon; [|discriminate]. destruct mcn; try discriminate. destruct mex as [n|]; [|discriminate].
    cbn [isc andb] in HX. cbn [fold_left mod_step on conn expc got].
    rewrite Zlen_firstn, W3. replace (n =? Z.min _ _) with true by lia. reflexivity.
  - (* RESET *)
    eexists _, _; split; [reflexivity|]. destruct ox; destruct mon; fin; rewrite ?HRe; cbn [negb]; rewrite ?HI, ?HW2, ?HSe; meas.
Qed.
Lemma progress s m t u : wf s -> sound m -> queue s = 1 -> 1 <= u - t <= 46 ->
  exists s' m' o, co_step apn udp look (s, m) u = Some (s', m', o) /\ wf s' /\ sound m' /\ post s m t u s' m' o.
Proof.
  intros W HM HQ Hu. unfold co_step. cbn [fst snd]. set (e := mkSEnv u true (answer apn udp m)).
  assert (HP : exists s' o, poll s e = Some (s', o) /\ post s m t u s' (fold_left (mod_step look) o m) o).
  { unfold poll. destruct (-1 =? retryT s) eqn:E1; cbn [negb].
    2:{ eexists _, _. split; [reflexivity|]. apply prog_lock; auto. lia. }
    destruct (255 =? msgCtr s) eqn:E2.
    { eexists _, _. split; [reflexivity|]. assert (HW : st s = WRITE_PACKET) by (apply (w_255 _ W); lia).
      left. repeat match goal with |- _ /\ _ => split end; try reflexivity; try assumption.
      - unfold measure, doomed. cbn [st set_st set_ctr]. rewrite HW. replace (msgCtr s =? 255) with true by lia. lia.
      - intros _ [|]; discriminate. }
    cbn [near e negb]. destruct (prog_machine s m t u W HM HQ Hu ltac:(lia) ltac:(lia)) as (s1 & o & E & HP).
    unfold e. rewrite E. cbn [bind]. eauto. }
  destruct HP as (s' & o & E & HP). rewrite E. cbn [bind]. exists s', (fold_left (mod_step look) o m), o.
  split; [reflexivity|]. split; [exact (wf_poll _ _ _ _ W E)|]. split; [apply sound_steps; assumption|exact HP].
Qed.
Lemma delivers : forall (n : nat) s m t ts, wf s -> sound m -> queue s = 1 -> measure s m t <= Z.of_nat n -> (n <= length ts)%nat -> paced t ts ->
  exists ts1 ts2 s' m' o, ts = ts1 ++ ts2 /\ (length ts1 <= n)%nat /\
    co_run apn udp look (s, m) ts1 = Some (s', m', o ++ [OFrame (firstn (Z.to_nat (msgLen s)) (txq s))]) /\ has_frame o = false /\
    ((st s = INIT_SEND \/ st s = WRITE_PACKET -> good s m = true) -> got m' = got m ++ [firstn (Z.to_nat (msgLen s)) (txq s)]).
Proof.
  induction n as [|n IH]; intros s m t ts W HM HQ HX HN HP.
  - pose proof (measure_range s m t W). lia.
  - destruct ts as [|u ts]; cbn [length] in HN; [lia|]. cbn [paced] in HP. destruct HP as [Hu HP].
    destruct (progress s m t u W HM HQ Hu) as (s1 & m1 & o1 & E & W1 & HM1 & HO).
    destruct HO as [(H1 & H2 & H3 & H4 & H5 & H6 & H7) | (H1 & H2)].
    + destruct (IH s1 m1 u ts W1 HM1 H1 ltac:(lia) ltac:(lia) HP) as (ts1 & ts2 & s' & m' & o & -> & HL1 & HR & HF & HG).
      exists (u :: ts1), ts2, s', m', (o1 ++ o). split; [reflexivity|]. split; [cbn [length]; lia|]. cbn [co_run]. rewrite E. cbn [bind]. rewrite HR. cbn [bind].
      rewrite H2, H3, app_assoc. split; [reflexivity|]. split; [unfold has_frame in *; rewrite existsb_app, H4, HF; reflexivity|].
      intros HB. rewrite HG by (apply H7; exact HB). rewrite H2, H3, H5. reflexivity.
    + exists [u], ts, s1, m1, []. split; [reflexivity|]. split; [cbn [length]; lia|]. cbn [co_run]. rewrite E. cbn [bind app]. rewrite H1.
      split; [rewrite app_nil_r; reflexivity|]. split; [reflexivity|exact H2].
Qed.
End Progress.

(** After any history whatever -- whatever the module answered -- with message [b] waiting, from
    the moment the module behaves (be it on or off, and in any connection state), polled every
    1 s to 46 s the link writes exactly [b] within 2700 polls, and before it nothing; and, unless
    it was in the middle of sending, the module transmits it. *)
Theorem sim_delivers : forall apn udp look vs s tr b m t ts,
  echo apn -> echo udp -> 0 <= look <= 29 -> sim_run started vs = Some (s, tr) -> pending tr = Some b ->
  0 <= srch m <= 29 -> paced t ts -> 2700 <= Zlen ts ->
  exists ts1 ts2 s' m' o, ts = ts1 ++ ts2 /\ Zlen ts1 <= 2700 /\ co_run apn udp look (s, m) ts1 = Some (s', m', o ++ [OFrame b]) /\
    (forall b', ~ In (OFrame b') o) /\ (st s <> INIT_SEND -> st s <> WRITE_PACKET -> got m' = got m ++ [b]).
Proof.
  intros apn udp look vs s tr b m t ts HA HU HL HR HP HM HT HN.
  destruct (sim_run_inv holds holds_step vs [] started s tr wf_started eq_refl HR) as [[W HH] _]. cbn [app] in HH.
  unfold holds in HH. rewrite HP in HH. destruct (queue s =? 1) eqn:EQ; [|discriminate]. apply some_inj in HH.
  pose proof (measure_range s m t W) as [_ HX]. unfold most in HX. unfold Zlen in HN.
  destruct (delivers apn udp look HA HU HL (Z.to_nat 2700) s m t ts W HM ltac:(lia) ltac:(lia) ltac:(lia) HT) as (ts1 & ts2 & s' & m' & o & H1 & H2 & H3 & H4 & H5).
  exists ts1, ts2, s', m', o. rewrite <- HH in *. split; [exact H1|]. split; [unfold Zlen; lia|]. split; [exact H3|]. split.
  - intros b' HI. assert (HF : has_frame o = true) by (apply existsb_exists; eexists; split; [exact HI|reflexivity]). congruence.
  - intros HN1 HN2. apply H5. intros [|]; contradiction.
Qed.

(** A message queued when everything is off: a real start, with a module that takes three
    questions to register; it is transmitted by the 39th poll at one every two seconds. *)
Definition apn1 : list Z := chars "AT+CSTT=""everywhere""".
Definition udp1 : list Z := chars "AT+CIPSTART=""UDP"",""0.0.0.0"",""9999""".
Example sim_delivers_ex :
  echo apn1 /\ echo udp1 /\
  (exists s tr, sim_run started [EQueue (Some [104; 105])] = Some (s, tr) /\ pending tr = Some [104; 105] /\
     match co_run apn1 udp1 3 (s, mkMod false MInit 0 None []) (map (fun k => 2 * Z.of_nat k) (seq 1 39)) with
     | Some (_, m', _) => got m' = [[104; 105]]
     | None => False
     end).
Proof.
  split; [|split].
  - split; [vm_compute; discriminate|vm_compute; intuition discriminate].
  - split; [vm_compute; discriminate|vm_compute; intuition discriminate].
  - eexists _, _. split; [reflexivity|]. split; [reflexivity|]. vm_compute. reflexivity.
Qed.
