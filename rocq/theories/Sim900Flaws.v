(** SIM900 link: answers that are safe to give (C121), and where the code falls short. *)
From Verif Require Import Base RtcModel Sim900Model Sim900Props Sim900Hist Sim900Bounds Sim900Timing Sim900Live.

(** ** C121: answers and memory *)
Lemma sub_ok (l : list Z) n : 0 <= n <= Zlen l -> sub l 0 n = Some (firstn (Z.to_nat n) l).
Proof. intros H. unfold sub. replace ((0 <=? 0) && (0 <=? n) && (0 + n <=? Zlen l)) with true by lia. reflexivity. Qed.
Lemma poll_safe s e : wf s -> (forall c, tame c (ans e c)) -> exists x, poll s e = Some x.
Proof.
  intros W HT. unfold poll. destruct (negb (-1 =? retryT s)); [eexists; reflexivity|]. destruct (255 =? msgCtr s); [eexists; reflexivity|].
  destruct (negb (near e)); [eexists; reflexivity|].
  enough (HM : exists x, machine s e = Some x) by (destruct HM as [[s1 o] ->]; cbn [bind]; eexists; reflexivity).
  unfold machine. cbv zeta.
  destruct (p_reply (ans e AT)) as [b1 E1]. destruct (p_pin _ (HT CPIN)) as [b2 E2]. destruct (p_reg _ (HT CREG)) as [b3 E3].
  destruct (p_apn _ (HT CSTT)) as [b4 E4]. destruct (p_udp _ (HT CIPSTATUS)) as [b5 E5]. destruct (p_gprs _ (HT CIICR)) as [b6 E6].
  destruct (p_ip _ (HT CIFSR)) as [b7 E7]. destruct (p_open _ (HT CIPSTART)) as [b8 E8].
  rewrite E1, E2, E3, E4, E5, E6, E7, E8. cbn [bind].
  destruct (st s) eqn:ES; try (eexists; reflexivity).
  - destruct (waited _ _ _); eexists; reflexivity.
  - destruct (waited _ _ _); eexists; reflexivity.
  - destruct (3 =? b5); [eexists; reflexivity|]. destruct (0 =? b5); eexists; reflexivity.
  - match goal with |- context[if 0 <? ?q then _ else _] => destruct (0 <? q) end; eexists; reflexivity.
  - rewrite sub_ok by (rewrite (w_txq _ W); apply (w_len _ W)). cbn [bind]. eexists; reflexivity.
Qed.
(** If no answer has its first marker among the last four characters that fit the buffer, no
    history reads outside a buffer. *)
Theorem sim_safe_partial : forall vs, (forall e c, In (EPoll e) vs -> tame c (ans e c)) -> exists x, sim_run started vs = Some x.
Proof.
  assert (H : forall vs s, wf s -> (forall e c, In (EPoll e) vs -> tame c (ans e c)) -> exists x, sim_run s vs = Some x).
  { induction vs as [|v vs IH]; intros s W HT; cbn [sim_run]; [eexists; reflexivity|].
    assert (HS : exists x, sim_step s v = Some x).
    { destruct v as [e|b|]; cbn [sim_step]; [|eexists; reflexivity|eexists; reflexivity].
      apply poll_safe; [exact W|]. intros c. apply HT. left. reflexivity. }
    destruct HS as [[s1 o] E]. rewrite E. cbn [bind].
    destruct (IH s1 (wf_step _ _ _ _ W E) (fun e c HI => HT e c (or_intror HI))) as [[s2 t2] ->]. eexists; reflexivity. }
  intros vs HT. apply H; [apply wf_started|exact HT].
Qed.
(** All the answers of a well-behaved module are of that kind; for example: *)
Example sim_safe_ex : forall c, tame c (answer apn1 udp1 (mkMod true MGprs 0 None []) c).
Proof.
  assert (H : forall c a, (match getResponse a (marker c) with Some k => k + 3 <? room c | None => true end) = true -> 0 < marker c -> tame c a).
  { intros c a HG HM x Hx HX HF. left. destruct (getResponse a (marker c)) as [k|] eqn:E.
    - destruct (getResponse_first _ _ _ E) as [H1 H2]. pose proof (getResponse_some _ _ _ E).
      assert (k - 1 = x); [|lia]. destruct (Z.lt_trichotomy (k - 1) x) as [|[|]]; [|assumption|].
      + exfalso. apply (HF (k - 1)); [lia|exact H1].
      + exfalso. apply (H2 x); [lia|exact HX].
    - exfalso. clear HG. revert x Hx HX HF E. induction a as [|y a IH]; intros x Hx HX HF E.
      + change (@Zlen Z []) with 0 in Hx. lia.
      + cbn [getResponse] in E. destruct (y =? marker c) eqn:EY; [discriminate|]. destruct (getResponse a (marker c)) eqn:E2; [discriminate|].
        rewrite Zlen_cons in Hx. rewrite znth_cons in HX by lia. destruct (x =? 0) eqn:E0; [lia|].
        apply (IH (x - 1)); [lia|exact HX| |reflexivity].
        intros j Hj. specialize (HF (j + 1) ltac:(lia)). rewrite znth_cons in HF by lia. replace (j + 1 =? 0) with false in HF by lia.
        replace (j + 1 - 1) with j in HF by lia. exact HF. }
  intros c. apply H; destruct c; vm_compute; reflexivity.
Qed.
(** Without that, it does: a registration answer whose first space is its 64th character makes
    the code look two characters beyond the end of its buffer (.h 700-703). *)
Theorem sim_safe_refuted : exists vs, sim_run started vs = None.
Proof.
  exists (map (fun k => EPoll (mkSEnv (2 * Z.of_nat k) true (fun c => match c with CREG => repeat 65 63 ++ [32] | _ => answer apn1 udp1 (mkMod true MInit 0 None []) c end))) (seq 1 12)).
  vm_compute. reflexivity.
Qed.

(** ** What a misbehaving module can hide *)
(** A module that does not answer at all is taken to have accepted the access point
    ("return(-1)" from a bool function, .h 718). *)
Theorem sim_apn_silent_refuted : exists s s' o, wf s /\ st s = SET_APN /\
  poll s (mkSEnv 0 true (fun _ => [])) = Some (s', o) /\ st s' = START_GPRS.
Proof.
  exists (mkSim SET_APN SET_APN true 0 0 10 (-1) 0 0 (repeat 0 64)). eexists _, _.
  split; [constructor; cbn; try lia; try discriminate; auto; split; discriminate|]. split; [reflexivity|]. split; reflexivity.
Qed.
(** An error from the module in the form the comments document, echo and all, is never
    recognised when opening the socket (.h 966-973: the character looked at is the '\r' of the
    empty line): whatever the module's connection state, opening "succeeds". *)
Theorem sim_open_error_refuted : forall udp c n g, echo udp ->
  openUDP (answer apn1 udp (mkMod true c n None g) CIPSTART) = Some true.
Proof. intros udp c n g HU. exact (v_open apn1 udp (mkMod true c n None g) HU). Qed.
(** A module found dead when about to send is sent the message all the same: the RESET set at
    .h 504 is overwritten. *)
Theorem sim_send_dead_refuted : exists s s' o s'' b, wf s /\ poll s (mkSEnv 0 true (fun _ => [])) = Some (s', [OCmd AT; OCmd (CIPSEND o)]) /\
  st s' = WRITE_PACKET /\ poll s' (mkSEnv 1 true (fun _ => [])) = Some (s'', [OFrame b]) /\ queue s'' = 0.
Proof.
  exists (mkSim INIT_SEND INIT_SEND true 0 0 10 (-1) 1 2 ([104; 105] ++ repeat 0 62)). eexists _, _, _, _.
  split; [constructor; cbn; try lia; try discriminate; auto; split; discriminate|]. repeat split; reflexivity.
Qed.
(** A message queued after begin() and before the first poll is accepted and then lost. *)
Theorem sim_early_message_refuted : forall b e, Zlen b <= 64 -> near e = true ->
  snd (queueToSend (fst (sim_begin (sim0 (repeat 0 64)))) (Some b)) = true /\
  poll (fst (queueToSend (fst (sim_begin (sim0 (repeat 0 64)))) (Some b))) e = Some (started, []).
Proof.
  intros b e Hb HN. cbn [sim_begin fst queueToSend]. replace (Zlen b >? 64) with false by lia. split; [reflexivity|].
  cbn [fst]. unfold poll. cbn [retryT set_queue set_st sim0 msgCtr]. rewrite HN. reflexivity.
Qed.
(** Queueing a second message between the announcement of the first and its writing makes the
    length announced wrong (the full C116 does not hold). *)
Definition at_poll (c : Conn) (t : Z) : SEv := EPoll (mkSEnv t true (answer apn1 udp1 (mkMod true c 0 None []))).
Definition two_messages : list SEv :=
  [EQueue (Some [104; 105])] ++ map (at_poll MInit) [1; 5; 20; 21; 22; 23; 24] ++ map (at_poll MGprs) [25; 26; 27; 28] ++ map (at_poll MConn) [29; 30] ++ [EQueue (Some [1])].
Theorem sim_length_refuted : exists vs s tr e s' b n, sim_run started vs = Some (s, tr) /\ poll s e = Some (s', [OFrame b]) /\
  fst (last_out tr) = [OCmd AT; OCmd (CIPSEND n)] /\ n <> Zlen b.
Proof.
  exists two_messages. destruct (sim_run started two_messages) as [[s tr]|] eqn:E; [|vm_compute in E; discriminate].
  assert (H1 : match sim_run started two_messages with Some (s, tr) => Some (s, fst (last_out tr)) | None => None end =
    Some (mkSim WRITE_PACKET WRITE_PACKET true 1 1 10 (-1) 1 1 ([1; 105] ++ repeat 0 62), [OCmd AT; OCmd (CIPSEND 2)])) by (vm_compute; reflexivity).
  rewrite E in H1. apply some_pair_inj in H1. destruct H1 as [-> H2].
  exists (mkSim WRITE_PACKET WRITE_PACKET true 1 1 10 (-1) 1 1 ([1; 105] ++ repeat 0 62)), tr, (mkSEnv 31 true (fun _ => [])).
  eexists _, [1], 2. split; [reflexivity|]. split; [reflexivity|]. split; [exact H2|]. vm_compute. discriminate.
Qed.

(** ** Blocking sends *)
(** sendRaw writes the frame exactly when the module's prompt '>' is read while the clock still
    shows at most the next second; then it returns true. *)
Lemma flush_true : forall endT c reads, flush_loop endT c reads = Some true ->
  exists r1 t x r2, reads = r1 ++ (t, x) :: r2 /\ u8 x = c /\ Forall (fun r => secs (fst r) <= endT) (r1 ++ [(t, x)]).
Proof.
  intros endT c. induction reads as [|[t x] r IH]; intros H; cbn [flush_loop] in H; [discriminate|].
  destruct (secs t <=? endT) eqn:E1; cbn [negb] in H; [|discriminate]. destruct (u8 x =? c) eqn:E2.
  - exists [], t, x, r. split; [reflexivity|]. split; [lia|]. constructor; [cbn [fst]; lia|constructor].
  - destruct (IH H) as (r1 & t' & x' & r2 & -> & Hx & HF). exists ((t, x) :: r1), t', x', r2. split; [reflexivity|]. split; [exact Hx|].
    constructor; [cbn [fst]; lia|exact HF].
Qed.
Theorem sim_sendRaw : forall s b t0 reads s' o r, sendRaw s b t0 reads = (s', o, r) ->
  (r = Some true <-> In (OFrame b) o) /\ (forall b', In (OFrame b') o -> b' = b) /\ In (OCmd (CIPSEND (Zlen b))) o /\
  (r = Some true -> exists r1 t x r2, reads = r1 ++ (t, x) :: r2 /\ u8 x = 62 /\ Forall (fun r => secs (fst r) <= secs t0 + 1) (r1 ++ [(t, x)])).
Proof.
  intros s b t0 reads s' o r H. unfold sendRaw in H. cbv zeta in H.
  assert (HX : flushUntil t0 62 reads = Some true -> exists r1 t x r2, reads = r1 ++ (t, x) :: r2 /\ u8 x = 62 /\ Forall (fun r => secs (fst r) <= secs t0 + 1) (r1 ++ [(t, x)])).
  { intros HF. apply flush_true in HF. pose proof (secs_range t0). rewrite u8_id in HF by (red; lia). exact HF. }
  destruct (flushUntil t0 62 reads) as [[|]|]; apply pair_inj in H; destruct H as [H <-]; apply pair_inj in H; destruct H as [_ <-]; cbn [In].
  - split; [split; [auto|reflexivity]|]. split; [intros b' [HI | [HI | []]]; congruence|]. auto.
  - split; [split; [discriminate|intros [HI | []]; discriminate]|]. split; [intros b' [HI | []]; discriminate|]. split; [auto|discriminate].
  - split; [split; [discriminate|intros [HI | []]; discriminate]|]. split; [intros b' [HI | []]; discriminate|]. split; [auto|discriminate].
Qed.
(** Begun before second 58 of a minute it gives up once the clock shows two seconds more. *)
Theorem sim_flush_ends_partial : forall t0 reads r1 t x r2, secs t0 <= 57 -> reads = r1 ++ (t, x) :: r2 ->
  t0 + 2 <= t -> t <= t0 + (59 - secs t0) -> flushUntil t0 62 reads <> None.
Proof.
  intros t0 reads r1 t x r2 H0 -> H1 H2. unfold flushUntil. pose proof (secs_range t0). rewrite u8_id by (red; lia).
  assert (HT : secs t > secs t0 + 1).
  { unfold secs in *. replace t with (t0 mod 60 + (t - t0) + (t0 / 60) * 60) by (Z.div_mod_to_equations; lia).
    rewrite Z.mod_add by lia. rewrite Z.mod_small by lia. lia. }
  induction r1 as [|[u y] r1 IH]; cbn [app flush_loop].
  - replace (secs t <=? secs t0 + 1) with false by lia. discriminate.
  - destruct (negb _); [discriminate|]. destruct (u8 y =? 62); [discriminate|exact IH].
Qed.
(** Begun in second 58 or 59 it waits for ever if the prompt does not come: the deadline is a
    second that no clock reading exceeds (.h 903-905). *)
Theorem sim_flush_ends_refuted : forall t0 reads, 58 <= secs t0 -> Forall (fun r => u8 (snd r) <> 62) reads -> flushUntil t0 62 reads = None.
Proof.
  intros t0 reads H0 HF. unfold flushUntil. pose proof (secs_range t0). rewrite u8_id by (red; lia).
  induction HF as [|[t x] r Hx HF IH]; cbn [flush_loop]; [reflexivity|]. pose proof (secs_range t). cbn [snd] in Hx.
  replace (secs t <=? secs t0 + 1) with true by lia. replace (u8 x =? 62) with false by lia. exact IH.
Qed.
Example sim_flush_ex : flushUntil 58 62 [(58, -1); (65, -1); (600, -1)] = None /\ flushUntil 57 62 [(57, -1); (59, -1)] = Some false /\
  flushUntil 57 62 [(57, 10); (58, 62)] = Some true.
Proof. repeat split. Qed.

(** Polled exactly once a minute the link never finishes powering up. *)
Theorem sim_once_a_minute_refuted : forall (vs : list SEv), Forall (fun v => exists e k, v = EPoll e /\ now e = 60 * k) vs ->
  forall s, wf s -> st s = WAIT_PWR_HIGH -> powerT s = 0 -> retryT s = -1 -> msgCtr s = 0 ->
  exists tr, sim_run s vs = Some (s, tr) /\ Forall (fun x => snd x = []) tr.
Proof.
  induction vs as [|v vs IH]; intros HF s W HS HP HR HC; [exists []; split; [reflexivity|constructor]|].
  inversion HF as [|? ? (e & k & -> & Hk) HF2]; subst. destruct (IH HF2 s W HS HP HR HC) as (tr & E & HT).
  exists ((EPoll e, []) :: tr). split; [|constructor; [reflexivity|exact HT]]. cbn [sim_run sim_step].
  assert (HPo : poll s e = Some (s, [])).
  { unfold poll. rewrite HR, HC. change (negb (-1 =? -1)) with false. change (255 =? 0) with false. cbv iota. destruct (near e); [|reflexivity].
    cbn [negb]. unfold machine. rewrite HS. cbv zeta. rewrite HP.
    assert (HW : waited 0 2 (now e) = false).
    { unfold waited, secs. rewrite Hk, Z.mul_comm, Z_mod_mult. reflexivity. }
    rewrite HW. cbn [bind]. unfold onStateChange. destruct (w_old _ W) as [-> | HX]; [|congruence].
    replace (SSt_eqb (st s) (st s)) with true by (symmetry; apply SSt_eqb_eq; reflexivity). reflexivity. }
  rewrite HPo. cbn [bind]. rewrite E. reflexivity.
Qed.
(** Such a state is the third of the link's life. *)
Example sim_once_a_minute_ex : match sim_run started [at_poll MInit 60] with
  | Some (s, _) => st s = WAIT_PWR_HIGH /\ powerT s = 0 /\ retryT s = -1 /\ msgCtr s = 0 | None => False end.
Proof. vm_compute. auto. Qed.
(** Non-vacuity of C118-C119: a start-up against a dead module pulses the pin twice. *)
Example sim_power_ex : match sim_run started (map (fun t => EPoll (mkSEnv t true (fun _ => []))) [0; 3; 13; 14; 15; 18; 28; 29]) with
  | Some (_, tr) => map snd tr = [[OCmd AT; OPin true]; [OPin false]; []; [OCmd AT]; [OCmd AT; OPin true]; [OPin false]; []; [OCmd AT]] /\ pin tr = Some (15, false)
  | None => False end.
Proof. vm_compute. auto. Qed.
(** Against a module that never registers: thirty questions, three seconds apart, then a new
    pulse. *)
Example sim_attempts_ex : match sim_run started (map (fun k => EPoll (mkSEnv (3 * Z.of_nat k) true (answer apn1 udp1 (mkMod true MInit 9 None [])))) (seq 1 72)) with
  | Some (_, tr) => cnt CREG (outs tr) = 30 /\ cnt CPIN (outs tr) = 1 /\ Zlen (filter is_high (outs tr)) = 2
  | None => False end.
Proof. vm_compute. auto. Qed.
