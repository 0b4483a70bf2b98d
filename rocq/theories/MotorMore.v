(** C44 (progress, errors), C66 (low supply), C67 (really open), and the refuted claims. *)
From Verif Require Import Base MotorModel MotorCal MotorProps MotorStep MotorTop.

(** ** Error state *)

(** C44.  A driver in error stays in error and never drives the motor again. *)
Theorem motor_error_final g prop os : forall s s' tr, m_state s = Error ->
  run g prop os s = Some (s', tr) -> m_state s' = Error /\ drives tr = [].
Proof.
  induction os as [|o os IH]; intros s s' tr ST; cbn [run].
  - intros E; apply some_pair_inj in E; destruct E as [<- <-]. auto.
  - assert (S1 : exists s1 t1, step g prop o s = Some (s1, t1) /\ m_state s1 = Error /\ drives t1 = []).
    { destruct o as [e | v |]; cbn [step].
      - unfold poll. destruct (poll_late g e); [eexists _, _; split; [reflexivity|]; auto|].
        unfold poll_body. rewrite ST. cbn [bind]. eexists _, _; split; [reflexivity|]; auto.
      - eexists _, _; split; [reflexivity|]; auto.
      - eexists _, _; split; [reflexivity|]. unfold signalValveFitted. rewrite ST. auto. }
    destruct S1 as (s1 & t1 & -> & ST1 & D1). cbn [bind].
    destruct (run g prop os s1) as [[s2 t2]|] eqn:ER; [cbn [bind]|discriminate].
    intros E; apply some_pair_inj in E; destruct E as [<- <-].
    destruct (IH s1 s2 t2 ST1 ER) as [A B]. split; [exact A|]. rewrite drives_app, D1, B. reflexivity.
Qed.

(** ** Progress *)

(** Polls made early enough in the sub-cycle. *)
Definition in_time (g : cfg) (o : op) : bool :=
  match o with OPoll e => e_time e <? g_limit g | _ => false end.
Definition count_in_time (g : cfg) (os : list op) : Z := Zlen (filter (in_time g) os).

Definition start_left (s : mst) : Z :=
  match m_state s with
  | Init => 138
  | InitWaiting => 137 - m_waited s
  | PinWithdrawing => 121 - m_wall s
  | _ => 0
  end.

Lemma start_left_step g prop o s s' tr : cfg_ok g -> op_ok o -> inv g prop s -> step g prop o s = Some (s', tr) ->
  start_left s' <= Z.max 0 (start_left s - (if in_time g o then 1 else 0)).
Proof.
  intros G OO I E. destruct (step_ok _ _ _ _ _ _ G OO I E) as (I' & ED & _).
  destruct o as [e | v |]; cbn [step in_time] in *.
  - unfold poll in E. destruct (poll_late g e) eqn:L; unfold poll_late in L.
    + apply some_pair_inj in E. destruct E as [<- _]. replace (e_time e <? g_limit g) with false by lia. lia.
    + replace (e_time e <? g_limit g) with true by lia.
      destruct (poll_body g prop e s) as [[s1 t1]|] eqn:PB; [|discriminate]. cbn [bind] in E.
      apply some_pair_inj in E. destruct E as [<- _]. unfold poll_body in PB.
      destruct I as [c1 c2 c3 c4 c5 c6 c7 c8 c9 c10 c11 c12 c13 c14].
      destruct (m_state s) eqn:ST; unfold start_left at 2; rewrite ST.
      * apply some_pair_inj in PB. destruct PB as [<- _]. cbn. lia.
      * destruct (m_waited s <? 15) eqn:W; apply some_pair_inj in PB; destruct PB as [<- _].
        -- unfold start_left. cbn [m_state m_waited set_waited]. rewrite ST. rewrite (u8_id (m_waited s + 1)) by (unfold byte; lia). lia.
        -- unfold start_left. cbn [wiggle fst tick]. destruct prop; cbn [m_state m_wall set_state]; lia.
      * change (m_wall (set_wall s (u8 (m_wall s + 1)))) with (u8 (m_wall s + 1)) in PB.
        rewrite (u8_id (m_wall s + 1)) in PB by (unfold byte; lia).
        destruct (m_wall s + 1 >? maxTravel) eqn:WT; unfold maxTravel in WT.
        -- apply some_pair_inj in PB. destruct PB as [<- _]. cbn. lia.
        -- destruct (pulses g prop true maxHits (e_pulses e) (set_wall s (m_wall s + 1))) as [[[s5 conf] tr5]|] eqn:PE; [|discriminate].
           destruct (pulses_spec g prop true maxHits G ltac:(unfold maxHits; lia) (e_pulses e)
                (set_wall s (m_wall s + 1)) s5 conf tr5 (proj2 OO) ltac:(unfold maxHits; cbn; lia) c3 c4 PE) as (a & b & h & -> & _).
           cbn [bind] in PB. apply some_pair_inj in PB. destruct PB as [<- _]. destruct conf; [cbn; lia|].
           unfold start_left. cbn [m_state m_wall set_hits set_ticks set_wall m_waited]. rewrite ST. lia.
      * unfold start_left. destruct ED as [<- | ED]; [lia|]. destruct (m_state s1); try contradiction; lia.
      * unfold start_left. destruct ED as [<- | ED]; [lia|]. destruct (m_state s1); try contradiction; lia.
      * unfold start_left. destruct ED as [<- | ED]; [lia|]. destruct (m_state s1); try contradiction; lia.
      * congruence.
      * unfold start_left. destruct ED as [<- | ED]; [lia|]. destruct (m_state s1); try contradiction; lia.
  - apply some_pair_inj in E. destruct E as [<- _]. unfold start_left. cbn. destruct (m_state s); lia.
  - apply some_pair_inj in E. destruct E as [<- _]. unfold signalValveFitted, start_left.
    destruct (m_state s) eqn:ST; cbn; rewrite ?ST; lia.
Qed.

(** C44 (start-up).  Whatever the hardware does, after 138 polls made in time from power-up the
    driver has finished withdrawing the pin: it waits for the user, has gone further, or has given up
    in the error state. *)
Theorem motor_start_up_bounded g prop os s tr : reachable g prop os s tr -> 138 <= count_in_time g os ->
  m_state s <> Init /\ m_state s <> InitWaiting /\ m_state s <> PinWithdrawing.
Proof.
  intros RE CN. destruct (reachable_inv _ _ _ _ _ RE) as [II _]. destruct RE as (G & F & tfo & rev & A & B & R).
  assert (GEN : forall os s0 s1 t1, Forall op_ok os -> inv g prop s0 -> run g prop os s0 = Some (s1, t1) ->
     start_left s1 <= Z.max 0 (start_left s0 - count_in_time g os)).
  { clear - G. induction os as [|o os IH]; intros s0 s1 t1 F I; cbn [run].
    - intros E; apply some_pair_inj in E; destruct E as [<- <-]. unfold count_in_time. cbn. change (Zlen (@nil op)) with 0. lia.
    - apply Forall_cons_iff in F. destruct F as [FO F].
      destruct (step g prop o s0) as [[s2 t2]|] eqn:ES; [cbn [bind]|discriminate].
      destruct (run g prop os s2) as [[s3 t3]|] eqn:ER; [cbn [bind]|discriminate].
      intros E. apply some_pair_inj in E. destruct E as [<- <-].
      destruct (step_ok _ _ _ _ _ _ G FO I ES) as (I1 & _).
      pose proof (start_left_step _ _ _ _ _ _ G FO I ES) as S1. specialize (IH s2 s3 t3 F I1 ER).
      unfold count_in_time in *. pose proof (Zlen_nonneg (filter (in_time g) os)). cbn [filter]. destruct (in_time g o); rewrite ?Zlen_cons; lia. }
  pose proof (GEN os _ s tr F (power_up_inv g prop tfo rev A B) R) as X.
  change (start_left (power_up tfo rev)) with 138 in X.
  destruct II as [c1 c2 c3 c4 c5 c6 c7 c8 c9 c10 c11 c12 c13 c14].
  unfold start_left in X. destruct (m_state s); repeat split; try discriminate; lia.
Qed.

(** Calibration: measure of what is left. *)
Definition cal_left (s : mst) : Z := (4 - m_calib s) * 121 + 121 - m_wall s.

Lemma cal_left_step g e s s' tr : cfg_ok g -> env_ok e -> inv g true s -> m_state s = Calibrating ->
  calibrate g e s = Some (s', tr) -> m_state s' = Calibrating -> cal_left s' < cal_left s.
Proof.
  intros G [EW EP] I ST. destruct I as [c1 c2 c3 c4 c5 c6 c7 c8 c9 c10 c11 c12 c13 c14].
  unfold calibrate. destruct (shouldDefer e); [intros E; apply some_pair_inj in E; destruct E as [<- _]; discriminate|].
  assert (W8 : u8 (m_wall s + 1) = m_wall s + 1) by (apply u8_id; unfold byte; lia).
  cbn [m_wall set_wall set_recal]. rewrite W8.
  destruct (m_wall s + 1 >? maxTravel) eqn:WT; [intros E; apply some_pair_inj in E; destruct E as [<- _]; discriminate|].
  unfold maxTravel in WT. change (m_calib (set_wall (set_recal s true) (m_wall s + 1))) with (m_calib s).
  destruct (m_calib s =? 0) eqn:K0.
  { intros E; apply some_pair_inj in E; destruct E as [<- _]. intros _. unfold cal_left. cbn [m_state m_waited m_wall m_hits m_calib set_hits set_ticks set_wall set_calib set_recal set_toc set_tco set_state set_tgt]; lia. }
  assert (H0 : m_calib s = 1 \/ m_calib s = 2 \/ m_calib s = 3 -> 0 <= m_hits s < 5).
  { intros X. rewrite ST in c10. replace (m_calib s =? 4) with false in c10 by lia. lia. }
  assert (LOOP : forall o s1 conf tr1, (m_calib s = 1 \/ m_calib s = 2 \/ m_calib s = 3) ->
     pulses g true o (maxHits + 1) (e_pulses e) (set_wall (set_recal s true) (m_wall s + 1)) = Some (s1, conf, tr1) ->
     m_wall s1 = m_wall s + 1 /\ m_calib s1 = m_calib s).
  { intros o s1 conf tr1 KK PE.
    destruct (pulses_spec g true o (maxHits + 1) G ltac:(unfold maxHits; lia) (e_pulses e)
                (set_wall (set_recal s true) (m_wall s + 1)) s1 conf tr1 EP
                ltac:(specialize (H0 KK); unfold maxHits; cbn; lia) c3 c4 PE) as (a & b & h & -> & _). auto. }
  destruct (m_calib s =? 1) eqn:K1.
  { destruct (pulses g true true _ _ _) as [[[s1 conf] tr1]|] eqn:PE; [|discriminate]. cbn [bind].
    destruct (LOOP _ _ _ _ ltac:(lia) PE) as [L1 L2].
    intros E. apply some_pair_inj in E. destruct E as [<- _]. intros _. unfold cal_left. destruct conf; cbn [m_state m_waited m_wall m_hits m_calib set_hits set_ticks set_wall set_calib set_recal set_toc set_tco set_state set_tgt]; lia. }
  destruct (m_calib s =? 2) eqn:K2.
  { destruct (pulses g true false _ _ _) as [[[s1 conf] tr1]|] eqn:PE; [|discriminate]. cbn [bind].
    destruct (LOOP _ _ _ _ ltac:(lia) PE) as [L1 L2].
    intros E. apply some_pair_inj in E. destruct E as [<- _]. intros _. unfold cal_left. destruct conf; cbn [m_state m_waited m_wall m_hits m_calib set_hits set_ticks set_wall set_calib set_recal set_toc set_tco set_state set_tgt]; lia. }
  destruct (m_calib s =? 3) eqn:K3.
  { destruct (pulses g true true _ _ _) as [[[s1 conf] tr1]|] eqn:PE; [|discriminate]. cbn [bind].
    destruct (LOOP _ _ _ _ ltac:(lia) PE) as [L1 L2].
    intros E. apply some_pair_inj in E. destruct E as [<- _]. intros _. unfold cal_left. destruct conf; cbn [m_state m_waited m_wall m_hits m_calib set_hits set_ticks set_wall set_calib set_recal set_toc set_tco set_state set_tgt]; lia. }
  replace (m_calib s =? 4) with true by lia.
  destruct (updateAndCompute _ _ _) as [[c ok]|]; [|discriminate]. cbn [bind].
  intros E; apply some_pair_inj in E; destruct E as [<- _]; discriminate.
Qed.

(** C44 (calibration).  Calibration never lasts more than 605 in-time polls, whatever the hardware
    does: by then the driver has at some point been in normal operation or in error. *)
Theorem motor_calibration_bounded g os s s' tr : cfg_ok g -> inv g true s -> Forall op_ok os ->
  run g true os s = Some (s', tr) -> 605 <= count_in_time g os -> m_state s = Calibrating ->
  exists os1 os2 s1 t1, os = os1 ++ os2 /\ run g true os1 s = Some (s1, t1) /\ (m_state s1 = Normal \/ m_state s1 = Error).
Proof.
  intros G I F R CN ST.
  assert (GEN : forall n os s s' tr, inv g true s -> Forall op_ok os -> m_state s = Calibrating ->
     run g true os s = Some (s', tr) -> cal_left s <= Z.of_nat n -> Z.of_nat n <= count_in_time g os ->
     exists os1 os2 s1 t1, os = os1 ++ os2 /\ run g true os1 s = Some (s1, t1) /\ (m_state s1 = Normal \/ m_state s1 = Error)).
  { clear - G. intros n os. revert n. induction os as [|o os IH]; intros n s s' tr I F ST R CL CN.
    - unfold count_in_time in CN. cbn in CN. change (Zlen (@nil op)) with 0 in CN. destruct I. unfold cal_left in CL. lia.
    - apply Forall_cons_iff in F. destruct F as [FO F]. cbn [run] in R.
      destruct (step g true o s) as [[s2 t2]|] eqn:ES; [cbn [bind] in R|discriminate].
      destruct (run g true os s2) as [[s3 t3]|] eqn:ER; [cbn [bind] in R|discriminate].
      destruct (step_ok _ _ _ _ _ _ G FO I ES) as (I1 & ED & _).
      rewrite ST in ED.
      assert (CASES : m_state s2 = Calibrating \/ m_state s2 = Normal \/ m_state s2 = Error).
      { destruct ED as [<- | ED]; auto. destruct (m_state s2); try contradiction; auto. }
      destruct CASES as [C2 | C2].
      + assert (LESS : cal_left s2 <= cal_left s - (if in_time g o then 1 else 0)).
        { destruct o as [e | v |]; cbn [step in_time] in *.
          - unfold poll in ES. destruct (poll_late g e) eqn:L; unfold poll_late in L.
            + apply some_pair_inj in ES. destruct ES as [<- _]. replace (e_time e <? g_limit g) with false by lia. lia.
            + replace (e_time e <? g_limit g) with true by lia. unfold poll_body in ES. rewrite ST in ES.
              destruct (calibrate g e s) as [[s4 t4]|] eqn:CE; [|discriminate]. cbn [bind] in ES.
              apply some_pair_inj in ES. destruct ES as [<- _].
              pose proof (cal_left_step g e s s4 t4 G FO I ST CE C2). lia.
          - apply some_pair_inj in ES. destruct ES as [<- _]. unfold cal_left. cbn. lia.
          - apply some_pair_inj in ES. destruct ES as [<- _]. unfold signalValveFitted. rewrite ST. lia. }
        assert (POS : 0 < cal_left s2) by (destruct I1; unfold cal_left; lia).
        destruct (IH (if in_time g o then pred n else n) s2 s3 t3 I1 F C2 ER) as (os1 & os2 & s1 & t1 & -> & R1 & D1).
        { destruct (in_time g o); lia. }
        { unfold count_in_time in *. cbn [filter] in CN. destruct (in_time g o); rewrite ?Zlen_cons in CN; lia. }
        exists (o :: os1), os2, s1, (t2 ++ t1). split; [reflexivity|]. split; [|exact D1].
        cbn [run]. rewrite ES. cbn [bind]. rewrite R1. reflexivity.
      + exists [o], os, s2, (t2 ++ []). split; [reflexivity|]. split; [|exact C2].
        cbn [run]. rewrite ES. reflexivity. }
  apply (GEN 605%nat os s s' tr); auto.
  destruct I. unfold cal_left. lia.
Qed.

(** ** C66: low supply *)

(** The end-stop-only driver in normal operation never drives the valve towards closed while the
    supply is low (fail safe: open). *)
Theorem motor_low_supply_binary_partial g os s tr e s' tr' : reachable g false os s tr -> env_ok e ->
  m_state s = Normal -> low e = true -> poll g false e s = Some (s', tr') ->
  forall h, ~ In (false, h) (drives tr').
Proof.
  intros R EO ST LO. destruct (reachable_inv _ _ _ _ _ R) as [I _]. destruct R as (G & _).
  destruct I as [c1 c2 c3 c4 c5 c6 c7 c8 c9 c10 c11 c12 c13 c14].
  unfold poll. destruct (poll_late g e); [intros E; apply some_pair_inj in E; destruct E as [_ <-]; cbn; auto|].
  unfold poll_body. rewrite ST.
  destruct (m_cur s =? m_tgt s) eqn:CT; [cbn [bind]; intros E; apply some_pair_inj in E; destruct E as [_ <-]; cbn; auto|].
  unfold normal_binary. set (o := m_tgt s >=? 50). rewrite LO. cbn [andb].
  destruct ((if o then 100 else 0) =? m_cur s) eqn:AT; [cbn [bind]; intros E; apply some_pair_inj in E; destruct E as [_ <-]; cbn; auto|].
  destruct (m_tgt s <? m_cur s) eqn:TC; [cbn [bind]; intros E; apply some_pair_inj in E; destruct E as [_ <-]; cbn; auto|].
  destruct (e_pulses e) as [|[p t] ps]; [discriminate|]. unfold runTowardsEndStop.
  assert (OP : o = true).
  { unfold o in *. destruct (c12 eq_refl) as [X | X]; rewrite X in *; destruct (m_tgt s >=? 50) eqn:?; try reflexivity; cbn in AT; lia. }
  rewrite OP. intros E h.
  assert (D : drives tr' = [(true, p_hit p)]).
  { destruct (p_hit p); cbn [negb] in E.
    - cbn [bind] in E. apply some_pair_inj in E. destruct E as [_ <-].
      change (drives (Time (e_time e) :: ?x)) with (drives x). apply drives_one. exact G.
    - cbn [recompute andb bind] in E. apply some_pair_inj in E. destruct E as [_ <-].
      change (drives (Time (e_time e) :: ?x)) with (drives x). apply drives_one. exact G. }
  rewrite D. intros [X | []]. discriminate.
Qed.

(** ** C67: really open *)

(** A calibrated proportional driver, and the end-stop-only driver, put the "really open" threshold
    between 1 and 99%, and report the valve really open exactly in normal operation at or above it;
    in particular at 100%. *)
Theorem motor_really_open_partial g prop os s tr : reachable g prop os s tr ->
  (prop = true -> cannotRunProportional (m_cp s) = false) ->
  1 <= getMinPercentOpen prop s <= 99 /\
  (isReallyOpen prop s = true <-> m_state s = Normal /\ getMinPercentOpen prop s <= m_cur s) /\
  (m_state s = Normal -> m_cur s = 100 -> isReallyOpen prop s = true) /\
  (m_cur s = 0 -> isReallyOpen prop s = false).
Proof.
  intros R CP. destruct (reachable_inv _ _ _ _ _ R) as [I _].
  destruct I as [c1 c2 c3 c4 c5 c6 c7 c8 c9 c10 c11 c12 c13 c14].
  assert (M : 1 <= getMinPercentOpen prop s <= 99).
  { unfold getMinPercentOpen. destruct prop; [|lia]. destruct c11 as (_ & B & K). destruct (K (CP eq_refl)) as (P & _).
    rewrite u8_id by (unfold byte; lia). lia. }
  split; [exact M|]. unfold isReallyOpen. split; [|split].
  - destruct (m_state s); split; intros X; try discriminate; try (destruct X; discriminate); [split; [reflexivity|lia]|lia].
  - intros -> ->. lia.
  - intros ->. destruct (m_state s); try reflexivity. lia.
Qed.

(** ** Refuted claims *)

Definition gx : cfg := Cfg 35 200.
Definition ex (t : Z) (lowb quiet : bool) (ps : list (pulse * Z)) : op := OPoll (E t false lowb quiet (P 0 0 false) ps).
Definition hitp (c o : Z) : pulse * Z := (P c o true, 0).
Definition movp (c o : Z) : pulse * Z := (P c o false, 0).
(** Power-up, pin withdrawal (4 hits), fitting, calibration state entered. *)
Definition start_ops : list op :=
  repeat (ex 0 false false []) 17 ++ [ex 0 false false (repeat (hitp 0 0) 4)] ++ [OFitted; ex 0 false false []].
(** Full calibration with 40 pulses of 35 ticks of travel each way. *)
Definition cal_ops : list op :=
  [ex 0 false false []; ex 0 false false (repeat (hitp 0 0) 5);
   ex 0 false false (repeat (movp 35 0) 40 ++ repeat (hitp 0 0) 5);
   ex 0 false false (repeat (movp 0 35) 40 ++ repeat (hitp 0 0) 5); ex 0 false false []].

Lemma gx_ok : cfg_ok gx.
Proof. unfold cfg_ok, gx. cbn. lia. Qed.

Ltac ops_ok := unfold env_ok, pulse_ok, op_ok; cbn; unfold byte; repeat split; try lia;
  repeat (constructor; cbn; [lia || (repeat split; lia)|]); try constructor; cbn; try lia.

Definition op_okb (o : op) : bool :=
  match o with
  | OPoll e => (0 <=? p_close (e_wiggle e)) && (0 <=? p_open (e_wiggle e)) &&
               forallb (fun x => (0 <=? p_close (fst x)) && (0 <=? p_open (fst x))) (e_pulses e)
  | OTarget v => (0 <=? v) && (v <? 256)
  | OFitted => true
  end.
Lemma op_okb_ok os : forallb op_okb os = true -> Forall op_ok os.
Proof.
  intros H. rewrite forallb_forall in H. apply Forall_forall. intros o IN. specialize (H o IN).
  destruct o as [e | v |]; cbn in *; [|unfold byte; lia|exact Logic.I].
  apply andb_prop in H. destruct H as [H1 H2]. split; [unfold pulse_ok; lia|].
  rewrite forallb_forall in H2. apply Forall_forall. intros x X. specialize (H2 x X). unfold pulse_ok. lia.
Qed.

Lemma reach_by g prop os r : cfg_ok g -> forallb op_okb os = true -> run g prop os (power_up 0 0) = Some r ->
  reachable g prop os (fst r) (snd r).
Proof.
  intros G F R. split; [exact G|]. split; [apply op_okb_ok; exact F|]. exists 0, 0.
  unfold u16r. destruct r. repeat split; try lia. exact R.
Qed.

(** The end-stop-only driver in normal operation, then told to close, moved 20 pulses towards closed
    (no end stop reached), then told to open again: it goes on reporting fully open and really open,
    for ever and without driving the motor, though the last thing the motor did was to close. *)
Definition stale_ops : list op :=
  start_ops ++ [ex 0 false false []; OTarget 0] ++ repeat (ex 0 false false [movp 0 0]) 20 ++ [OTarget 100].
Theorem motor_stale_open_refuted :
  exists s tr, reachable gx false stale_ops s tr /\
    m_cur s = 100 /\ m_tgt s = 100 /\ isReallyOpen false s = true /\
    (exists d0, drives tr = d0 ++ repeat (false, false) 20) /\
    (forall es s' tr', run gx false (map OPoll es) s = Some (s', tr') ->
       m_cur s' = 100 /\ isReallyOpen false s' = true /\ drives tr' = []).
Proof.
  destruct (run gx false stale_ops (power_up 0 0)) as [r|] eqn:R; [|vm_compute in R; discriminate].
  pose proof (reach_by gx false stale_ops r gx_ok ltac:(vm_compute; reflexivity) R) as RE.
  destruct r as [s tr]. cbn [fst snd] in RE. exists s, tr. split; [exact RE|].
  assert (S : s = M Normal 0 0 0 0 0 0 false 100 100 cp0 true 0 0 /\ drives tr = repeat (true, true) 4 ++ repeat (false, false) 20).
  { clear RE. vm_compute in R. apply some_pair_inj in R. destruct R as [<- <-]. split; [reflexivity|vm_compute; reflexivity]. }
  destruct S as [-> D]. repeat (split; [reflexivity|]). split; [eauto|].
  induction es as [|e es IH]; intros s' tr'; cbn [map run].
  - intros E; apply some_pair_inj in E; destruct E as [<- <-]. auto.
  - cbn [step]. unfold poll. destruct (poll_late gx e).
    + cbn [bind]. destruct (run gx false (map OPoll es) _) as [[s2 t2]|] eqn:ER; [cbn [bind]|discriminate].
      intros E; apply some_pair_inj in E; destruct E as [<- <-]. destruct (IH s2 t2 eq_refl) as (A & B & C).
      split; [exact A|]. split; [exact B|]. exact C.
    + unfold poll_body. cbn [m_state m_cur m_tgt]. change (100 =? 100) with true. cbn [bind set_hits m_state m_waited m_wall m_calib m_toc m_tco m_fitted m_cur m_tgt m_cp m_recal m_tfo m_rev].
      destruct (run gx false (map OPoll es) _) as [[s2 t2]|] eqn:ER; [cbn [bind]|discriminate].
      intros E; apply some_pair_inj in E; destruct E as [<- <-]. destruct (IH s2 t2 eq_refl) as (A & B & C).
      split; [exact A|]. split; [exact B|]. exact C.
Qed.

(** The proportional driver: calibration deferred (dark room) just after the valve has been run
    closed; it then goes on reporting fully open, and with an open target nothing is done. *)
Definition abort_ops : list op :=
  start_ops ++ [OTarget 100; ex 0 false false []; ex 0 false false (repeat (hitp 0 0) 5);
   ex 0 false false (repeat (movp 35 0) 40 ++ repeat (hitp 0 0) 5); ex 0 false true []].
Theorem motor_aborted_calibration_refuted :
  exists s tr, reachable gx true abort_ops s tr /\ m_state s = Normal /\
    m_cur s = 100 /\ m_tgt s = 100 /\
    (exists d0, drives tr = d0 ++ repeat (false, true) 5) /\
    (forall e s' tr', poll gx true e s = Some (s', tr') -> m_cur s' = 100 /\ drives tr' = []).
Proof.
  destruct (run gx true abort_ops (power_up 0 0)) as [r|] eqn:R; [|vm_compute in R; discriminate].
  pose proof (reach_by gx true abort_ops r gx_ok ltac:(vm_compute; reflexivity) R) as RE.
  destruct r as [s tr]. cbn [fst snd] in RE. exists s, tr. split; [exact RE|].
  assert (S : s = M Normal 0 0 0 0 0 0 false 100 100 cp0 true 1400 0 /\
     drives tr = (repeat (true, true) 9 ++ repeat (false, false) 40) ++ repeat (false, true) 5).
  { clear RE. vm_compute in R. apply some_pair_inj in R. destruct R as [<- <-]. split; [reflexivity|vm_compute; reflexivity]. }
  destruct S as [-> D]. repeat (split; [reflexivity|]). split; [eauto|].
  intros e s' tr'. unfold poll. destruct (poll_late gx e).
  - intros E; apply some_pair_inj in E; destruct E as [<- <-]. auto.
  - unfold poll_body. cbn [m_state m_cur m_tgt]. change (100 =? 100) with true. cbn [bind].
    intros E; apply some_pair_inj in E; destruct E as [<- <-]. auto.
Qed.

(** Three closing end-stop hits and then one opening one are taken as confirmation of fully open. *)
Definition mixed_ops : list op :=
  start_ops ++ cal_ops ++ [OTarget 50] ++ repeat (ex 0 false false [movp 35 0]) 20 ++ [OTarget 0] ++
  repeat (ex 0 false false [hitp 0 0]) 3 ++ [OTarget 100].
Theorem motor_end_direction_refuted :
  exists s tr s' tr', reachable gx true mixed_ops s tr /\
    step gx true (ex 0 false false [hitp 0 0]) s = Some (s', tr') /\
    m_cur s = 52 /\ m_cur s' = 100 /\
    exists d0, drives (tr ++ tr') = d0 ++ [(false, true); (false, true); (false, true); (true, true)].
Proof.
  destruct (run gx true mixed_ops (power_up 0 0)) as [r|] eqn:R; [|vm_compute in R; discriminate].
  pose proof (reach_by gx true mixed_ops r gx_ok ltac:(vm_compute; reflexivity) R) as RE.
  destruct r as [s tr]. cbn [fst snd] in RE.
  destruct (step gx true (ex 0 false false [hitp 0 0]) s) as [[s' tr']|] eqn:S.
  2:{ exfalso. clear RE. vm_compute in R. apply some_pair_inj in R. destruct R as [<- <-]. vm_compute in S. discriminate. }
  exists s, tr, s', tr'. split; [exact RE|]. split; [exact S|]. clear RE.
  vm_compute in R. apply some_pair_inj in R. destruct R as [<- <-]. vm_compute in S.
  apply some_pair_inj in S. destruct S as [<- <-]. split; [reflexivity|]. split; [reflexivity|].
  match goal with |- exists d0, ?x = _ => let n := eval vm_compute in (length x - 4)%nat in exists (firstn n x) end.
  vm_compute. reflexivity.
Qed.

(** C66 fails for the proportional driver: calibrated, told to go to 50%, it closes the valve with
    the supply reported low (and even with the supply reading 0). *)
Definition calibrated_ops : list op := start_ops ++ cal_ops ++ [OTarget 50].
Theorem motor_low_supply_prop_refuted :
  exists s tr, reachable gx true calibrated_ops s tr /\ m_state s = Normal /\ m_recal s = false /\
    let e := E 0 true true true (P 0 0 false) [movp 35 0] in
    env_ok e /\ low e = true /\
    exists s' tr', poll gx true e s = Some (s', tr') /\ In (false, false) (drives tr').
Proof.
  destruct (run gx true calibrated_ops (power_up 0 0)) as [r|] eqn:R; [|vm_compute in R; discriminate].
  pose proof (reach_by gx true calibrated_ops r gx_ok ltac:(vm_compute; reflexivity) R) as RE.
  destruct r as [s tr]. cbn [fst snd] in RE. exists s, tr. split; [exact RE|]. clear RE.
  vm_compute in R. apply some_pair_inj in R. destruct R as [<- <-].
  split; [reflexivity|]. split; [reflexivity|]. cbv zeta. split.
  { unfold env_ok, pulse_ok. cbn. split; [lia|]. constructor; [cbn; lia|constructor]. }
  split; [reflexivity|].
  match goal with |- exists s' tr', ?x = _ /\ _ => destruct x as [[s' tr']|] eqn:S end;
    vm_compute in S; [|discriminate].
  apply some_pair_inj in S. destruct S as [<- <-]. eexists _, _. split; [reflexivity|]. vm_compute. auto.
Qed.

(** C67 fails for a proportional driver whose calibration failed (here: the tick count seen closing
    is more than twice that seen opening) or was never done: the threshold is 110% and a valve seen
    at the fully-open end stop is never really open. *)
Definition failcal_ops : list op :=
  start_ops ++ [ex 0 false false []; ex 0 false false (repeat (hitp 0 0) 5);
   ex 0 false false (repeat (movp 35 0) 40 ++ repeat (hitp 0 0) 5);
   ex 0 false false (repeat (movp 0 35) 10 ++ repeat (hitp 0 0) 5); ex 0 false false []].
Lemma uncalibrated_never_open s : c_prec (m_cp s) = 100 -> 0 <= m_cur s <= 100 ->
  getMinPercentOpen true s = 110 /\ isReallyOpen true s = false.
Proof.
  intros P C. unfold isReallyOpen, getMinPercentOpen. rewrite P. change (Z.max (u8 (10 + 100)) 15) with 110.
  split; [reflexivity|]. destruct (m_state s); try reflexivity. lia.
Qed.
Theorem motor_really_open_refuted :
  exists s tr, reachable gx true failcal_ops s tr /\ m_state s = Normal /\ m_recal s = false /\ m_cur s = 100 /\
    getMinPercentOpen true s = 110 /\ isReallyOpen true s = false.
Proof.
  destruct (run gx true failcal_ops (power_up 0 0)) as [r|] eqn:R; [|vm_compute in R; discriminate].
  pose proof (reach_by gx true failcal_ops r gx_ok ltac:(vm_compute; reflexivity) R) as RE.
  destruct r as [s tr]. cbn [fst snd] in RE. exists s, tr. split; [exact RE|]. clear RE.
  vm_compute in R. apply some_pair_inj in R. destruct R as [<- <-]. repeat (split; [reflexivity|]). reflexivity.
Qed.

(** ** The hypotheses are met *)

(** A driver of either kind reaches normal operation; the proportional one calibrated. *)
Example calibrated_reachable : exists s tr, reachable gx true calibrated_ops s tr /\ m_state s = Normal /\
  cannotRunProportional (m_cp s) = false /\ m_cur s = 100 /\ isReallyOpen true s = true.
Proof.
  destruct (run gx true calibrated_ops (power_up 0 0)) as [r|] eqn:R; [|vm_compute in R; discriminate].
  pose proof (reach_by gx true calibrated_ops r gx_ok ltac:(vm_compute; reflexivity) R) as RE.
  destruct r as [s tr]. cbn [fst snd] in RE. exists s, tr. split; [exact RE|]. clear RE.
  vm_compute in R. apply some_pair_inj in R. destruct R as [<- <-]. repeat (split; [reflexivity|]). reflexivity.
Qed.
Definition binary_ops : list op := start_ops ++ [ex 0 false false []; OTarget 0].
Example binary_reachable : exists s tr, reachable gx false binary_ops s tr /\ m_state s = Normal /\ m_cur s = 100 /\
  isReallyOpen false s = true /\
  (** closes with a good supply, does not with a low one *)
  exists s1 t1 s2 t2, step gx false (ex 0 false false [movp 0 0]) s = Some (s1, t1) /\ drives t1 = [(false, false)] /\
    step gx false (ex 0 true false [movp 0 0]) s = Some (s2, t2) /\ drives t2 = [].
Proof.
  destruct (run gx false binary_ops (power_up 0 0)) as [r|] eqn:R; [|vm_compute in R; discriminate].
  pose proof (reach_by gx false binary_ops r gx_ok ltac:(vm_compute; reflexivity) R) as RE.
  destruct r as [s tr]. cbn [fst snd] in RE. exists s, tr. split; [exact RE|]. clear RE.
  vm_compute in R. apply some_pair_inj in R. destruct R as [<- <-]. repeat (split; [reflexivity|]).
  eexists _, _, _, _. repeat (split; [reflexivity|]). reflexivity.
Qed.
(** The bounds of start-up and calibration are about runs that exist. *)
Example start_up_met : 138 <= count_in_time gx (repeat (ex 0 false false [(P 35 0 false, 255)]) 140) /\
  exists s tr, run gx true (repeat (ex 0 false false [(P 35 0 false, 255)]) 140) (power_up 0 0) = Some (s, tr) /\
    m_state s = Error.
Proof.
  split; [vm_compute; discriminate|].
  match goal with |- exists s tr, ?x = _ /\ _ => destruct x as [[s tr]|] eqn:R; [|vm_compute in R; discriminate] end.
  exists s, tr. split; [reflexivity|]. vm_compute in R. apply some_pair_inj in R. destruct R as [<- <-]. reflexivity.
Qed.
