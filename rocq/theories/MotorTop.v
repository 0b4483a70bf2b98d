(** C44, C65-C67: the motor driver over all histories. *)
From Verif Require Import Base MotorModel MotorCal MotorProps MotorStep.

Lemma power_up_inv g prop tfo rev : u16r tfo -> u16r rev -> inv g prop (power_up tfo rev).
Proof.
  intros A B. constructor; cbn; unfold u16r in *; auto; try lia; try discriminate.
  split; [unfold cal_range, cp0; cbn; lia|]. split; [unfold cp0, bad_precision; cbn; lia|]. discriminate.
Qed.
Lemma power_up_ghost prop tfo rev : ghost prop (power_up tfo rev) [].
Proof. constructor; cbn; intros; try discriminate; auto. Qed.

Lemma poll_ok g prop e s s' tr : cfg_ok g -> env_ok e -> inv g prop s ->
  poll g prop e s = Some (s', tr) ->
  exists tr1, tr = Time (e_time e) :: tr1 /\ ok_step g prop s s' tr1 /\
    (g_limit g <= e_time e -> s' = s /\ tr1 = []).
Proof.
  intros G EO I. unfold poll. destruct (poll_late g e) eqn:L; unfold poll_late in L.
  - intros E. apply some_pair_inj in E. destruct E as [<- <-]. exists []. split; [reflexivity|].
    split; [|auto]. apply quiet_ok; auto. left. reflexivity.
  - destruct (poll_body g prop e s) as [[s1 tr1]|] eqn:PB; [|discriminate]. cbn [bind].
    intros E. apply some_pair_inj in E. destruct E as [<- <-]. exists tr1. split; [reflexivity|].
    split; [apply (poll_body_ok g prop e); auto|]. lia.
Qed.

Lemma step_ok g prop o s s' tr : cfg_ok g -> op_ok o -> inv g prop s -> step g prop o s = Some (s', tr) ->
  inv g prop s' /\ edge prop (m_state s) (m_state s') /\
  (forall d, ghost prop s d -> ghost prop s' (d ++ drives tr)) /\
  motor_on tr = false /\ timely g true None tr /\
  (forall d, ghost prop s d -> m_cur s' <> m_cur s -> m_cur s' = 0 \/ m_cur s' = 100 ->
     exists d3, ends_any 3 d3 /\ d ++ drives tr = d3 ++ [(m_cur s' =? 100, true)]).
Proof.
  intros G OO I. destruct o as [e | v |]; cbn [step].
  - intros E. destruct (poll_ok _ _ _ _ _ _ G OO I E) as (tr1 & -> & [A B C D T H K] & L).
    split; [exact A|]. split; [exact B|]. split; [exact H|]. split; [exact D|]. split; [|exact K].
    cbn [timely]. destruct (Z.lt_ge_cases (e_time e) (g_limit g)) as [LT | GE].
    + apply T. eauto.
    + destruct (L GE) as [_ ->]. exact Logic.I.
  - intros E. apply some_pair_inj in E. destruct E as [<- <-]. destruct I. cbn in OO. unfold byte in OO.
    split; [inv_tac|]. split; [left; reflexivity|]. split.
    { intros d GH. rewrite app_nil_r. apply (noop_ghost prop s); cbn; auto. }
    split; [reflexivity|]. split; [exact Logic.I|]. intros d _ X. cbn in X. congruence.
  - intros E. apply some_pair_inj in E. destruct E as [<- <-]. destruct I. unfold signalValveFitted.
    destruct (m_state s) eqn:ST.
    4: { split; [inv_tac; rewrite ?ST; cbn; lia || discriminate || auto|]. split; [left; cbn; congruence|]. split.
      { intros d GH. rewrite app_nil_r. apply (noop_ghost prop s); cbn; auto. }
      split; [reflexivity|]. split; [exact Logic.I|]. intros d _ X. cbn in X. congruence. }
    all: split; [constructor; rewrite ?ST; auto|]; split; [left; congruence|]; split;
      [intros d GH; rewrite app_nil_r; exact GH|]; split; [reflexivity|]; split; [exact Logic.I|];
      intros d _ X; congruence.
Qed.

Lemma run_app g prop os1 : forall os2 s,
  run g prop (os1 ++ os2) s =
  (do (s1, t1) <- run g prop os1 s ; do (s2, t2) <- run g prop os2 s1 ; Some (s2, t1 ++ t2)).
Proof.
  induction os1 as [|o os1 IH]; intros os2 s; cbn [app run bind].
  - destruct (run g prop os2 s) as [[s2 t2]|]; reflexivity.
  - destruct (step g prop o s) as [[s1 t1]|]; [cbn [bind]|reflexivity]. rewrite IH.
    destruct (run g prop os1 s1) as [[s2 t2]|]; [cbn [bind]|reflexivity].
    destruct (run g prop os2 s2) as [[s3 t3]|]; [cbn [bind]|reflexivity]. rewrite app_assoc. reflexivity.
Qed.

Lemma run_inv g prop os : forall s s' tr d, cfg_ok g -> Forall op_ok os -> inv g prop s -> ghost prop s d ->
  run g prop os s = Some (s', tr) -> inv g prop s' /\ ghost prop s' (d ++ drives tr).
Proof.
  induction os as [|o os IH]; intros s s' tr d G F I GH; cbn [run].
  - intros E. apply some_pair_inj in E. destruct E as [<- <-]. rewrite app_nil_r. auto.
  - apply Forall_cons_iff in F. destruct F as [FO F].
    destruct (step g prop o s) as [[s1 t1]|] eqn:ES; [cbn [bind]|discriminate].
    destruct (run g prop os s1) as [[s2 t2]|] eqn:ER; [cbn [bind]|discriminate].
    intros E. apply some_pair_inj in E. destruct E as [<- <-].
    destruct (step_ok _ _ _ _ _ _ G FO I ES) as (I1 & _ & G1 & _).
    rewrite drives_app, app_assoc. apply (IH s1); auto.
Qed.

(** Reachable states with everything the motor was made to do so far. *)
Definition reachable (g : cfg) (prop : bool) (os : list op) (s : mst) (tr : list act) : Prop :=
  cfg_ok g /\ Forall op_ok os /\ exists tfo rev, u16r tfo /\ u16r rev /\ run g prop os (power_up tfo rev) = Some (s, tr).

Lemma reachable_inv g prop os s tr : reachable g prop os s tr -> inv g prop s /\ ghost prop s (drives tr).
Proof.
  intros (G & F & tfo & rev & A & B & R).
  exact (run_inv g prop os _ s tr [] G F (power_up_inv g prop tfo rev A B) (power_up_ghost prop tfo rev) R).
Qed.

(** C44 (range).  After any history the reported and target positions are percentages, and the
    end-stop-only driver reports only fully open or fully closed. *)
Theorem motor_range g prop os s tr : reachable g prop os s tr ->
  0 <= m_cur s <= 100 /\ 0 <= m_tgt s <= 100 /\ (prop = false -> m_cur s = 0 \/ m_cur s = 100).
Proof. intros R. destruct (reachable_inv _ _ _ _ _ R) as [[] _]. auto. Qed.

(** C44 (state diagram).  In any reachable state, whatever happens next, the state moves only along
    the documented edges; polls do not change the target. *)
Theorem motor_edges g prop os s tr o s' tr' : reachable g prop os s tr -> op_ok o ->
  step g prop o s = Some (s', tr') -> edge prop (m_state s) (m_state s').
Proof.
  intros R OO E. destruct (reachable_inv _ _ _ _ _ R) as [I _]. destruct R as (G & _).
  apply (step_ok _ _ _ _ _ _ G OO I E).
Qed.

(** C65.  Every operation leaves the motor off, and every pulse is started only after a fresh
    sub-cycle clock reading that is early enough. *)
Theorem motor_left_off_and_timely g prop os s tr o s' tr' : reachable g prop os s tr -> op_ok o ->
  step g prop o s = Some (s', tr') -> motor_on tr' = false /\ timely g true None tr'.
Proof.
  intros R OO E. destruct (reachable_inv _ _ _ _ _ R) as [I _]. destruct R as (G & _).
  destruct (step_ok _ _ _ _ _ _ G OO I E) as (_ & _ & _ & A & B & _). auto.
Qed.

(** C44 (end positions).  The reported position changes to fully open or fully closed only when the
    last four pulses of the motor all reported an end stop, the last of them in that direction.
    Missing: that all four were in that direction, which is false (below). *)
Theorem motor_end_reported_partial g prop os s tr o s' tr' : reachable g prop os s tr -> op_ok o ->
  step g prop o s = Some (s', tr') -> m_cur s' <> m_cur s -> m_cur s' = 0 \/ m_cur s' = 100 ->
  exists d0 o1 o2 o3, drives (tr ++ tr') = d0 ++ [(o1, true); (o2, true); (o3, true); (m_cur s' =? 100, true)].
Proof.
  intros R OO E CH END. destruct (reachable_inv _ _ _ _ _ R) as [I GH]. destruct R as (G & _).
  destruct (step_ok _ _ _ _ _ _ G OO I E) as (_ & _ & _ & _ & _ & K).
  destruct (K (drives tr) GH CH END) as (d3 & (d0 & d1 & -> & L & F) & EQ).
  rewrite drives_app, EQ.
  destruct d1 as [|[o1 h1] [|[o2 h2] [|[o3 h3] [|? ?]]]]; unfold Zlen in L; cbn [length] in L; try lia.
  repeat (apply Forall_cons_iff in F; destruct F as [? F]). cbn [snd] in *. subst.
  exists d0, o1, o2, o3. rewrite <- app_assoc. reflexivity.
Qed.

(** In proportional operation (calibrated) an end position is reported only if the most recent pulse
    hit an end stop: any pulse that moves the valve off the stop is reflected at once. *)
Theorem motor_end_fresh g os s tr : reachable g true os s tr ->
  m_recal s = false -> m_cur s = 0 \/ m_cur s = 100 ->
  exists d0 o, drives tr = d0 ++ [(o, true)].
Proof.
  intros R RC END. destruct (reachable_inv _ _ _ _ _ R) as [_ [A B B4 C D S]].
  destruct (D eq_refl RC END) as (d0 & d1 & -> & L & F).
  destruct d1 as [|[o h] [|? ?]]; unfold Zlen in L; cbn [length] in L; try lia.
  apply Forall_cons_iff in F. destruct F as [F _]. cbn in F. subst. eauto.
Qed.

(** ** The end-stop-only driver: all four hits are in the same direction *)

Record bghost (s : mst) (d : list (bool * bool)) : Prop := BG {
  b_pin : m_state s = PinWithdrawing -> ends_hits true (m_hits s) d;
  b_norm : m_state s = Normal -> ends_hits (m_cur s =? 0) (m_hits s) d }.

Lemma bin_poll_body g e s s' tr d : cfg_ok g -> env_ok e -> inv g false s -> bghost s d ->
  poll_body g false e s = Some (s', tr) ->
  bghost s' (d ++ drives tr) /\
  (m_cur s' <> m_cur s -> ends_hits (m_cur s' =? 100) 4 (d ++ drives tr)).
Proof.
  intros G EO I [BP BN]. destruct I as [c1 c2 c3 c4 c5 c6 c7 c8 c9 c10 c11 c12 c13 c14].
  assert (QUIET : forall s1 d1, m_cur s1 = m_cur s -> m_hits s1 = 0 -> bghost s1 d1).
  { intros s1 d1 _ H. constructor; intros _; rewrite H; apply ends_hits_0. }
  unfold poll_body. destruct (m_state s) eqn:ST.
  - intros E. apply some_pair_inj in E. destruct E as [<- <-]. split; [apply QUIET; reflexivity|cbn; congruence].
  - destruct (m_waited s <? 15) eqn:W; intros E; apply some_pair_inj in E; destruct E as [<- <-].
    + split; [|cbn; congruence]. constructor; cbn; rewrite ST; discriminate.
    + split; [apply QUIET; reflexivity|cbn; congruence].
  - change (m_wall (set_wall s (u8 (m_wall s + 1)))) with (u8 (m_wall s + 1)).
    destruct (u8 (m_wall s + 1) >? maxTravel).
    + intros E; apply some_pair_inj in E; destruct E as [<- <-]. split; [apply QUIET; reflexivity|cbn; congruence].
    + destruct (pulses g false true maxHits (e_pulses e) (set_wall s (u8 (m_wall s + 1)))) as [[[s1 conf] tr1]|] eqn:PE; [|discriminate].
      cbn [bind]. intros E. apply some_pair_inj in E. destruct E as [<- <-].
      destruct (pulses_spec g false true maxHits G ltac:(unfold maxHits; lia) (e_pulses e)
                (set_wall s (u8 (m_wall s + 1))) s1 conf tr1 (proj2 EO)
                ltac:(unfold maxHits; cbn; lia) c3 c4 PE)
        as (a & b & h & -> & UA & UB & HC & MO & TI & GD & DI).
      specialize (GD d (BP eq_refl)). destruct conf.
      * split; [constructor; cbn; discriminate|]. cbn. intros _. rewrite HC in GD. exact GD.
      * split; [|cbn; congruence]. constructor; cbn; rewrite ST; [auto|discriminate].
  - destruct (m_fitted s); intros E; apply some_pair_inj in E; destruct E as [<- <-].
    + split; [apply QUIET; reflexivity|cbn; congruence].
    + split; [|congruence]. rewrite app_nil_r. constructor; rewrite ST; discriminate.
  - intros E; apply some_pair_inj in E; destruct E as [<- <-]. split; [apply QUIET; reflexivity|cbn; congruence].
  - destruct (m_cur s =? m_tgt s).
    { intros E; apply some_pair_inj in E; destruct E as [<- <-]. split; [apply QUIET; reflexivity|cbn; congruence]. }
    unfold normal_binary. set (o := m_tgt s >=? 50).
    destruct ((if o then 100 else 0) =? m_cur s) eqn:AT.
    { intros E; apply some_pair_inj in E; destruct E as [<- <-]. split; [apply QUIET; reflexivity|cbn; congruence]. }
    assert (OD : (m_cur s =? 0) = o) by (destruct (c12 eq_refl) as [X | X]; rewrite X in *; destruct o; cbn in *; congruence).
    rewrite OD in BN.
    destruct (low e && (m_tgt s <? m_cur s)).
    { intros E; apply some_pair_inj in E; destruct E as [<- <-]. split; [|congruence]. rewrite app_nil_r.
      constructor; [rewrite ST; discriminate|]. intros _. rewrite OD. auto. }
    destruct (e_pulses e) as [|[p t] ps]; [discriminate|]. unfold runTowardsEndStop, tick.
    destruct (p_hit p) eqn:PH; cbn [negb].
    + rewrite (u8_id (m_hits s + 1)) by (unfold byte; lia).
      intros E; apply some_pair_inj in E; destruct E as [<- <-].
      rewrite drives_one by exact G. change (m_hits (set_hits s (m_hits s + 1))) with (m_hits s + 1).
      pose proof (ends_hits_S o (m_hits s) d ltac:(lia) (BN eq_refl)) as S1.
      destruct (m_hits s + 1 >=? maxHits) eqn:HM; unfold maxHits in HM.
      * split; [constructor; cbn; intros _; apply ends_hits_0|]. intros _. cbn.
        replace ((if o then 100 else 0) =? 100) with o by (destruct o; reflexivity).
        replace 4 with (m_hits s + 1) by lia. exact S1.
      * split; [|cbn; congruence]. constructor; cbn; rewrite ST; [discriminate|]. intros _. rewrite OD. exact S1.
    + cbn [recompute andb bind]. intros E; apply some_pair_inj in E; destruct E as [<- <-].
      split; [apply QUIET; reflexivity|cbn; congruence].
  - congruence.
  - intros E; apply some_pair_inj in E; destruct E as [<- <-]. split; [apply QUIET; reflexivity|cbn; congruence].
Qed.

Lemma bin_step g o s s' tr d : cfg_ok g -> op_ok o -> inv g false s -> bghost s d ->
  step g false o s = Some (s', tr) ->
  bghost s' (d ++ drives tr) /\ (m_cur s' <> m_cur s -> ends_hits (m_cur s' =? 100) 4 (d ++ drives tr)).
Proof.
  intros G OO I BG. destruct o as [e | v |]; cbn [step].
  - unfold poll. destruct (poll_late g e).
    + intros E; apply some_pair_inj in E; destruct E as [<- <-]. split; [|congruence].
      change (drives [Time (e_time e)]) with (@nil (bool * bool)). rewrite app_nil_r. exact BG.
    + destruct (poll_body g false e s) as [[s1 tr1]|] eqn:PB; [|discriminate]. cbn [bind].
      intros E. apply some_pair_inj in E. destruct E as [<- <-].
      change (drives (Time (e_time e) :: tr1)) with (drives tr1). apply (bin_poll_body g e s); auto.
  - intros E; apply some_pair_inj in E; destruct E as [<- <-]. split; [|cbn; congruence].
    rewrite app_nil_r. destruct BG. constructor; cbn; auto.
  - intros E; apply some_pair_inj in E; destruct E as [<- <-].
    rewrite app_nil_r. unfold signalValveFitted. destruct (m_state s) eqn:ST; (split; [|cbn; congruence]); auto.
    constructor; cbn; rewrite ST; discriminate.
Qed.

(** C44 (end positions, end-stop-only driver).  The reported position changes only after four
    consecutive pulses in that direction all reported the end stop. *)
Theorem motor_end_reported_binary g os s tr o s' tr' : reachable g false os s tr -> op_ok o ->
  step g false o s = Some (s', tr') -> m_cur s' <> m_cur s ->
  exists d0, drives (tr ++ tr') = d0 ++ repeat (m_cur s' =? 100, true) 4.
Proof.
  intros R OO E CH. destruct (reachable_inv _ _ _ _ _ R) as [I _]. destruct R as (G & F & tfo & rev & A & B & R).
  assert (BG : bghost s (drives tr)).
  { assert (GEN : forall os s0 d, Forall op_ok os -> inv g false s0 -> bghost s0 d -> forall s1 t1,
       run g false os s0 = Some (s1, t1) -> bghost s1 (d ++ drives t1)).
    { clear - G. induction os as [|o os IH]; intros s0 d F I BG s1 t1; cbn [run].
      - intros E; apply some_pair_inj in E; destruct E as [<- <-]. rewrite app_nil_r. exact BG.
      - apply Forall_cons_iff in F. destruct F as [FO F].
        destruct (step g false o s0) as [[s2 t2]|] eqn:ES; [cbn [bind]|discriminate].
        destruct (run g false os s2) as [[s3 t3]|] eqn:ER; [cbn [bind]|discriminate].
        intros E. apply some_pair_inj in E. destruct E as [<- <-].
        destruct (step_ok _ _ _ _ _ _ G FO I ES) as (I1 & _).
        destruct (bin_step _ _ _ _ _ _ G FO I BG ES) as [B1 _].
        rewrite drives_app, app_assoc. apply (IH s2); auto. }
    apply (GEN os _ [] F (power_up_inv g false tfo rev A B)) in R; [exact R|].
    constructor; cbn; discriminate. }
  destruct (bin_step _ _ _ _ _ _ G OO I BG E) as [_ K]. destruct (K CH) as [d0 Q].
  exists d0. rewrite drives_app, Q. reflexivity.
Qed.

(** ** Start-up, errors and progress *)

(** The valve is not moved out of the fully-withdrawn state before the user signals fitting. *)
Theorem motor_waits_for_fitting g prop os s tr : reachable g prop os s tr ->
  m_state s = Calibrating \/ m_state s = Normal -> In OFitted os.
Proof.
  intros (G & F & tfo & rev & A & B & R) ST.
  assert (GEN : forall os s0 s1 t1, Forall op_ok os -> inv g prop s0 ->
     m_fitted s0 = false -> (m_state s0 = Init \/ m_state s0 = InitWaiting \/ m_state s0 = PinWithdrawing \/ m_state s0 = PinWithdrawn \/ m_state s0 = Error) ->
     ~ In OFitted os -> run g prop os s0 = Some (s1, t1) ->
     m_state s1 <> Calibrating /\ m_state s1 <> Normal).
  { clear - G. induction os as [|o os IH]; intros s0 s1 t1 F I NF ST NI; cbn [run].
    - intros E; apply some_pair_inj in E; destruct E as [<- <-].
      destruct ST as [-> | [-> | [-> | [-> | ->]]]]; split; discriminate.
    - apply Forall_cons_iff in F. destruct F as [FO F].
      destruct (step g prop o s0) as [[s2 t2]|] eqn:ES; [cbn [bind]|discriminate].
      destruct (run g prop os s2) as [[s3 t3]|] eqn:ER; [cbn [bind]|discriminate].
      intros E. apply some_pair_inj in E. destruct E as [<- <-].
      destruct (step_ok _ _ _ _ _ _ G FO I ES) as (I1 & ED & _).
      assert (N2 : m_fitted s2 = false /\ (m_state s0 = PinWithdrawn -> m_state s2 = PinWithdrawn)).
      { destruct o as [e | v |]; cbn [step] in ES.
        - unfold poll in ES. destruct (poll_late g e); [apply some_pair_inj in ES; destruct ES as [<- _]; auto|].
          destruct (poll_body g prop e s0) as [[s4 t4]|] eqn:PB; [|discriminate]. cbn [bind] in ES.
          apply some_pair_inj in ES. destruct ES as [<- _].
          unfold poll_body in PB. destruct (m_state s0) eqn:S0.
          + apply some_pair_inj in PB. destruct PB as [<- _]. split; [reflexivity|discriminate].
          + destruct (m_waited s0 <? 15); apply some_pair_inj in PB; destruct PB as [<- _]; (split; [cbn; auto|discriminate]).
          + split; [|discriminate].
            change (m_wall (set_wall s0 (u8 (m_wall s0 + 1)))) with (u8 (m_wall s0 + 1)) in PB.
            destruct (u8 (m_wall s0 + 1) >? maxTravel); [apply some_pair_inj in PB; destruct PB as [<- _]; reflexivity|].
            destruct (pulses g prop true maxHits (e_pulses e) (set_wall s0 (u8 (m_wall s0 + 1)))) as [[[s5 conf] tr5]|] eqn:PE; [|discriminate].
            destruct (pulses_spec g prop true maxHits G ltac:(unfold maxHits; lia) (e_pulses e)
                (set_wall s0 (u8 (m_wall s0 + 1))) s5 conf tr5 (proj2 FO)
                ltac:(destruct I as [c1 c2 c3 c4 c5 c6 c7 c8 c9 c10 c11 c12 c13 c14]; rewrite S0 in c10; unfold maxHits; cbn; lia)
                (i_tfo _ _ _ I) (i_rev _ _ _ I) PE) as (a & b & h & -> & _).
            cbn [bind] in PB. apply some_pair_inj in PB. destruct PB as [<- _]. destruct conf; [reflexivity|exact NF].
          + rewrite NF in PB. apply some_pair_inj in PB. destruct PB as [<- _]. auto.
          + destruct ST as [? | [? | [? | [? | ?]]]]; discriminate.
          + destruct ST as [? | [? | [? | [? | ?]]]]; discriminate.
          + destruct ST as [? | [? | [? | [? | ?]]]]; discriminate.
          + apply some_pair_inj in PB. destruct PB as [<- _]. split; [reflexivity|discriminate].
        - apply some_pair_inj in ES. destruct ES as [<- _]. cbn. auto.
        - exfalso. apply NI. left. reflexivity. }
      apply (IH s2 s3 t3 F I1 (proj1 N2)).
      + destruct N2 as [_ N2]. destruct (m_state s0) eqn:S0.
        all: try (destruct ST as [? | [? | [? | [? | ?]]]]; discriminate).
        all: destruct ED as [<- | ED]; auto; destruct (m_state s2); try contradiction; auto.
        specialize (N2 eq_refl). discriminate.
      + intros X. apply NI. right. exact X.
      + exact ER. }
  destruct (existsb (fun o => match o with OFitted => true | _ => false end) os) eqn:EX.
  - apply existsb_exists in EX. destruct EX as (o & IN & X). destruct o; try discriminate. exact IN.
  - assert (NI : ~ In OFitted os).
    { intros X. assert (existsb (fun o => match o with OFitted => true | _ => false end) os = true)
        by (apply existsb_exists; exists OFitted; auto). congruence. }
    destruct (GEN os _ s tr F (power_up_inv g prop tfo rev A B) eq_refl (or_introl eq_refl) NI R) as [N1 N2].
    destruct ST; contradiction.
Qed.
