(** C44, C65-C67: one step of the motor driver. *)
From Verif Require Import Base MotorModel MotorCal MotorProps.

Lemma ends_hits5 d : ends_hits true 5 d -> exists d3, ends_any 3 d3 /\ d = d3 ++ [(true, true)].
Proof.
  intros (d0 & ->). exists (d0 ++ repeat (true, true) 4). split.
  - exists (d0 ++ [(true, true)]), (repeat (true, true) 3). split; [rewrite <- app_assoc; reflexivity|].
    split; [reflexivity|]. repeat constructor.
  - rewrite <- app_assoc. reflexivity.
Qed.

(** States reached by a pulse loop that does not complete. *)
Lemma calibrate_ok g e s s' tr : cfg_ok g -> env_ok e -> inv g true s -> m_state s = Calibrating ->
  calibrate g e s = Some (s', tr) -> ok_step g true s s' tr.
Proof.
  intros G [EW EP] I ST. unfold calibrate.
  destruct (shouldDefer e).
  { intros E. apply some_pair_inj in E. destruct E as [<- <-]. destruct I. apply quiet_ok; cbn; auto.
    - inv_tac.
    - rewrite ST. right. exact Logic.I.
    - intros d [A B B4 C D S]. constructor; cbn; intros; try discriminate; auto; try lia; apply ends_any_0. }
  assert (W8 : u8 (m_wall s + 1) = m_wall s + 1) by (apply u8_id; destruct I; unfold byte; lia).
  cbn [m_wall set_wall set_recal]. rewrite W8.
  destruct (m_wall s + 1 >? maxTravel) eqn:WT.
  { intros E. apply some_pair_inj in E. destruct E as [<- <-]. destruct I. apply quiet_ok; cbn; auto.
    - inv_tac.
    - rewrite ST. right. reflexivity.
    - intros d [A B B4 C D S]. constructor; cbn; intros; try discriminate; auto; try lia; apply ends_any_0. }
  unfold maxTravel in WT.
  change (m_calib (set_wall (set_recal s true) (m_wall s + 1))) with (m_calib s).
  destruct (m_calib s =? 0) eqn:K0.
  { intros E. apply some_pair_inj in E. destruct E as [<- <-]. destruct I. apply quiet_ok; cbn; auto.
    - inv_tac. rewrite ST. cbn. lia.
    - left. reflexivity.
    - intros d [A B B4 C D S]. constructor; cbn; intros; try discriminate; auto; try lia; apply ends_hits_0 || apply ends_any_0. }
  (* the three runs *)
  assert (LOOP : forall o s1 conf tr1,
     (m_calib s = 1 \/ m_calib s = 2 \/ m_calib s = 3) -> o = negb (m_calib s =? 2) ->
     pulses g true o (maxHits + 1) (e_pulses e) (set_wall (set_recal s true) (m_wall s + 1)) = Some (s1, conf, tr1) ->
     forall s2, s2 = (if conf then
        (if m_calib s =? 1 then set_calib (set_hits (set_wall (set_ticks s1 0 0) 0) 0) 2
         else if m_calib s =? 2 then set_calib (set_hits (set_wall (set_toc s1 (m_tfo s1)) 0) 0) 3
         else set_calib (set_ticks (set_tco s1 (m_rev s1)) 0 0) 4) else s1) ->
     ok_step g true s s2 tr1).
  { intros o s1 conf tr1 KK OO PE s2 ->. destruct I as [c1 c2 c3 c4 c5 c6 c7 c8 c9 c10 c11 c12 c13 c14].
    assert (H0 : 0 <= m_hits s < 5).
    { rewrite ST in c10. replace (m_calib s =? 4) with false in c10 by lia. lia. }
    destruct (pulses_spec g true o (maxHits + 1) G ltac:(unfold maxHits; lia) (e_pulses e)
                (set_wall (set_recal s true) (m_wall s + 1)) s1 conf tr1 EP
                ltac:(unfold maxHits; cbn; lia) c3 c4 PE)
      as (a & b & h & -> & UA & UB & HC & MO & TI & GD & DI).
    unfold maxHits in HC. constructor.
    - destruct conf.
      + destruct (m_calib s =? 1) eqn:K1; [|destruct (m_calib s =? 2) eqn:K2]; inv_tac; rewrite ST; cbn; lia.
      + inv_tac. rewrite ST. replace (m_calib s =? 4) with false by lia. lia.
    - left. destruct conf; [|reflexivity]. destruct (m_calib s =? 1) eqn:K1; [|destruct (m_calib s =? 2) eqn:K2]; reflexivity.
    - destruct conf; [|reflexivity]. destruct (m_calib s =? 1) eqn:K1; [|destruct (m_calib s =? 2) eqn:K2]; reflexivity.
    - exact MO.
    - exact TI.
    - intros d [A B B4 C D S]. specialize (B ST ltac:(lia)). rewrite <- OO in B. specialize (GD d B).
      destruct conf.
      + destruct (m_calib s =? 1) eqn:K1; [|destruct (m_calib s =? 2) eqn:K2];
          (constructor; cbn; intros; try discriminate; try lia; try (rewrite ST in *; discriminate || (destruct H; discriminate)); auto using ends_hits_0).
        replace o with true in GD by lia. exact GD.
      + constructor; cbn; intros; try discriminate; try lia; try (rewrite ST in *; discriminate || (destruct H; discriminate)); auto.
        rewrite <- OO. exact GD.
    - intros d _ CH. exfalso. apply CH. destruct conf; [|reflexivity].
      destruct (m_calib s =? 1) eqn:K1; [|destruct (m_calib s =? 2) eqn:K2]; reflexivity. }
  destruct (m_calib s =? 1) eqn:K1.
  { destruct (pulses g true true _ _ _) as [[[s1 conf] tr1]|] eqn:PE; [|discriminate]. cbn [bind].
    intros E. apply some_pair_inj in E. destruct E as [<- <-].
    apply (LOOP true s1 conf tr1); [lia|lia|exact PE|reflexivity]. }
  destruct (m_calib s =? 2) eqn:K2.
  { destruct (pulses g true false _ _ _) as [[[s1 conf] tr1]|] eqn:PE; [|discriminate]. cbn [bind].
    intros E. apply some_pair_inj in E. destruct E as [<- <-].
    apply (LOOP false s1 conf tr1); [lia|lia|exact PE|reflexivity]. }
  destruct (m_calib s =? 3) eqn:K3.
  { destruct (pulses g true true _ _ _) as [[[s1 conf] tr1]|] eqn:PE; [|discriminate]. cbn [bind].
    intros E. apply some_pair_inj in E. destruct E as [<- <-].
    apply (LOOP true s1 conf tr1); [lia|lia|exact PE|reflexivity]. }
  clear LOOP. destruct I as [c1 c2 c3 c4 c5 c6 c7 c8 c9 c10 c11 c12 c13 c14].
  replace (m_calib s =? 4) with true in * by lia.
  cbn [m_toc m_tco set_wall set_recal].
  destruct (motor_calibration (m_toc s) (m_tco s) (g_dr g) c5 c6) as (c & ok & UE & C1 & C2 & CR & OKE & PR & CG).
  { unfold byte, cfg_ok in *. lia. }
  rewrite UE. cbn [bind]. intros E. apply some_pair_inj in E. destruct E as [<- <-].
  assert (GOOD : cp_good (g_dr g) c).
  { split; [exact CR|]. split; [exact PR|]. intros X. rewrite X in OKE. cbn in OKE. destruct (CG OKE) as (? & ? & ? & ? & ? & ? & ? & ?).
    rewrite C1, C2. exact (conj H (conj H1 (conj H2 (conj H3 (conj H4 (conj H5 H6)))))). }
  constructor.
  - inv_tac.
  - rewrite ST. right. exact Logic.I.
  - reflexivity.
  - reflexivity.
  - intros; exact Logic.I.
  - intros d [A B B4 C D S]. rewrite app_nil_r. specialize (B ST ltac:(lia)). rewrite (B4 ST ltac:(lia)) in B.
    replace (negb (m_calib s =? 2)) with true in B by lia.
    constructor; cbn; intros; try discriminate; auto using ends_any_0; try lia.
    apply (ends_any_le 5); [lia|]. apply (ends_hits_any true); [lia|exact B].
  - intros d [A B B4 C D S] _ _. rewrite app_nil_r. specialize (B ST ltac:(lia)). rewrite (B4 ST ltac:(lia)) in B.
    replace (negb (m_calib s =? 2)) with true in B by lia. apply ends_hits5. exact B.
Qed.

(** Ghost after a single pulse in the normal state. *)
Lemma norm_ghost prop s d s' (o h : bool) : m_state s = Normal -> m_state s' = Normal -> ghost prop s d ->
  (if h then m_hits s' = m_hits s + 1 \/ m_hits s' = 0 else m_hits s' = 0) ->
  (prop = true -> m_recal s' = false -> m_cur s' = 0 \/ m_cur s' = 100 -> h = true) ->
  ghost prop s' (d ++ [(o, h)]).
Proof.
  intros ST ST' [A B B4 C D S] HH FR. constructor; rewrite ?ST'; try discriminate.
  - intros _. specialize (C ST). destruct h.
    + destruct HH as [-> | ->]; [apply ends_any_S; exact C|apply ends_any_0].
    + rewrite HH. apply ends_any_0.
  - intros P R Q. rewrite (FR P R Q). apply (ends_any_S o 0). apply ends_any_0.
  - intros [X | X]; discriminate.
Qed.

Lemma drives_one g (o h : bool) : cfg_ok g -> drives [Run o (g_dr g) h; Off] = [(o, h)].
Proof. intros G. unfold drives. cbn [flat_map]. replace (0 <? g_dr g) with true by (unfold cfg_ok in G; lia). reflexivity. Qed.

Lemma propMove_ok g o e s s' tr : cfg_ok g -> env_ok e -> inv g true s -> m_state s = Normal -> m_recal s = false ->
  propMove g o e s = Some (s', tr) -> ok_step g true s s' tr.
Proof.
  intros G [EW EP] I ST RC. unfold propMove. destruct (e_pulses e) as [|[p t] ps]; [discriminate|].
  apply Forall_cons_iff in EP. destruct EP as [PO _]. cbn [fst] in PO.
  unfold runTowardsEndStop. destruct (tick_eq true p s) as (a & b & -> & TU).
  pose proof I as I0. destruct I as [c1 c2 c3 c4 c5 c6 c7 c8 c9 c10 c11 c12 c13 c14]. destruct (TU PO c3 c4) as [UA UB].
  assert (I1 : inv g true (set_ticks s a b)) by (inv_tac).
  destruct (recompute_ok _ _ _ I1) as (s1 & -> & R1 & R2 & R3 & R4 & R5 & R6 & R7 & R8 & R9 & R10 & R11 & R12 & R13).
  cbn [bind]. cbn [m_state m_waited m_wall m_hits m_calib m_toc m_tco m_tgt m_cp m_recal m_cur set_ticks] in R1, R2, R3, R4, R5, R6, R7, R8, R9, R10, R13.
  rewrite RC in R13. cbn [andb negb] in R13. destruct R13 as [[X _] | [_ CU]]; [discriminate|].
  rewrite ST in c10.
  intros E. destruct (p_hit p) eqn:PH.
  - set (far := if o then m_cur s1 <? 100 - 19 else m_cur s1 >? 19) in *.
    set (s2 := if far then set_recal s1 true else s1) in *.
    assert (H2 : m_hits s2 = m_hits s) by (unfold s2; destruct far; cbn; lia).
    assert (F2 : m_state s2 = Normal /\ m_cur s2 = m_cur s1 /\ m_tgt s2 = m_tgt s /\ m_waited s2 = m_waited s /\
       m_wall s2 = m_wall s /\ m_calib s2 = m_calib s /\ m_toc s2 = m_toc s /\ m_tco s2 = m_tco s /\ m_cp s2 = m_cp s /\
       m_tfo s2 = m_tfo s1 /\ m_rev s2 = m_rev s1).
    { unfold s2. destruct far; cbn; rewrite ?R1, ?ST; repeat split; auto. }
    destruct F2 as (Q1 & Q2 & Q3 & Q4 & Q5 & Q6 & Q7 & Q8 & Q9 & Q10 & Q11).
    rewrite H2 in E. rewrite (u8_id (m_hits s + 1)) in E by (unfold byte; lia).
    change (m_hits (set_hits s2 (m_hits s + 1))) with (m_hits s + 1) in E.
    apply some_pair_inj in E. destruct E as [<- <-].
    destruct (m_hits s + 1 >=? maxHits) eqn:HM; unfold maxHits in HM.
    + constructor.
      * constructor; cbn; rewrite ?Q1, ?Q2, ?Q3, ?Q4, ?Q5, ?Q6, ?Q7, ?Q8, ?Q9, ?Q10, ?Q11; unfold u16r in *; auto; try lia.
        -- destruct o; lia.
        -- destruct o; [lia|]. destruct c11 as ((? & _) & _). lia.
        -- discriminate.
      * left. cbn. rewrite Q1, ST. reflexivity.
      * cbn. exact Q3.
      * reflexivity.
      * intros last HL. cbn. split; [right; exact HL|]. split; [lia|]. auto.
      * intros d GH. rewrite drives_one by exact G. apply (norm_ghost true s); auto.
      * intros d [A B B4 C D S] _ _. rewrite drives_one by exact G. exists d. split.
        -- specialize (C ST). replace 3 with (m_hits s) by lia. exact C.
        -- cbn. destruct o; reflexivity.
    + constructor.
      * constructor; cbn; rewrite ?Q1, ?Q2, ?Q3, ?Q4, ?Q5, ?Q6, ?Q7, ?Q8, ?Q9, ?Q10, ?Q11; unfold u16r in *; auto; try lia; discriminate.
      * left. cbn. rewrite Q1, ST. reflexivity.
      * cbn. exact Q3.
      * reflexivity.
      * intros last HL. cbn. split; [right; exact HL|]. split; [lia|]. auto.
      * intros d GH. rewrite drives_one by exact G. apply (norm_ghost true s); auto.
      * intros d _ _ X. cbn in X. rewrite Q2 in X. lia.
  - apply some_pair_inj in E. destruct E as [<- <-]. constructor.
    + constructor; cbn; rewrite ?R1, ?R2, ?R3, ?R5, ?R6, ?R7, ?R8, ?R9, ?ST; auto; try lia; discriminate.
    + left. cbn. rewrite R1. reflexivity.
    + cbn. exact R8.
    + reflexivity.
    + intros last HL. cbn. split; [right; exact HL|]. split; [lia|]. auto.
    + intros d GH. rewrite drives_one by exact G. apply (norm_ghost true s); cbn; auto; try congruence. intros; lia.
    + intros d _ _ X. cbn in X. lia.
Qed.

Lemma normal_binary_ok g prop e s s' tr : cfg_ok g -> env_ok e -> inv g prop s -> m_state s = Normal ->
  normal_binary g prop e s = Some (s', tr) -> ok_step g prop s s' tr.
Proof.
  intros G [EW EP] I ST. unfold normal_binary. set (o := m_tgt s >=? 50).
  pose proof I as I0. destruct I as [c1 c2 c3 c4 c5 c6 c7 c8 c9 c10 c11 c12 c13 c14]. rewrite ST in c10.
  destruct ((if o then 100 else 0) =? m_cur s) eqn:AT.
  { intros E. apply some_pair_inj in E. destruct E as [<- <-]. apply quiet_ok; cbn; auto.
    - inv_tac; rewrite ST; lia || discriminate.
    - left. reflexivity.
    - intros d GH. apply (noop_ghost prop s); cbn; auto. right. split; [reflexivity|]. rewrite ST. discriminate. }
  destruct (low e && (m_tgt s <? m_cur s)).
  { intros E. apply some_pair_inj in E. destruct E as [<- <-]. apply quiet_ok; cbn; auto. left. reflexivity. }
  destruct (e_pulses e) as [|[p t] ps]; [discriminate|].
  apply Forall_cons_iff in EP. destruct EP as [PO _]. cbn [fst] in PO.
  unfold runTowardsEndStop. destruct (tick_eq prop p s) as (a & b & -> & TU). destruct (TU PO c3 c4) as [UA UB].
  destruct (p_hit p) eqn:PH; cbn [negb].
  - change (m_hits (set_ticks s a b)) with (m_hits s). rewrite (u8_id (m_hits s + 1)) by (unfold byte; lia).
    change (m_hits (set_hits (set_ticks s a b) (m_hits s + 1))) with (m_hits s + 1).
    intros E. apply some_pair_inj in E. destruct E as [<- <-].
    destruct (m_hits s + 1 >=? maxHits) eqn:HM; unfold maxHits in HM.
    + assert (CASES : forall st, st = set_hits (hitEndstop prop o (set_hits (set_ticks s a b) (m_hits s + 1))) 0 ->
         m_state st = Normal /\ m_cur st = (if o then 100 else 0) /\ m_tgt st = m_tgt s /\ m_waited st = m_waited s /\
         m_wall st = m_wall s /\ m_calib st = m_calib s /\ m_toc st = m_toc s /\ m_tco st = m_tco s /\ m_cp st = m_cp s /\
         m_hits st = 0 /\ m_recal st = m_recal s /\ u16r (m_tfo st) /\ u16r (m_rev st)).
      { intros st ->. unfold hitEndstop. destruct prop; cbn; rewrite ST; repeat (split; [reflexivity|]).
        - destruct c11 as ((? & _) & _). destruct o; unfold u16r in *; lia.
        - auto. }
      set (st := set_hits _ 0) in *. destruct (CASES st eq_refl) as (Q1 & Q2 & Q3 & Q4 & Q5 & Q6 & Q7 & Q8 & Q9 & Q10 & Q11 & Q12 & Q13).
      clearbody st. constructor.
      * constructor; rewrite ?Q1, ?Q2, ?Q3, ?Q4, ?Q5, ?Q6, ?Q7, ?Q8, ?Q9, ?Q10; auto; try (destruct o; auto; lia); discriminate.
      * left. congruence.
      * exact Q3.
      * reflexivity.
      * intros last HL. cbn. split; [right; exact HL|]. split; [lia|]. auto.
      * intros d GH. rewrite drives_one by exact G. apply (norm_ghost prop s); auto.
      * intros d [A B B4 C D S] _ _. rewrite drives_one by exact G. exists d. split.
        -- specialize (C ST). replace 3 with (m_hits s) by lia. exact C.
        -- rewrite Q2. destruct o; reflexivity.
    + constructor.
      * inv_tac; rewrite ST; lia || discriminate.
      * left. reflexivity.
      * reflexivity.
      * reflexivity.
      * intros last HL. cbn. split; [right; exact HL|]. split; [lia|]. auto.
      * intros d GH. rewrite drives_one by exact G. apply (norm_ghost prop s); cbn; auto.
      * intros d _ X. cbn in X. lia.
  - assert (I1 : inv g prop (set_hits (set_ticks s a b) 0)) by (inv_tac; rewrite ST; lia).
    destruct (recompute_ok _ _ _ I1) as (s1 & -> & R1 & R2 & R3 & R4 & R5 & R6 & R7 & R8 & R9 & R10 & R11 & R12 & R13).
    cbn [bind]. cbn [m_state m_waited m_wall m_hits m_calib m_toc m_tco m_tgt m_cp m_recal m_cur set_ticks set_hits] in R1, R2, R3, R4, R5, R6, R7, R8, R9, R10, R13.
    intros E. apply some_pair_inj in E. destruct E as [<- <-]. constructor.
    + constructor; rewrite ?R1, ?R2, ?R3, ?R4, ?R5, ?R6, ?R7, ?R8, ?R9, ?R10, ?ST; auto; try lia; try discriminate.
    + left. congruence.
    + exact R8.
    + reflexivity.
    + intros last HL. cbn. split; [right; exact HL|]. split; [lia|]. auto.
    + intros d GH. rewrite drives_one by exact G. apply (norm_ghost prop s); cbn; auto; try congruence.
      intros -> X. rewrite R10 in X. rewrite X in R13. cbn in R13. destruct R13 as [[Y _] | [_ Y]]; [discriminate|]. intros; lia.
    + intros d _ X Y. destruct R13 as [[_ Z] | [_ Z]]; lia.
Qed.

Lemma poll_body_ok g prop e s s' tr : cfg_ok g -> env_ok e -> inv g prop s ->
  poll_body g prop e s = Some (s', tr) -> ok_step g prop s s' tr.
Proof.
  intros G EO I. pose proof I as I0. destruct I as [c1 c2 c3 c4 c5 c6 c7 c8 c9 c10 c11 c12 c13 c14].
  unfold poll_body. destruct (m_state s) eqn:ST.
  - intros E. apply some_pair_inj in E. destruct E as [<- <-].
    apply (wiggle_ok g prop (e_wiggle e) s InitWaiting G (proj1 EO) I0); auto.
    + destruct c13 as [? | [? | ?]]; congruence.
    + rewrite ST. right. exact Logic.I.
  - destruct (m_waited s <? 15) eqn:W.
    + intros E. apply some_pair_inj in E. destruct E as [<- <-]. rewrite u8_id by (unfold byte; lia).
      apply quiet_ok; cbn; auto.
      * inv_tac; rewrite ST; auto.
      * left. reflexivity.
      * intros d GH. apply (noop_ghost prop s); cbn; auto.
    + intros E. apply some_pair_inj in E. destruct E as [<- <-].
      apply (wiggle_ok g prop (e_wiggle e) s PinWithdrawing G (proj1 EO) I0); auto.
      * destruct c13 as [? | [? | ?]]; congruence.
      * rewrite ST. right. exact Logic.I.
  - change (m_wall (set_wall s (u8 (m_wall s + 1)))) with (u8 (m_wall s + 1)).
    rewrite (u8_id (m_wall s + 1)) by (unfold byte; lia).
    assert (RC : m_recal s = true) by (destruct c13 as [? | [? | ?]]; congruence).
    destruct (m_wall s + 1 >? maxTravel) eqn:WT; unfold maxTravel in WT.
    + intros E. apply some_pair_inj in E. destruct E as [<- <-]. apply quiet_ok; cbn; auto.
      * inv_tac.
      * rewrite ST. right. exact Logic.I.
      * intros d [A B B4 C D S]. constructor; cbn; intros; try discriminate; auto; try lia; apply ends_any_0.
    + destruct (pulses g prop true maxHits (e_pulses e) (set_wall s (m_wall s + 1))) as [[[s1 conf] tr1]|] eqn:PE; [|discriminate].
      cbn [bind]. intros E. apply some_pair_inj in E. destruct E as [<- <-].
      destruct (pulses_spec g prop true maxHits G ltac:(unfold maxHits; lia) (e_pulses e)
                (set_wall s (m_wall s + 1)) s1 conf tr1 (proj2 EO)
                ltac:(unfold maxHits; cbn; lia) c3 c4 PE)
        as (a & b & h & -> & UA & UB & HC & MO & TI & GD & DI).
      unfold maxHits in HC.
      assert (Q : forall st, st = set_state (hitEndstop prop true (set_hits (set_ticks (set_wall s (m_wall s + 1)) a b) h)) PinWithdrawn ->
         m_state st = PinWithdrawn /\ m_cur st = 100 /\ m_tgt st = m_tgt s /\ m_waited st = 0 /\ m_wall st = 0 /\ m_calib st = 0 /\
         m_toc st = 0 /\ m_tco st = 0 /\ m_cp st = m_cp s /\ m_hits st = 0 /\ m_recal st = true /\ u16r (m_tfo st) /\ u16r (m_rev st)).
      { intros st ->. unfold hitEndstop. destruct prop; cbn; repeat (split; [reflexivity|]); (split; [exact RC|]); unfold u16r in *; [lia|]. auto. }
      set (st := set_state _ PinWithdrawn) in *. destruct (Q st eq_refl) as (Q1 & Q2 & Q3 & Q4 & Q5 & Q6 & Q7 & Q8 & Q9 & Q10 & Q11 & Q12 & Q13).
      clearbody st. clear Q. constructor.
      * destruct conf.
        -- constructor; rewrite ?Q1, ?Q2, ?Q3, ?Q4, ?Q5, ?Q6, ?Q7, ?Q8, ?Q9, ?Q10; auto; try discriminate; unfold u16r; lia.
        -- inv_tac; rewrite ?ST; cbn; lia || discriminate.
      * destruct conf; [rewrite Q1, ST; right; exact Logic.I|left; cbn; congruence].
      * destruct conf; [exact Q3|reflexivity].
      * exact MO.
      * exact TI.
      * intros d [A B B4 C D S]. specialize (GD d (A ST)). destruct conf.
        -- constructor; rewrite ?Q1, ?Q11; try discriminate. intros [X | X]; discriminate.
        -- constructor; cbn; rewrite ?ST, ?RC; try discriminate; auto. intros [X | X]; discriminate.
      * intros d [A B B4 C D S] CH _. specialize (GD d (A ST)). destruct conf; [|cbn in CH; congruence].
        rewrite Q2. change (100 =? 100) with true.
        rewrite HC in GD. destruct GD as [d0 ->]. exists (d0 ++ repeat (true, true) 3). split.
        -- exists d0, (repeat (true, true) 3). split; [reflexivity|]. split; [reflexivity|]. repeat constructor.
        -- rewrite <- app_assoc. reflexivity.
  - destruct (m_fitted s).
    + intros E. apply some_pair_inj in E. destruct E as [<- <-].
      apply (wiggle_ok g prop (e_wiggle e) s Calibrating G (proj1 EO) I0); auto.
      * destruct c13 as [? | [? | ?]]; congruence.
      * rewrite ST. right. exact Logic.I.
    + intros E. apply some_pair_inj in E. destruct E as [<- <-]. apply quiet_ok; auto. left. reflexivity.
  - destruct prop.
    + apply calibrate_ok; auto.
    + intros E. apply some_pair_inj in E. destruct E as [<- <-]. apply quiet_ok; cbn; auto.
      * inv_tac.
      * rewrite ST. right. exact Logic.I.
      * intros d [A B B4 C D S]. constructor; cbn; intros; try discriminate; auto; try lia; apply ends_any_0.
  - destruct (m_cur s =? m_tgt s).
    { intros E. apply some_pair_inj in E. destruct E as [<- <-]. apply quiet_ok; cbn; auto.
      - inv_tac; rewrite ST; lia || discriminate.
      - left. reflexivity.
      - intros d GH. apply (noop_ghost prop s); cbn; auto. right. split; [reflexivity|]. rewrite ST. discriminate. }
    destruct prop; [|apply normal_binary_ok; auto].
    unfold normal_prop. destruct (m_recal s && negb (shouldDefer e)) eqn:RD.
    { cbn [bind]. intros E. apply some_pair_inj in E. destruct E as [<- <-]. apply quiet_ok; cbn; auto.
      - inv_tac.
      - rewrite ST. right. reflexivity.
      - intros d [A B B4 C D S]. constructor; cbn; intros; try discriminate; auto; lia. }
    destruct (inNonProp s) eqn:NP.
    { cbn [bind]. apply normal_binary_ok; auto. }
    assert (RC : m_recal s = false) by (unfold inNonProp in NP; destruct (m_recal s); [discriminate|reflexivity]).
    cbv zeta.
    match goal with |- context [if ?b then Some (inr tt) else _] => destruct b end.
    { cbn [bind]. apply normal_binary_ok; auto. }
    match goal with |- context [if ?b then Some (inr tt) else _] => destruct b end.
    { cbn [bind]. apply normal_binary_ok; auto. }
    match goal with |- context [if ?b then Some (inl (set_hits s 0, [])) else _] => destruct b end.
    { cbn [bind]. intros E. apply some_pair_inj in E. destruct E as [<- <-]. apply quiet_ok; cbn; auto.
      - inv_tac; rewrite ST; lia || discriminate.
      - left. reflexivity.
      - intros d GH. apply (noop_ghost true s); cbn; auto. right. split; [reflexivity|]. rewrite ST. discriminate. }
    destruct (propMove g (m_tgt s >? m_cur s) e s) as [[s1 tr1]|] eqn:PM; [|discriminate]. cbn [bind].
    intros E. apply some_pair_inj in E. destruct E as [<- <-]. apply (propMove_ok g (m_tgt s >? m_cur s) e); auto.
  - congruence.
  - intros E. apply some_pair_inj in E. destruct E as [<- <-].
    constructor; cbn; auto.
    + inv_tac.
    + left. congruence.
    + intros d [A B B4 C D S]. rewrite app_nil_r. constructor; cbn; intros; try discriminate; auto; try lia; apply ends_any_0.
    + intros d _ X. congruence.
Qed.
