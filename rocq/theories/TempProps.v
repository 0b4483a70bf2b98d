(** C31, C32, C38, C55, C56: temperature controls and target temperature. *)
From Verif Require Import Base EepromModel EepromProofs OccModel ScheduleModel TempModel.

Definition shipped (p : VCP) : Prop := p = DEFAULT_Params \/ p = Proposed_Params \/ p = DHW_Params.
Definition radiator (p : VCP) : Prop := p = DEFAULT_Params \/ p = Proposed_Params.
(** What the interface promises of a control (TempControl.h 47-53), with room below the
    warm target for the largest setback. *)
Definition control_ok (tc : TempControl) : Prop :=
  MIN_TARGET_C <= tc_frost tc <= tc_warm tc /\ 6 <= tc_warm tc <= MAX_TARGET_C.

Ltac ships H := destruct H as [-> |[-> | ->]].
Lemma fnmax_max a b : fnmax a b = Z.max a b. Proof. unfold fnmax. destruct (a <? b) eqn:?; lia. Qed.
Lemma fnmin_min a b : fnmin a b = Z.min a b. Proof. unfold fnmin. destruct (a >? b) eqn:?; lia. Qed.

(** ** The controls shipped meet that contract. *)
Definition scale_min p := WARM_ECO p - 1.
Definition scale_max p := WARM_COM p + 1.
Theorem C31_simple_control : forall p, shipped p -> control_ok (tc_simple p).
Proof. intros p H. ships H; vm_compute; intuition congruence. Qed.
Theorem C31_null_control : control_ok tc_null.
Proof. vm_compute. intuition congruence. Qed.
Theorem C31_eeprom_control : forall p m, shipped p -> bytes_mem m -> control_ok (tc_eeprom p m).
Proof.
  intros p m H HB. unfold control_ok, tc_eeprom, ee_getWARMTargetC, ee_getFROSTTargetC. cbn [tc_frost tc_warm]. rewrite !fnmax_max.
  pose proof (HB EE_FROST_C) as H1. pose proof (HB EE_WARM_C) as H2. unfold byte in *. set (a := m EE_FROST_C) in *. set (b := m EE_WARM_C) in *. clearbody a b.
  ships H;
  [change (TEMP_SCALE_MIN DEFAULT_Params) with 16; change (TEMP_SCALE_MAX DEFAULT_Params) with 22; change (FROST DEFAULT_Params) with 6; change (WARM DEFAULT_Params) with 18
  |change (TEMP_SCALE_MIN Proposed_Params) with 15; change (TEMP_SCALE_MAX Proposed_Params) with 23; change (FROST Proposed_Params) with 6; change (WARM Proposed_Params) with 18
  |change (TEMP_SCALE_MIN DHW_Params) with 44; change (TEMP_SCALE_MAX DHW_Params) with 66; change (FROST DHW_Params) with 6; change (WARM DHW_Params) with 45];
  unfold MIN_TARGET_C, MAX_TARGET_C; destruct ((a <? _) || (a >? _)) eqn:E1, ((b <? _) || (b >? _)) eqn:E2; lia.
Qed.
Theorem C31_dial_control : forall p w rh, shipped p -> scale_min p <= w <= scale_max p -> control_ok (tc_pot p w rh).
Proof.
  intros p w rh H Hw. unfold control_ok, tc_pot, pot_getFROSTTargetC. cbn [tc_frost tc_warm].
  ships H;
  [change (FROST_COM DEFAULT_Params) with 14; change (FROST_ECO DEFAULT_Params) with 6; change (scale_min DEFAULT_Params) with 16 in Hw; change (scale_max DEFAULT_Params) with 22 in Hw
  |change (FROST_COM Proposed_Params) with 14; change (FROST_ECO Proposed_Params) with 6; change (scale_min Proposed_Params) with 15 in Hw; change (scale_max Proposed_Params) with 23 in Hw
  |change (FROST_COM DHW_Params) with 20; change (FROST_ECO DHW_Params) with 6; change (scale_min DHW_Params) with 44 in Hw; change (scale_max DHW_Params) with 66 in Hw];
  unfold MIN_TARGET_C, MAX_TARGET_C; destruct (negb _ || rh); lia.
Qed.

(** ** C31 *)
Lemma sets p : shipped p -> SETBACK_ECO p = 3 /\ SETBACK_FULL p = 6 /\ BAKE_UPLIFT p = 10.
Proof. intros H. ships H; repeat split. Qed.
(** The three modes.  The WARM target less a setback of 0, 1, 3 or 6C but not under frost. *)
Definition in_mode (e : Env) (m : Z) : Prop :=
  m = 0 /\ inWarmMode (e_mode e) = false \/ m = 1 /\ inWarmMode (e_mode e) = true /\ inBakeMode (e_mode e) = false \/ m = 2 /\ inBakeMode (e_mode e) = true.
Lemma bake_is_warm e : inBakeMode (e_mode e) = true -> inWarmMode (e_mode e) = true.
Proof. unfold inBakeMode, inWarmMode. destruct (isWarmMode _); [reflexivity|discriminate]. Qed.
Theorem C31_warm : forall p e, shipped p -> control_ok (e_tc e) -> in_mode e VMODE_WARM ->
  let w := tc_warm (e_tc e) in let t := computeTargetTemp p e in
  t = w \/ t = Z.max (tc_frost (e_tc e)) (w - 1) \/ t = Z.max (tc_frost (e_tc e)) (w - 3) \/ t = Z.max (tc_frost (e_tc e)) (w - 6).
Proof.
  intros p e Hp [HF HW] Hm. destruct (sets p Hp) as (HE & HU & HK). destruct Hm as [[? _]|[[_ [H1 H2]]|[? _]]]; [discriminate| |discriminate].
  cbv zeta. unfold computeTargetTemp. rewrite H1, H2, HE, HU. cbn [negb]. rewrite !fnmax_max. unfold MIN_TARGET_C, MAX_TARGET_C, SETBACK_DEFAULT in *.
  set (w := tc_warm (e_tc e)) in *. set (fr := tc_frost (e_tc e)) in *.
  destruct (e_lockout e); [auto|].
  match goal with |- context [if ?b then Z.max (u8 (w - ?s)) fr else w] => destruct b; [|auto]; assert (HS : s = 1 \/ s = 3 \/ s = 6) by (repeat (match goal with |- context [if ?c then _ else _] => destruct c end); auto); set (sb := s) in *; clearbody sb end.
  right. rewrite u8_id by (unfold byte; lia). destruct HS as [-> |[-> | ->]]; rewrite Z.max_comm; auto.
Qed.
Theorem C31_bake : forall p e, shipped p -> control_ok (e_tc e) -> in_mode e VMODE_BAKE ->
  computeTargetTemp p e = Z.min (tc_warm (e_tc e) + 10) MAX_TARGET_C.
Proof.
  intros p e Hp [HF HW] Hm. destruct (sets p Hp) as (HE & HU & HK). destruct Hm as [[? _]|[[? _]|[_ H2]]]; [discriminate|discriminate|].
  unfold computeTargetTemp. rewrite H2, (bake_is_warm e H2), HK. cbn [negb]. rewrite fnmin_min, u8_id by (unfold byte, MAX_TARGET_C in *; lia). reflexivity.
Qed.
Theorem C31_frost : forall p e, shipped p -> control_ok (e_tc e) -> in_mode e VMODE_FROST ->
  tc_frost (e_tc e) <= computeTargetTemp p e <= Z.max (tc_frost (e_tc e)) (tc_warm (e_tc e) - 1) /\
  (longVacant (e_occ e) = true \/ e_onSoon e = false \/ e_recentUI e = true -> computeTargetTemp p e = tc_frost (e_tc e)).
Proof.
  intros p e Hp [HF HW] Hm. destruct (sets p Hp) as (HE & HU & HK). destruct Hm as [[_ H1]|[[? _]|[? _]]]; [|discriminate|discriminate].
  unfold computeTargetTemp. rewrite H1, HE. cbn [negb]. rewrite !fnmax_max. unfold SETBACK_DEFAULT, MIN_TARGET_C, MAX_TARGET_C in *.
  destruct (negb (longVacant (e_occ e)) && e_onSoon e && negb (e_recentUI e)) eqn:E.
  - split; [|intros [K|[K|K]]; rewrite K in E; cbn in E; rewrite ?andb_false_r in E; discriminate].
    destruct (tc_isEco _ _); rewrite u8_id by (unfold byte; lia); lia.
  - split; [lia|reflexivity].
Qed.
(** Always in the supported range, and a modelled target never undercuts frost. *)
Theorem C31_in_range : forall p e, shipped p -> control_ok (e_tc e) ->
  MIN_TARGET_C <= tc_frost (e_tc e) /\ tc_frost (e_tc e) <= computeTargetTemp p e <= MAX_TARGET_C.
Proof.
  intros p e Hp Hc. pose proof Hc as [HF HW]. unfold MIN_TARGET_C, MAX_TARGET_C in *.
  destruct (inBakeMode (e_mode e)) eqn:EB.
  - rewrite (C31_bake p e Hp Hc) by (right; right; auto). unfold MAX_TARGET_C. lia.
  - destruct (inWarmMode (e_mode e)) eqn:EW.
    + pose proof (C31_warm p e Hp Hc ltac:(right; left; auto)) as H. cbv zeta in H. lia.
    + pose proof (C31_frost p e Hp Hc ltac:(left; auto)) as [H _]. lia.
Qed.
Theorem C31_warm_bounds : forall p e, shipped p -> control_ok (e_tc e) -> in_mode e VMODE_WARM ->
  tc_warm (e_tc e) - 6 <= computeTargetTemp p e <= tc_warm (e_tc e).
Proof. intros p e Hp Hc Hm. pose proof (C31_warm p e Hp Hc Hm) as H. cbv zeta in H. destruct Hc. lia. Qed.
(** The contract is needed: at the lowest warm target the interface permits, 5C, a full
    setback wraps round to 255C (no shipped control reports less than 15C). *)
Theorem C31_warm5_wraps_refuted : exists e, inWarmMode (e_mode e) = true /\ inBakeMode (e_mode e) = false /\
  tc_frost (e_tc e) = 5 /\ tc_warm (e_tc e) = 5 /\ computeTargetTemp DEFAULT_Params e = 255.
Proof.
  exists (mkEnv (mkVMode true 0 1) (mkTC 5 5 true (fun _ => true) (fun _ => false)) (mkOcc 0 0 30 0 0) false false false false 500 0 0 true true false false).
  repeat split.
Qed.
(** The pre-2017 computation has the same bounds. *)
Theorem C31_2016_in_range : forall p e, shipped p -> control_ok (e_tc e) ->
  (MIN_TARGET_C <= tc_frost (e_tc e) /\ tc_frost (e_tc e) <= computeTargetTemp2016 p e <= MAX_TARGET_C) /\
  (in_mode e VMODE_WARM -> tc_warm (e_tc e) - 6 <= computeTargetTemp2016 p e <= tc_warm (e_tc e)) /\
  (in_mode e VMODE_BAKE -> computeTargetTemp2016 p e = Z.min (tc_warm (e_tc e) + 10) MAX_TARGET_C) /\
  (in_mode e VMODE_FROST -> computeTargetTemp2016 p e <= Z.max (tc_frost (e_tc e)) (tc_warm (e_tc e) - 1)).
Proof.
  intros p e Hp [HF HW]. destruct (sets p Hp) as (HE & HU & HK). unfold computeTargetTemp2016. rewrite HE, HU, HK, !fnmax_max, !fnmin_min.
  unfold MIN_TARGET_C, MAX_TARGET_C, SETBACK_DEFAULT in *. set (w := tc_warm (e_tc e)) in *. set (fr := tc_frost (e_tc e)) in *.
  assert (HM : in_mode e VMODE_WARM -> inWarmMode (e_mode e) = true /\ inBakeMode (e_mode e) = false) by (intros [[? _]|[[_ [A B]]|[? _]]]; [discriminate|auto|discriminate]).
  assert (HB : in_mode e VMODE_BAKE -> inBakeMode (e_mode e) = true) by (intros [[? _]|[[? _]|[_ A]]]; [discriminate|discriminate|auto]).
  assert (HFm : in_mode e VMODE_FROST -> inWarmMode (e_mode e) = false) by (intros [[_ A]|[[? _]|[? _]]]; [auto|discriminate|discriminate]).
  pose proof (bake_is_warm e) as HBW.
  destruct (inWarmMode (e_mode e)) eqn:EW; cbn [negb].
  - destruct (inBakeMode (e_mode e)) eqn:EB.
    + rewrite u8_id by (unfold byte; lia). split; [lia|]. split; [intros K; destruct (HM K); discriminate|]. split; [reflexivity|]. intros K. discriminate (HFm K).
    + match goal with |- (_ /\ _ <= ?T <= _) /\ _ => assert (HT : Z.max fr (w - 6) <= T <= w) end.
      { destruct (e_lockout e); [lia|].
        match goal with |- context [if ?b then Z.max (u8 (w - ?s)) fr else w] => destruct b; [|lia]; assert (HS : 1 <= s <= 6) by (repeat (match goal with |- context [if ?c then _ else _] => destruct c end); lia); set (sb := s) in *; clearbody sb end.
        rewrite u8_id by (unfold byte; lia). lia. }
      split; [lia|]. split; [intros _; lia|]. split; intros K; [discriminate (HB K)|discriminate (HFm K)].
  - match goal with |- (_ /\ _ <= ?T <= _) /\ _ => assert (HT : fr <= T <= Z.max fr (w - 1)) end.
    { destruct (negb (longVacant (e_occ e)) && e_onSoon e && negb (e_recentUI e)); [|lia].
      destruct (tc_isEco _ _); rewrite u8_id by (unfold byte; lia);
      match goal with |- context [if ?b then _ else _] => destruct b eqn:? end; lia. }
    split; [lia|]. split; [intros K; destruct (HM K); discriminate|]. split; [intros K; specialize (HBW (HB K)); discriminate|]. intros _. lia.
Qed.

(** ** C32 *)
Theorem C32_no_setback_occupied : forall p e, in_mode e VMODE_WARM ->
  isLikelyOccupied (e_occ e) = true -> vacancyH (e_occ e) = 0 -> computeTargetTemp p e = tc_warm (e_tc e).
Proof.
  intros p e Hm HO HV. destruct Hm as [[? _]|[[_ [H1 H2]]|[? _]]]; [discriminate| |discriminate].
  unfold computeTargetTemp. rewrite H1, H2. cbn [negb].
  assert (HG : getVacancyH (e_occ e) = 0) by (unfold getVacancyH; destruct (negb _); auto).
  unfold longVacant, confidentlyVacant, isLikelyUnoccupied. rewrite HG, HO. cbn. destruct (e_lockout e); reflexivity.
Qed.
(** In terms of histories of the occupancy tracker: a mark, however long the room had been
    vacant, removes the setback from the next reading on for the 50 minutes' timeout. *)
Theorem C32_marked_no_setback : forall p e s k, in_mode e VMODE_WARM -> (1 <= k < 50)%nat ->
  e_occ e = orun (ostep s OOcc) (repeat ORead k) -> computeTargetTemp p e = tc_warm (e_tc e).
Proof.
  intros p e s k Hm Hk HE.
  assert (HI : forall k, (1 <= k < 50)%nat -> let s' := orun (ostep s OOcc) (repeat ORead k) in occupationCountdownM s' = 50 - Z.of_nat k /\ vacancyH s' = 0).
  { clear. induction k as [|k IH]; intros Hk; [lia|]. replace (S k) with (k + 1)%nat by lia. rewrite repeat_app. unfold orun. rewrite fold_left_app. fold (orun (ostep s OOcc) (repeat ORead k)).
    assert (HC : occupationCountdownM (orun (ostep s OOcc) (repeat ORead k)) = 50 - Z.of_nat k).
    { destruct k as [|k]; [reflexivity|]. apply IH. lia. }
    cbn [repeat fold_left]. set (s1 := orun _ _) in *. clearbody s1. unfold ostep, ostep_i, occ_read, nogaps. cbn [isr fold_left fst].
    assert (H50 : forall x, 1 <= x < 50 -> (0 =? x + 1) = false /\ u8 (x + 1 - 1) = x) by (intros x Hx; split; [lia|rewrite u8_id; unfold byte; lia]).
    destruct (H50 (50 - Z.of_nat (k + 1)) ltac:(lia)) as [Ha Hb]. replace (50 - Z.of_nat (k + 1) + 1) with (occupationCountdownM s1) in Ha, Hb by lia.
    rewrite Ha. unfold cas_oc. rewrite Z.eqb_refl, Hb.
    match goal with |- context [if 0 =? newOccupancyCountdownM ?x then _ else _] => set (s2 := x) end.
    assert (HC2 : occupationCountdownM s2 = 50 - Z.of_nat (k + 1)) by reflexivity.
    match goal with |- context [if 0 =? newOccupancyCountdownM s2 then s2 else ?y] => set (s3 := if 0 =? newOccupancyCountdownM s2 then s2 else y) end.
    assert (HC3 : occupationCountdownM s3 = 50 - Z.of_nat (k + 1)) by (unfold s3, cas_new; repeat (match goal with |- context [if ?c then _ else _] => destruct c end); exact HC2).
    rewrite HC3. replace (50 - Z.of_nat (k + 1) >? 0) with true by lia. cbn. split; [exact HC3|reflexivity]. }
  destruct (HI k Hk) as [H1 H2]. cbv zeta in *. rewrite <- HE in *.
  apply C32_no_setback_occupied; auto. unfold isLikelyOccupied. rewrite H1. destruct (0 =? 50 - Z.of_nat k) eqn:E; [lia|reflexivity].
Qed.
Theorem C32_no_setback_scheduled : forall p e, in_mode e VMODE_WARM ->
  e_onNow e = true -> longVacant (e_occ e) = false -> computeTargetTemp p e = tc_warm (e_tc e).
Proof.
  intros p e Hm HO HV. destruct Hm as [[? _]|[[_ [H1 H2]]|[? _]]]; [discriminate| |discriminate].
  unfold computeTargetTemp. rewrite H1, H2, HO, HV. cbn [negb orb]. rewrite andb_false_r. destruct (e_lockout e); reflexivity.
Qed.
Theorem C32_no_setback_lockout : forall p e, in_mode e VMODE_WARM -> e_lockout e = true -> computeTargetTemp p e = tc_warm (e_tc e).
Proof.
  intros p e Hm HO. destruct Hm as [[? _]|[[_ [H1 H2]]|[? _]]]; [discriminate| |discriminate].
  unfold computeTargetTemp. rewrite H1, H2, HO. reflexivity.
Qed.
Theorem C32_comfort_limit : forall p e, shipped p -> control_ok (e_tc e) -> in_mode e VMODE_WARM ->
  tc_isComfort (e_tc e) (tc_warm (e_tc e)) = true -> tc_warm (e_tc e) - 3 <= computeTargetTemp p e.
Proof.
  intros p e Hp [HF HW] Hm HC. destruct (sets p Hp) as (HE & HU & HK). destruct Hm as [[? _]|[[_ [H1 H2]]|[? _]]]; [discriminate| |discriminate].
  unfold computeTargetTemp. rewrite H1, H2, HE, HU, HC. cbn [negb orb andb]. rewrite !fnmax_max. unfold MIN_TARGET_C, MAX_TARGET_C, SETBACK_DEFAULT in *.
  set (w := tc_warm (e_tc e)) in *. set (fr := tc_frost (e_tc e)) in *.
  destruct (e_lockout e); [lia|].
  match goal with |- context [if ?b then Z.max (u8 (w - ?s)) fr else w] => destruct b; [|lia]; assert (HS : s = 1 \/ s = 3) by (repeat (match goal with |- context [if ?c then _ else _] => destruct c end); auto); set (sb := s) in *; clearbody sb end.
  rewrite u8_id by (unfold byte; lia). lia.
Qed.
(** An imminent schedule limits the setback to the minimum, 1C (unless long vacant). *)
Theorem C32_schedule_soon_limit : forall p e, shipped p -> control_ok (e_tc e) -> in_mode e VMODE_WARM ->
  e_onSoon e = true -> longVacant (e_occ e) = false -> tc_warm (e_tc e) - 1 <= computeTargetTemp p e.
Proof.
  intros p e Hp [HF HW] Hm HC HV. destruct Hm as [[? _]|[[_ [H1 H2]]|[? _]]]; [discriminate| |discriminate].
  unfold computeTargetTemp. rewrite H1, H2, HC, HV. cbn [negb orb andb]. rewrite !fnmax_max. unfold MIN_TARGET_C, MAX_TARGET_C, SETBACK_DEFAULT in *.
  set (w := tc_warm (e_tc e)) in *. set (fr := tc_frost (e_tc e)) in *.
  destruct (e_lockout e); [lia|]. match goal with |- context [if ?b then _ else w] => destruct b; [|lia] end.
  rewrite u8_id by (unfold byte; lia). lia.
Qed.
(** And conversely savings do happen: a room vacant for over a day is set back by at least
    the ECO amount unless locked out (frost target permitting). *)
Theorem C32_long_vacant_saves : forall p e, shipped p -> control_ok (e_tc e) -> in_mode e VMODE_WARM ->
  longVacant (e_occ e) = true -> e_lockout e = false -> computeTargetTemp p e <= Z.max (tc_frost (e_tc e)) (tc_warm (e_tc e) - 3).
Proof.
  intros p e Hp [HF HW] Hm HV HL. destruct (sets p Hp) as (HE & HU & HK). destruct Hm as [[? _]|[[_ [H1 H2]]|[? _]]]; [discriminate| |discriminate].
  unfold computeTargetTemp. rewrite H1, H2, HE, HU, HV, HL. cbn [negb orb andb]. rewrite !fnmax_max. unfold MIN_TARGET_C, MAX_TARGET_C, SETBACK_DEFAULT in *.
  set (w := tc_warm (e_tc e)) in *. set (fr := tc_frost (e_tc e)) in *.
  match goal with |- context [u8 (w - ?s)] => assert (HS : s = 6 \/ s = 3) by (repeat (match goal with |- context [if ?c then _ else _] => destruct c end); auto); set (sb := s) in *; clearbody sb end.
  rewrite u8_id by (unfold byte; lia). lia.
Qed.
Example C31_C32_nonvacuous :
  let quiet := mkEnv (mkVMode true 0 1) (tc_pot DEFAULT_Params 19 false) (mkOcc 0 0 30 0 0) false false false false 500 0 0 true true false false in
  let busy := mkEnv (mkVMode true 0 1) (tc_pot DEFAULT_Params 19 false) (mkOcc 45 0 0 0 90) false false false false 0 20 20 false false false false in
  control_ok (e_tc quiet) /\ in_mode quiet VMODE_WARM /\ longVacant (e_occ quiet) = true /\ computeTargetTemp DEFAULT_Params quiet = 13 /\
  control_ok (e_tc busy) /\ isLikelyOccupied (e_occ busy) = true /\ computeTargetTemp DEFAULT_Params busy = 19.
Proof. cbv zeta. repeat split; try (vm_compute; congruence). right. left. auto. Qed.

Print Assumptions C31_warm.
Print Assumptions C31_2016_in_range.
Print Assumptions C32_marked_no_setback.
Print Assumptions C32_long_vacant_saves.
