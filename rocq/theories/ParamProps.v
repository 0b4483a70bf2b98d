(** C176: the valve parameters derived from the arguments of any product. *)
From Verif Require Import Base EepromModel EepromProofs OccModel ScheduleModel TempModel TempProps.

(** ** Specification: arguments of a product (OTRadValve_Parameters.h 62-77), in the order they are documented. *)
Definition args_byte (p : VCP) : Prop :=
  byte (ecoMinC p) /\ byte (comMinC p) /\ byte (ecoWarmC p) /\ byte (comWarmC p) /\
  byte (bakeLiftC p) /\ byte (setbackECO p) /\ byte (setbackFULL p).
Definition sensible (p : VCP) : Prop := args_byte p /\
  ecoMinC p <= comMinC p /\ comMinC p < ecoWarmC p /\ 6 < ecoWarmC p /\ ecoWarmC p <= comWarmC p <= 94.

Ltac params := unfold TEMP_SCALE_MIN, TEMP_SCALE_MID, TEMP_SCALE_MAX, WARM, WARM_ECO, WARM_COM, FROST_COM, FROST_ECO, FROST,
  SETBACK_ECO, SETBACK_FULL, SETBACK_DEFAULT, MIN_TARGET_C, MAX_TARGET_C, SAFE_ROOM_TEMPERATURE in *; rewrite ?fnmax_max, ?fnmin_min in *.

(** Whatever the arguments: the frost threshold can always be heated to, and protects. *)
Theorem any_frost p : args_byte p ->
  FROST p = Z.max 5 (Z.min 95 (ecoMinC p)) /\ FROST_COM p = Z.max (FROST p) (Z.min 95 (comMinC p)) /\
  5 <= FROST p <= FROST_COM p /\ FROST_COM p <= 95.
Proof. intros (H1 & H2 & _). unfold byte in *. params. lia. Qed.
(** With frost thresholds that leave room for warming: the documented ranges. *)
Theorem any_warm p : args_byte p -> ecoMinC p < 95 -> comMinC p < 95 ->
  FROST p < WARM_ECO p <= 95 /\ FROST_COM p < WARM_COM p <= 95 /\ WARM p = Z.max 18 (WARM_ECO p) /\ WARM p <= 95 /\
  TEMP_SCALE_MIN p = WARM_ECO p - 1 /\ TEMP_SCALE_MAX p = WARM_COM p + 1 /\
  WARM_ECO p + WARM_COM p <= 2 * TEMP_SCALE_MID p <= WARM_ECO p + WARM_COM p + 1.
Proof.
  intros (H1 & H2 & H3 & H4 & _) HA HB. unfold byte in *.
  assert (HF : FROST p = Z.max 5 (ecoMinC p)) by (params; lia).
  assert (HG : FROST_COM p = Z.max (FROST p) (comMinC p)) by (params; lia).
  assert (HW : WARM_ECO p = Z.max (Z.min 95 (ecoWarmC p)) (FROST p + 1)).
  { unfold WARM_ECO, FROST_ECO, MAX_TARGET_C. rewrite fnmax_max, fnmin_min, u8_id by (red; lia). lia. }
  assert (HC : WARM_COM p = Z.max (Z.min 95 (comWarmC p)) (FROST_COM p + 1)).
  { unfold WARM_COM, MAX_TARGET_C. rewrite fnmax_max, fnmin_min, u8_id by (red; lia). lia. }
  assert (HM : WARM p = Z.max 18 (WARM_ECO p)) by (unfold WARM, SAFE_ROOM_TEMPERATURE; rewrite fnmax_max; lia).
  assert (HX : TEMP_SCALE_MID p = (WARM_ECO p + WARM_COM p + 1) / 2).
  { unfold TEMP_SCALE_MID. apply u8_id. red. split; [apply Z.div_pos; lia|apply Z.div_lt_upper_bound; lia]. }
  unfold TEMP_SCALE_MIN, TEMP_SCALE_MAX. rewrite !u8_id by (red; lia).
  pose proof (Z.div_mod (WARM_ECO p + WARM_COM p + 1) 2 ltac:(lia)). pose proof (Z.mod_pos_bound (WARM_ECO p + WARM_COM p + 1) 2 ltac:(lia)).
  lia.
Qed.
(** Sensible arguments are used as they are. *)
Theorem sensible_as_given p : sensible p ->
  FROST p = Z.max 5 (ecoMinC p) /\ FROST_COM p = Z.max 5 (comMinC p) /\ WARM_ECO p = ecoWarmC p /\ WARM_COM p = comWarmC p /\
  TEMP_SCALE_MIN p < TEMP_SCALE_MID p < TEMP_SCALE_MAX p.
Proof.
  intros (HB & H1 & H2 & H3 & H4). pose proof HB as (B1 & B2 & B3 & B4 & _). unfold byte in *.
  pose proof (any_warm p HB ltac:(lia) ltac:(lia)) as W. pose proof (any_frost p HB) as F.
  assert (HW : WARM_ECO p = Z.max (Z.min 95 (ecoWarmC p)) (FROST p + 1)).
  { unfold WARM_ECO, FROST_ECO, MAX_TARGET_C. rewrite fnmax_max, fnmin_min, u8_id by (red; lia). lia. }
  assert (HC : WARM_COM p = Z.max (Z.min 95 (comWarmC p)) (FROST_COM p + 1)).
  { unfold WARM_COM, MAX_TARGET_C. rewrite fnmax_max, fnmin_min, u8_id by (red; lia). lia. }
  lia.
Qed.
(** The setbacks are ordered. *)
Theorem any_setbacks p : args_byte p -> setbackECO p < 255 ->
  1 = SETBACK_DEFAULT /\ SETBACK_ECO p = Z.max 2 (setbackECO p) /\ SETBACK_FULL p = Z.max (SETBACK_ECO p + 1) (setbackFULL p).
Proof.
  intros (_ & _ & _ & _ & _ & H6 & H7) H. unfold byte in *. split; [reflexivity|].
  assert (HE : SETBACK_ECO p = Z.max 2 (setbackECO p)).
  { unfold SETBACK_ECO. change (u8 (SETBACK_DEFAULT + 1)) with 2. rewrite fnmax_max. lia. }
  split; [exact HE|]. unfold SETBACK_FULL. rewrite fnmax_max, u8_id by (red; lia). lia.
Qed.
(** So every kind of temperature control meets its interface's promises: frost no higher than warm, both supported. *)
Theorem sensible_controls_partial p : sensible p ->
  control_ok (tc_simple p) /\ (forall m, bytes_mem m -> control_ok (tc_eeprom p m)) /\
  (forall w rh, TEMP_SCALE_MIN p <= w <= TEMP_SCALE_MAX p -> control_ok (tc_pot p w rh)).
Proof.
  intros HS. pose proof (sensible_as_given p HS) as (F & G & W & C & _). destruct HS as (HB & H1 & H2 & H3 & H4).
  pose proof HB as (B1 & B2 & B3 & B4 & _). unfold byte in *.
  pose proof (any_warm p HB ltac:(lia) ltac:(lia)) as (_ & _ & WM & _ & TL & TH & _).
  unfold control_ok, MIN_TARGET_C, MAX_TARGET_C. split; [|split].
  - unfold tc_simple. cbn [tc_frost tc_warm]. lia.
  - intros m HM. unfold tc_eeprom, ee_getWARMTargetC, ee_getFROSTTargetC. cbn [tc_frost tc_warm]. rewrite !fnmax_max.
    pose proof (HM EE_FROST_C) as M1. pose proof (HM EE_WARM_C) as M2. unfold byte in *.
    set (a := m EE_FROST_C) in *. set (b := m EE_WARM_C) in *. clearbody a b.
    destruct ((a <? _) || (a >? _)) eqn:E1, ((b <? _) || (b >? _)) eqn:E2; lia.
  - intros w rh Hw. unfold tc_pot, pot_getFROSTTargetC. cbn [tc_frost tc_warm].
    change (FROST_ECO p) with (FROST p). destruct (negb _ || rh); lia.
Qed.
(** And targets are in range for any control and setbacks that fit below its warm target. *)
Theorem sensible_target_partial p e : args_byte p -> setbackECO p < 255 -> bakeLiftC p <= 160 -> control_ok (e_tc e) ->
  SETBACK_FULL p <= tc_warm (e_tc e) ->
  tc_frost (e_tc e) <= computeTargetTemp p e <= MAX_TARGET_C /\
  (in_mode e VMODE_WARM -> tc_warm (e_tc e) - SETBACK_FULL p <= computeTargetTemp p e <= tc_warm (e_tc e)) /\
  (in_mode e VMODE_BAKE -> computeTargetTemp p e = Z.min (tc_warm (e_tc e) + bakeLiftC p) MAX_TARGET_C).
Proof.
  intros HB HE HK [HF HW] HS. pose proof (any_setbacks p HB HE) as (_ & SE & SF). pose proof HB as (_ & _ & _ & _ & B5 & B6 & B7).
  unfold byte in *. unfold computeTargetTemp. rewrite !fnmax_max, !fnmin_min. unfold BAKE_UPLIFT, SETBACK_DEFAULT, MIN_TARGET_C, MAX_TARGET_C in *.
  set (w := tc_warm (e_tc e)) in *. set (fr := tc_frost (e_tc e)) in *.
  assert (HM : in_mode e VMODE_WARM -> inWarmMode (e_mode e) = true /\ inBakeMode (e_mode e) = false) by (intros [[? _]|[[_ [A B]]|[? _]]]; [discriminate|auto|discriminate]).
  assert (HBm : in_mode e VMODE_BAKE -> inBakeMode (e_mode e) = true) by (intros [[? _]|[[? _]|[_ A]]]; [discriminate|discriminate|auto]).
  pose proof (bake_is_warm e) as HBW.
  destruct (inWarmMode (e_mode e)) eqn:EW; cbn [negb].
  - destruct (inBakeMode (e_mode e)) eqn:EB.
    + rewrite u8_id by (red; lia). split; [lia|]. split; [intros K; destruct (HM K); discriminate|reflexivity].
    + match goal with |- (_ <= ?T <= _) /\ _ => assert (HT : Z.max fr (w - SETBACK_FULL p) <= T <= w) end.
      { destruct (e_lockout e); [lia|].
        match goal with |- context [if ?b then Z.max (u8 (w - ?s)) fr else w] => destruct b; [|lia]; assert (HSB : 1 <= s <= SETBACK_FULL p) by (repeat (match goal with |- context [if ?c then _ else _] => destruct c end); lia); set (sb := s) in *; clearbody sb end.
        rewrite u8_id by (red; lia). lia. }
      split; [lia|]. split; [intros _; lia|]. intros K. discriminate (HBm K).
  - split; [|split; [intros K; destruct (HM K); discriminate|intros K; specialize (HBW (HBm K)); discriminate]].
    destruct (negb (longVacant (e_occ e)) && e_onSoon e && negb (e_recentUI e)); [|lia].
    destruct (tc_isEco _ _); rewrite u8_id by (red; lia); lia.
Qed.
(** All shipped sets are sensible, and one that is not in use. *)
Example sensible_ex : sensible DEFAULT_Params /\ sensible Proposed_Params /\ sensible DHW_Params /\ sensible (mkVCP 2 4 12 30 15 4 9).
Proof. unfold sensible, args_byte, byte. cbn. repeat split; lia. Qed.

(** ** Not every set of arguments keeps the documented ranges, and none is refused. *)
(** The comments require FROST < MAX, WARM_ECO <= MAX, FROST_COM > FROST_ECO and SETBACK_FULL > SETBACK_ECO. *)
Theorem params_ranges_refuted : exists p q, args_byte p /\ args_byte q /\
  FROST p = MAX_TARGET_C /\ WARM_ECO p = MAX_TARGET_C + 1 /\ FROST_COM p = FROST_ECO p /\
  SETBACK_FULL q < SETBACK_ECO q.
Proof. exists (mkVCP 200 0 0 0 10 3 6), (mkVCP 6 14 17 21 10 255 6). unfold args_byte, byte. cbn. repeat split; lia. Qed.
(** A comfort minimum above the scale makes the frost target exceed the warm target; warm arguments the wrong way
    round give an empty scale. *)
Theorem params_order_refuted : exists p q, args_byte p /\ args_byte q /\
  (exists w, TEMP_SCALE_MIN p <= w <= TEMP_SCALE_MAX p /\ tc_warm (tc_pot p w true) < tc_frost (tc_pot p w true)) /\
  TEMP_SCALE_MAX q < TEMP_SCALE_MIN q.
Proof.
  exists (mkVCP 6 19 17 21 10 3 6), (mkVCP 6 14 25 18 10 3 6).
  refine (conj _ (conj _ (conj (ex_intro _ 17 _) _))); unfold args_byte, byte; vm_compute; intuition congruence.
Qed.

(** ** The dial of any product with a small scale. *)
Lemma dial_loop_spec fuel : forall ppot band k mn n, 0 < band -> 0 <= ppot -> 0 <= k <= n -> n - k < Z.of_nat fuel ->
  n * band <= 255 -> 0 <= mn -> mn + n <= 255 -> (k = 0 \/ k * band <= ppot) ->
  dial_loop fuel ppot band (mn + k) (u8 ((k + 1) * band)) (mn + n) = mn + Z.min n (Z.max k (ppot / band)).
Proof.
  induction fuel as [|fuel IH]; intros ppot band k mn n Hb Hp Hk Hf HN Hm Hx HK; [lia|].
  cbn [dial_loop]. destruct (Z.eq_dec k n) as [->|Hne].
  - replace (mn + n <? mn + n) with false by lia. rewrite andb_false_r. lia.
  - replace (mn + k <? mn + n) with true by lia. rewrite andb_true_r.
    assert (HB : (k + 1) * band <= 255) by nia.
    rewrite (u8_id ((k + 1) * band)) by (red; nia).
    destruct (ppot >=? (k + 1) * band) eqn:E.
    + rewrite (u8_id (mn + k + 1)) by (red; lia).
      replace (mn + k + 1) with (mn + (k + 1)) by lia. replace ((k + 1) * band + band) with ((k + 1 + 1) * band) by lia.
      rewrite IH by lia.
      assert (k + 1 <= ppot / band) by (apply Z.div_le_lower_bound; lia). lia.
    + assert (ppot / band < k + 1) by (apply Z.div_lt_upper_bound; lia).
      assert (k <= ppot / band) by (destruct HK as [-> |HK]; [apply Z.div_pos; lia|apply Z.div_le_lower_bound; lia]). lia.
Qed.
Lemma dial_loop_0 fuel : forall ppot k mn n, 0 <= ppot -> 0 <= k <= n -> n - k < Z.of_nat fuel -> 0 <= mn -> mn + n <= 255 ->
  dial_loop fuel ppot 0 (mn + k) 0 (mn + n) = mn + n.
Proof.
  induction fuel as [|fuel IH]; intros ppot k mn n Hp Hk Hf Hm Hx; [lia|].
  cbn [dial_loop]. replace (ppot >=? 0) with true by lia. cbn [andb]. destruct (mn + k <? mn + n) eqn:E; [|lia].
  rewrite u8_id by (red; lia). replace (mn + k + 1) with (mn + (k + 1)) by lia. change (u8 (0 + 0)) with 0. apply IH; lia.
Qed.
(** Up to nine marks: whatever the end stops, within the scale, never falling as the dial is turned up, the ends of the
    scale at the end stops, and the frost target below it. *)
Theorem dial_any_product_partial p lo hi : sensible p -> comWarmC p - ecoWarmC p <= 6 -> byte lo -> byte hi ->
  exists f, (forall pot, byte pot -> computeWARMTargetC p pot lo hi = Some (f pot)) /\
    (forall pot, byte pot -> ecoWarmC p - 1 <= f pot <= comWarmC p + 1) /\
    (forall pot, byte pot -> pot <= lo -> f pot = ecoWarmC p - 1) /\
    (forall pot, byte pot -> lo < pot -> hi <= pot -> f pot = comWarmC p + 1) /\
    (forall pot pot', byte pot -> byte pot' -> pot <= pot' -> f pot <= f pot') /\
    (forall pot rh, byte pot -> pot_getFROSTTargetC p (f pot) rh <= f pot).
Proof.
  intros HS HD Hlo Hhi. pose proof (sensible_as_given p HS) as (F & G & W & C & _). destruct HS as (HB & H1 & H2 & H3 & H4).
  pose proof HB as (B1 & B2 & B3 & B4 & _). unfold byte in *.
  pose proof (any_warm p HB ltac:(lia) ltac:(lia)) as (_ & _ & _ & _ & TL & TH & _).
  rewrite W in TL. rewrite C in TH. set (mn := ecoWarmC p - 1) in *. set (n := comWarmC p - ecoWarmC p + 2).
  assert (HX : TEMP_SCALE_MAX p = mn + n) by (unfold mn, n; lia).
  assert (Hn : 2 <= n <= 8) by (unfold n; lia).
  assert (Hmn : 6 <= mn /\ mn + n <= 95) by (unfold mn, n; lia).
  set (D := n + 1).
  assert (Hshim : exists sh : bool, (negb (0 =? D) && (0 =? Z.land D (D + 1)) = sh)) by (eexists; reflexivity).
  destruct Hshim as [sh Hsh].
  set (R := if sh then u8 (D + 1) else D).
  assert (HR : R = D \/ R = D + 1) by (unfold R; destruct sh; [right; apply u8_id; red; unfold D; lia|left; reflexivity]).
  set (U := u8 (hi - lo + 1)). assert (HU : 0 <= U < 256) by apply u8_byte.
  set (bd := u8 ((U + R / 2) / R)).
  assert (HRd : 3 <= R <= 10) by (unfold D in HR; lia).
  assert (HR2 : 0 <= R / 2 <= 5) by (split; [apply Z.div_pos; lia|apply Z.div_le_upper_bound; lia]).
  assert (HR2' : R <= 2 * (R / 2) + 1) by (pose proof (Z.div_mod R 2 ltac:(lia)); pose proof (Z.mod_pos_bound R 2 ltac:(lia)); lia).
  assert (Hbd : 0 <= bd /\ R * bd <= U + R / 2).
  { assert (Hq : 0 <= (U + R / 2) / R < 256) by (split; [apply Z.div_pos; lia|apply Z.div_lt_upper_bound; nia]).
    unfold bd. rewrite u8_id by exact Hq. split; [lia|]. apply Z.mul_div_le. lia. }
  assert (HNB : n * bd <= 255).
  { assert (n <= R - 1) by (unfold D in HR; lia). destruct (Z.le_gt_cases (R / 2) bd); nia. }
  set (s := Z.shiftr bd 1).
  assert (Hs : 0 <= s) by (unfold s; rewrite Z.shiftr_div_pow2 by lia; apply Z.div_pos; lia).
  set (g := fun pb => if sh && (pb <=? s) then mn else
      let pp := if sh then pb - s else pb in if bd =? 0 then mn + n else mn + Z.min n (pp / bd)).
  set (f := fun pot => if pot <=? lo then mn else if pot >=? hi then mn + n else g (pot - lo)).
  assert (Hg : forall pb, 0 <= pb -> mn <= g pb <= mn + n).
  { intros pb Hpb. unfold g. cbv zeta. destruct (sh && (pb <=? s)) eqn:E; [lia|]. destruct (Z.eqb_spec bd 0); [lia|].
    assert (0 <= (if sh then pb - s else pb) / bd) by (apply Z.div_pos; [destruct sh; cbn [andb] in E; lia|lia]). lia. }
  assert (HF : forall pot, byte pot -> computeWARMTargetC p pot lo hi = Some (f pot)).
  { intros pot Hpot. red in Hpot. unfold computeWARMTargetC, f. rewrite TL, HX.
    destruct (pot <=? lo) eqn:E1; [reflexivity|]. destruct (pot >=? hi) eqn:E2; [reflexivity|].
    replace (u8 (mn + n - mn + 1)) with D by (symmetry; unfold D; replace (mn + n - mn + 1) with (n + 1) by lia; apply u8_id; red; lia).
    cbv zeta. rewrite Hsh. fold R U. fold bd. fold s. rewrite (u8_id (pot - lo)) by (red; lia). unfold g. cbv zeta.
    destruct (sh && (pot - lo <=? s)) eqn:E3; [reflexivity|].
    replace (D <? 10) with true by (unfold D; lia).
    assert (HP : (if sh then u8 (pot - lo - s) else pot - lo) = if sh then pot - lo - s else pot - lo).
    { destruct sh; [apply u8_id; red; cbn [andb] in E3; lia|reflexivity]. }
    rewrite HP. set (pp := if sh then pot - lo - s else pot - lo).
    assert (Hpp : 0 <= pp) by (unfold pp; destruct sh; cbn [andb] in E3; lia).
    f_equal. destruct (Z.eqb_spec bd 0) as [E0|E0].
    - rewrite E0. rewrite <- (Z.add_0_r mn) at 1. apply dial_loop_0; lia.
    - rewrite <- (Z.add_0_r mn) at 1. replace bd with (u8 ((0 + 1) * bd)) at 2 by (rewrite Z.mul_1_l; apply u8_id; red; nia).
      rewrite dial_loop_spec by (try lia; left; reflexivity).
      assert (0 <= pp / bd) by (apply Z.div_pos; lia). lia. }
  assert (Hfb : forall pot, mn <= f pot <= mn + n).
  { intros pot. unfold f. destruct (pot <=? lo) eqn:E1; [lia|]. destruct (pot >=? hi); [lia|]. apply Hg. lia. }
  exists f. split; [exact HF|]. split; [intros pot _; pose proof (Hfb pot); unfold mn, n in *; lia|].
  split; [intros pot _ HL; unfold f; replace (pot <=? lo) with true by lia; reflexivity|].
  split; [intros pot _ HL HH; unfold f; replace (pot <=? lo) with false by lia; replace (pot >=? hi) with true by lia; unfold mn, n; lia|].
  split.
  - intros a b _ _ Hab. pose proof (Hfb b). pose proof (Hfb a). unfold f. destruct (a <=? lo) eqn:A1.
    { unfold f in H. exact (proj1 H). }
    replace (b <=? lo) with false by lia. destruct (b >=? hi) eqn:EB; [unfold f in H0; rewrite A1 in H0; lia|].
    replace (a >=? hi) with false by lia. clear H H0. assert (HGM : forall x y, 0 <= x -> x <= y -> g x <= g y).
    { intros x y Hx Hxy. pose proof (Hg y ltac:(lia)). unfold g in *. cbv zeta in *. destruct (sh && (x <=? s)) eqn:X; [lia|].
      replace (sh && (y <=? s)) with false by (destruct sh; cbn [andb] in *; lia).
      destruct (Z.eqb_spec bd 0); [lia|].
      assert ((if sh then x - s else x) / bd <= (if sh then y - s else y) / bd) by (apply Z.div_le_mono; [lia|destruct sh; lia]). lia. }
    apply HGM; lia.
  - intros pot rh _. pose proof (Hfb pot). unfold pot_getFROSTTargetC. change (FROST_ECO p) with (FROST p).
    destruct (negb _ || rh); rewrite ?F, ?G; unfold mn in *; lia.
Qed.
