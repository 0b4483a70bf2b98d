(** The complete modelled valve: /repo/content/OTRadioLink/utility/OTRadValve_ModelledRadValve.h
    361-414 (setupInputState), 685-765, 785, 814-823, 904-979, composed from the models of
    the valve mode, the target temperature and the valve position computation. *)
From Verif Require Import Base EepromModel EepromProofs OccModel ScheduleModel TempModel TempProps ValveModel ValveProps ValveSettle ValveFrost.

(** Fixed at construction, 749-765. *)
Record Cfg := mkCfg { c_params : VCP; c_maxPC : Z; c_alwaysGlacial : bool; c_binary : bool; c_aggressive : bool }.
Definition cfg_maxPC (c : Cfg) := fnmin (c_maxPC c) 100.                                        (* 759 *)
Record Whole := mkW { w_ret : VState; w_value : Z; w_mode : VMode; w_target : Z; w_setback : Z;
                      w_under : bool; w_calling : bool; w_glacial : bool }.
(** What one minute brings: user operations on the mode since the last one, the other
    inputs of the target computation, the room temperature, whether controls were used very
    recently or new occupancy was just reported, a dark room, the attached device (get()
    before, get() after set(), isControlledValveReallyOpen()) and getMinPercentOpen(). *)
Record Minute := mkMin { m_ops : list vop; m_env : Env; m_tempC16 : Z; m_fast : bool; m_dark : bool;
                         m_phys : option (Z * Z * bool); m_minOpen : Z }.
Definition with_mode (e : Env) (v : VMode) : Env :=
  mkEnv v (e_tc e) (e_occ e) (e_onNow e) (e_onSoon e) (e_recentUI e) (e_lockout e) (e_dm e) (e_hThis e) (e_hNext e) (e_dark e) (e_veryDark e) (e_rhHigh e) (e_zeroThisHour e).
(** setupInputState, 361-414. *)
Definition setupInputState (newTargetC maxPC : Z) (glacial : bool) (mode : VMode) (m : Minute) : VIn :=
  let wt := tc_warm (e_tc (m_env m)) in                                                        (* 376 *)
  mkVIn newTargetC wt maxPC                                                                    (* 375, 377, 379 *)
        (negb (m_fast m) && ((newTargetC <? wt) || m_dark m))                                  (* 410-411 *)
        (glacial || (maxPC <? SAFER_OPEN))                                                     (* 384 *)
        (inBakeMode mode)                                                                      (* 385 *)
        (m_fast m)                                                                             (* 393-396 *)
        (setReferenceTemperature (m_tempC16 m)).                                               (* 413 *)
(** read() -> computeCallForHeat, 728-738, 785 and computeTargetTemperature, 949-979. *)
Definition whole_read (c : Cfg) (w : Whole) (m : Minute) : Whole :=
  let mode := fst (vmode_read (vrun (w_mode w) (m_ops m))) in                                  (* 730 *)
  let e := with_mode (m_env m) mode in
  let newTargetTemp := computeTargetTemp (c_params c) e in                                     (* 952 *)
  let i := setupInputState newTargetTemp (cfg_maxPC c) (w_glacial w) mode m in                 (* 955-957 *)
  let wt := tc_warm (e_tc e) in
  let setback := if inWarmMode mode then (if newTargetTemp <? wt then u8 (wt - newTargetTemp) else 0) else 0 in (* 962-967 *)
  let targetReached := newTargetTemp <=? Z.shiftr (refTempC16 i) 4 in                          (* 970 *)
  let mode' := if targetReached then cancelBakeDebounced mode else mode in                     (* 973 *)
  let reallyOpen := (match m_phys m with Some (_, _, false) => false | _ => true end) && (w_value w >=? m_minOpen m) in (* 814-819 *)
  let calling := negb targetReached && (w_value w >=? SAFER_OPEN) && reallyOpen in             (* 976-978 *)
  let t := tick (c_binary c) (c_aggressive c) (w_ret w) (w_value w) i
                (match m_phys m with Some (g1, g2, _) => Some (g1, g2) | None => None end) in  (* 737 *)
  mkW (fst t) (snd t) mode' newTargetTemp setback (negb targetReached) calling (w_glacial w).
Definition whole0 (c : Cfg) (junk : list Z) : Whole :=
  mkW (VS_new (c_alwaysGlacial c) junk) 0 VMode0 0 0 false false (c_alwaysGlacial c).
Definition whole_run (c : Cfg) (w : Whole) (l : list Minute) : Whole := fold_left (whole_read c) l w.

(** The input the position computation was given in that minute. *)
Definition whole_input (c : Cfg) (w : Whole) (m : Minute) : VIn :=
  let mode := fst (vmode_read (vrun (w_mode w) (m_ops m))) in
  setupInputState (computeTargetTemp (c_params c) (with_mode (m_env m) mode)) (cfg_maxPC c) (w_glacial w) mode m.
Fixpoint whole_hist (c : Cfg) (w : Whole) (l : list Minute) : hist :=
  match l with [] => [] | m :: r => (whole_input c w m, match m_phys m with Some (g1, g2, _) => Some (g1, g2) | None => None end) :: whole_hist c (whole_read c w m) r end.
Lemma whole_is_trun c : forall l w,
  (w_ret (whole_run c w l), w_value (whole_run c w l)) = trun (c_binary c) (c_aggressive c) (w_ret w, w_value w) (whole_hist c w l).
Proof.
  induction l as [|m l IH]; intros w; [reflexivity|]. cbn [whole_hist]. rewrite trun_cons. cbn [fst snd].
  change (whole_run c w (m :: l)) with (whole_run c (whole_read c w m) l). rewrite IH. unfold whole_read. cbn [w_ret w_value].
  rewrite <- surjective_pairing. reflexivity.
Qed.
Lemma whole_hist_length c : forall l w, length (whole_hist c w l) = length l.
Proof. induction l as [|m l IH]; intros w; [reflexivity|]. cbn [whole_hist length]. rewrite IH. reflexivity. Qed.
Lemma maxPC_range c : 0 <= c_maxPC c -> 0 <= cfg_maxPC c <= 100.
Proof. intros. unfold cfg_maxPC. rewrite fnmin_min. lia. Qed.

(** ** C60: reported state *)
(** The room as the code measures it: whole degrees of the reading plus half a degree. *)
Definition room (m : Minute) : Z := (m_tempC16 m + 8) / 16.
Lemma room_ref t mx g v m : Z.shiftr (refTempC16 (setupInputState t mx g v m)) 4 = room m.
Proof. unfold setupInputState, setReferenceTemperature, refTempOffsetC16, room. cbn [refTempC16]. rewrite Z.shiftr_div_pow2 by lia. reflexivity. Qed.
Theorem calling_for_heat_sound : forall c w m, w_calling (whole_read c w m) = true ->
  room m < w_target (whole_read c w m) /\ 50 <= w_value w /\ m_minOpen m <= w_value w /\
  (forall g1 g2 o, m_phys m = Some (g1, g2, o) -> o = true).
Proof.
  intros c w m. unfold whole_read. cbn [w_calling w_target]. rewrite room_ref. unfold SAFER_OPEN. intros H.
  apply andb_true_iff in H as [H H3]. apply andb_true_iff in H as [H1 H2]. apply andb_true_iff in H3 as [H3 H4].
  split; [lia|]. split; [lia|]. split; [lia|]. intros g1 g2 o E. rewrite E in H3. destruct o; [reflexivity|discriminate].
Qed.
Theorem calling_for_heat_complete : forall c w m, room m < w_target (whole_read c w m) -> 50 <= w_value w -> m_minOpen m <= w_value w ->
  (m_phys m = None \/ exists g1 g2, m_phys m = Some (g1, g2, true)) -> w_calling (whole_read c w m) = true.
Proof.
  intros c w m. unfold whole_read. cbn [w_calling w_target]. rewrite room_ref. unfold SAFER_OPEN. intros H1 H2 H3 H4.
  replace (_ <=? room m) with false by lia. replace (w_value w >=? 50) with true by lia. replace (w_value w >=? m_minOpen m) with true by lia.
  destruct H4 as [-> | (g1 & g2 & ->)]; reflexivity.
Qed.
Theorem under_target_iff : forall c w m, w_under (whole_read c w m) = true <-> room m < w_target (whole_read c w m).
Proof. intros c w m. unfold whole_read. cbn [w_under w_target]. rewrite room_ref. lia. Qed.
(** Reaching the target ends BAKE. *)
Theorem bake_ends_at_target : forall c w m, w_target (whole_read c w m) <= room m -> inBakeMode (w_mode (whole_read c w m)) = false.
Proof.
  intros c w m. unfold whole_read. cbn [w_mode w_target]. rewrite room_ref. intros H.
  replace (_ <=? room m) with true by lia. unfold cancelBakeDebounced, inBakeMode. cbn [isWarmMode bakeCountdownM]. cbn. apply andb_false_r.
Qed.
(** The reported setback is the amount below the warm target, or 0 in frost mode. *)
Theorem setback_reported : forall c w m, shipped (c_params c) -> control_ok (e_tc (m_env m)) ->
  let w' := whole_read c w m in
  (inWarmMode (w_mode w') = true -> w_setback w' = Z.max 0 (tc_warm (e_tc (m_env m)) - w_target w') /\ w_setback w' <= 6) /\
  (inWarmMode (w_mode w') = false -> w_setback w' = 0).
Proof.
  intros c w m Hp Hc. cbv zeta. unfold whole_read. cbn [w_mode w_setback w_target].
  set (mode := fst (vmode_read (vrun (w_mode w) (m_ops m)))).
  assert (HW : forall b, inWarmMode (if b : bool then cancelBakeDebounced mode else mode) = inWarmMode mode) by (intros [|]; reflexivity).
  rewrite HW. set (e := with_mode (m_env m) mode). change (e_tc (m_env m)) with (e_tc e). change (e_tc (m_env m)) with (e_tc e) in Hc.
  assert (EM : e_mode e = mode) by reflexivity.
  pose proof (C31_in_range (c_params c) e Hp Hc) as HR. pose proof Hc as [HF HWm]. unfold MIN_TARGET_C, MAX_TARGET_C in *.
  split; intros HM; rewrite HM; [|reflexivity].
  destruct (computeTargetTemp (c_params c) e <? tc_warm (e_tc e)) eqn:E; [|split; lia].
  rewrite u8_id by (unfold byte; lia). split; [lia|].
  destruct (inBakeMode mode) eqn:EB.
  - rewrite (C31_bake (c_params c) e Hp Hc) in E by (right; right; rewrite EM; auto). unfold MAX_TARGET_C in E. lia.
  - pose proof (C31_warm_bounds (c_params c) e Hp Hc ltac:(right; left; rewrite EM; auto)). lia.
Qed.

(** ** C61: frost protection and overheating of the complete valve *)
Lemma whole_inputs_Forall c (P : VIn -> Prop) (Q : Minute -> Prop) : 
  (forall w m, Q m -> P (whole_input c w m)) -> forall l w, Forall Q l -> Forall P (inputs (whole_hist c w l)).
Proof.
  intros H. induction l as [|m l IH]; intros w Hl; [constructor|]. apply Forall_cons_iff in Hl as [H1 H2]. cbn [whole_hist inputs map].
  constructor; [apply H, H1|]. apply IH, H2.
Qed.
(** A room under 4.5C (any sensible sensor value) for 125 minutes, or 26 when nothing makes the
    valve glacial: open to its permitted maximum, whatever the mode, schedule, controls, occupancy
    and past. *)
Theorem whole_frost_protection : forall c w l, c_binary c = false -> 0 <= c_maxPC c -> live (w_ret w) -> 0 <= w_value w <= 100 ->
  Forall (fun m => -2040 <= m_tempC16 m < 72) l -> (125 <= length l)%nat -> w_value (whole_run c w l) = cfg_maxPC c.
Proof.
  intros c w l Hb HM HL Hv Hl Hn. pose proof (whole_is_trun c l w) as HT. rewrite Hb in HT.
  assert (w_value (whole_run c w l) = snd (trun false (c_aggressive c) (w_ret w, w_value w) (whole_hist c w l))) as -> by (rewrite <- HT; reflexivity).
  apply frost_protection; [exact HL|exact Hv|apply maxPC_range, HM| |left; rewrite whole_hist_length; exact Hn].
  apply (whole_inputs_Forall c _ (fun m => -2040 <= m_tempC16 m < 72)); [|exact Hl]. intros w' m Hm.
  unfold whole_input, setupInputState, colder, setReferenceTemperature, refTempOffsetC16. cbn [refTempC16 maxPCOpen]. lia.
Qed.
(** Binary operation likewise (the computed target is never under 5C). *)
Theorem whole_frost_protection_binary : forall c w l, shipped (c_params c) -> c_binary c = true -> 0 <= c_maxPC c -> live (w_ret w) -> 0 <= w_value w <= 100 ->
  Forall (fun m => -2040 <= m_tempC16 m < 72 /\ control_ok (e_tc (m_env m))) l -> (26 <= length l)%nat -> w_value (whole_run c w l) = cfg_maxPC c.
Proof.
  intros c w l Hp Hb HM HL Hv Hl Hn. pose proof (whole_is_trun c l w) as HT. rewrite Hb in HT.
  assert (w_value (whole_run c w l) = snd (trun true (c_aggressive c) (w_ret w, w_value w) (whole_hist c w l))) as -> by (rewrite <- HT; reflexivity).
  apply frost_protection_binary; [exact HL|exact Hv|apply maxPC_range, HM| |rewrite whole_hist_length; exact Hn].
  apply (whole_inputs_Forall c _ (fun m => -2040 <= m_tempC16 m < 72 /\ control_ok (e_tc (m_env m)))); [|exact Hl]. intros w' m [Hm Hc].
  unfold whole_input. set (mode := fst _). set (e := with_mode (m_env m) mode).
  pose proof (C31_in_range (c_params c) e Hp Hc) as HR. unfold MIN_TARGET_C in HR.
  unfold setupInputState, colder, setReferenceTemperature, refTempOffsetC16. cbn [refTempC16 maxPCOpen targetTempC]. lia.
Qed.
(** A room that stays well above even the BAKE target closes the valve within 25 minutes. *)
Theorem whole_overheat_closes : forall c w l T, shipped (c_params c) -> 0 <= c_maxPC c -> live (w_ret w) -> 0 <= w_value w <= 100 -> 0 <= T <= 128 ->
  Forall (fun m => 16 * T + 8 <= m_tempC16 m <= 2039 /\ control_ok (e_tc (m_env m)) /\ Z.min (tc_warm (e_tc (m_env m)) + 17) 95 <= T) l ->
  (25 <= length l)%nat -> w_value (whole_run c w l) = 0.
Proof.
  intros c w l T Hp HM HL Hv HT0 Hl Hn. pose proof (whole_is_trun c l w) as HT.
  assert (w_value (whole_run c w l) = snd (trun (c_binary c) (c_aggressive c) (w_ret w, w_value w) (whole_hist c w l))) as -> by (rewrite <- HT; reflexivity).
  apply (hot_room_closes_fully (c_binary c) (c_aggressive c) _ _ _ T HL Hv HT0); [|rewrite whole_hist_length; exact Hn].
  apply (whole_inputs_Forall c _ (fun m => 16 * T + 8 <= m_tempC16 m <= 2039 /\ control_ok (e_tc (m_env m)) /\ Z.min (tc_warm (e_tc (m_env m)) + 17) 95 <= T)); [|exact Hl].
  intros w' m (Hm & Hc & HT1). unfold whole_input. set (mode := fst _). set (e := with_mode (m_env m) mode).
  change (e_tc (m_env m)) with (e_tc e) in Hc, HT1. pose proof Hc as [HF HW].
  pose proof (C31_in_range (c_params c) e Hp Hc) as HR. unfold MIN_TARGET_C, MAX_TARGET_C in *.
  assert (computeTargetTemp (c_params c) e <= Z.min (tc_warm (e_tc e) + 10) 95) as HB.
  { destruct (inBakeMode mode) eqn:EB; [rewrite (C31_bake (c_params c) e Hp Hc) by (right; right; auto); unfold MAX_TARGET_C; lia|].
    destruct (inWarmMode mode) eqn:EW; [pose proof (C31_warm_bounds (c_params c) e Hp Hc ltac:(right; left; auto)); lia|].
    pose proof (C31_frost (c_params c) e Hp Hc ltac:(left; auto)) as [HH _]. lia. }
  pose proof (maxPC_range c HM).
  unfold hotter, targets_ok, in_ok, close_above, setupInputState, setReferenceTemperature, refTempOffsetC16. cbn [refTempC16 maxPCOpen targetTempC maxTargetTempC].
  change (e_tc (m_env m)) with (e_tc e). destruct (c_binary c); lia.
Qed.
(** The stored "really open" threshold, 908-913, 922-932 (AVR build). *)
Definition EE_MIN_OPEN := 19.                                                  (* OTV0P2BASE_EEPROM.h 124 *)
Definition DEFAULT_MIN_REALLY_OPEN := 15.                                      (* OTRadValve_Parameters.h 253 *)
Definition getMinValvePcReallyOpen (m : Z -> Z) : Z :=
  let stored := m EE_MIN_OPEN in if (stored >? 0) && (stored <=? 100) then stored else DEFAULT_MIN_REALLY_OPEN.
Definition setMinValvePcReallyOpen (percent : Z) : M bool :=
  if (percent >? 100) || (percent =? 0) || (percent =? DEFAULT_MIN_REALLY_OPEN)
  then smart_erase EE_MIN_OPEN else smart_update EE_MIN_OPEN percent.
Theorem min_open_round_trip : forall percent s f, 0 <= percent < 256 -> (1 <= f)%nat ->
  exists s' r f', setMinValvePcReallyOpen percent s f = (s', Some (r, f')) /\
    getMinValvePcReallyOpen (mem s') = (if (1 <=? percent) && (percent <=? 100) then percent else 15) /\
    forall q, q <> EE_MIN_OPEN -> mem s' q = mem s q.
Proof.
  intros percent s f Hp Hf.
  assert (HE : exists v r, does (setMinValvePcReallyOpen percent) s [(EE_MIN_OPEN, v)] r /\ (if (v >? 0) && (v <=? 100) then v else 15) = (if (1 <=? percent) && (percent <=? 100) then percent else 15)).
  { unfold setMinValvePcReallyOpen, DEFAULT_MIN_REALLY_OPEN. destruct ((percent >? 100) || (percent =? 0) || (percent =? 15)) eqn:E.
    - exists 255. eexists. split; [apply does_smart_erase|]. cbn. destruct ((1 <=? percent) && (percent <=? 100)) eqn:E2; lia.
    - exists percent. eexists. split; [apply does_smart_update|]. replace ((1 <=? percent) && (percent <=? 100)) with true by lia. replace ((percent >? 0) && (percent <=? 100)) with true by lia. reflexivity. }
  destruct HE as (v & r & HD & HV). destruct (does_complete _ s _ r HD f ltac:(cbn; lia)) as (s' & f' & E & Hm).
  exists s', r, f'. split; [exact E|].
  assert (HQ : forall q, mem s' q = if q =? EE_MIN_OPEN then v else mem s q) by (intros q; rewrite (Hm q); reflexivity).
  unfold getMinValvePcReallyOpen, DEFAULT_MIN_REALLY_OPEN. rewrite !HQ. change (EE_MIN_OPEN =? EE_MIN_OPEN) with true. cbv iota. split; [exact HV|].
  intros q Hq. rewrite HQ. replace (q =? EE_MIN_OPEN) with false by lia. reflexivity.
Qed.
(** Whatever is stored, the threshold is 1 to 100. *)
Theorem min_open_in_range : forall m, 1 <= getMinValvePcReallyOpen m <= 100.
Proof. intros m. unfold getMinValvePcReallyOpen, DEFAULT_MIN_REALLY_OPEN. destruct (_ && _) eqn:E; lia. Qed.

(** A new WARM-mode valve in a 10C room: opens, then calls for heat from the second minute. *)
Definition ex_env := mkEnv VMode0 (tc_simple DEFAULT_Params) (mkOcc 50 0 0 0 0) false false false false 0 0 0 false false false false.
Definition ex_cfg := mkCfg DEFAULT_Params 100 false false true.
Definition ex_min (ops : list vop) t := mkMin ops ex_env t false false None 15.
Example whole_example :
  let w1 := whole_read ex_cfg (whole0 ex_cfg []) (ex_min [VWarm true] 160) in
  let w2 := whole_read ex_cfg w1 (ex_min [] 160) in
  let w3 := whole_read ex_cfg w2 (ex_min [] 320) in
  (w_target w1, w_value w1, w_calling w1) = (18, 100, false) /\ w_calling w2 = true /\ w_calling w3 = false /\
  live (w_ret (whole0 ex_cfg [])).
Proof. split; [vm_compute; reflexivity|]. split; [vm_compute; reflexivity|]. split; [vm_compute; reflexivity|]. apply live_new. Qed.
