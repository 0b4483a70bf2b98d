(** Model of the valve mode and of the simple valve schedule:
    /repo/content/OTRadioLink/utility/OTRadValve_ValveMode.h 50-146,
    OTRadValve_SimpleValveSchedule.h 116-278 and OTRadValve_SimpleValveSchedule.cpp 50-204.
    The programme store is the list of programme bytes, one per schedule: RAM array in
    SimpleValveScheduleMock (217), EEPROM bytes in SimpleValveScheduleEEPROM; the two
    classes have the same logic and eeprom_smart_update_byte / _erase_byte leave exactly
    the byte asked for (C14). *)
From Verif Require Import Base.

(** ** ValveMode (OTRadValve_ValveMode.h) *)
Record VMode := mkVMode { isWarmMode : bool; bakeCountdownM : Z; vm_value : Z }.   (* 57, 62; value: SimpleTSUint8Sensor *)
Definition VMode0 := mkVMode false 0 0.                                            (* 57, 70 *)
Definition VMODE_FROST := 0.                                                       (* 67 *)
Definition VMODE_WARM := 1.
Definition VMODE_BAKE := 2.
Definition DEFAULT_BAKE_MAX_M := 31.                                               (* OTRadValve_Parameters.h 237 *)
Definition cancelBakeDebounced (v : VMode) : VMode := mkVMode (isWarmMode v) 0 (vm_value v). (* 140 *)
Definition setWarmModeDebounced (v : VMode) (warm : bool) : VMode :=               (* 128-132 *)
  let v := mkVMode warm (bakeCountdownM v) (vm_value v) in
  if negb warm then cancelBakeDebounced v else v.
Definition startBake (v : VMode) : VMode := mkVMode true DEFAULT_BAKE_MAX_M (vm_value v). (* 145 *)
Definition vmode_reset (v : VMode) : VMode := mkVMode (isWarmMode v) 0 (vm_value v). (* 74 *)
(** set(uint8_t), 82-93. *)
Definition vmode_set (v : VMode) (newValue : Z) : VMode * bool :=
  let upd v := (mkVMode (isWarmMode v) (bakeCountdownM v) newValue, true) in
  if newValue =? VMODE_FROST then upd (setWarmModeDebounced v false)
  else if newValue =? VMODE_WARM then upd (setWarmModeDebounced v true)
  else if newValue =? VMODE_BAKE then upd (startBake v)
  else (v, false).
(** _get(), 99-104. *)
Definition vmode__get (v : VMode) : Z :=
  if negb (isWarmMode v) then VMODE_FROST
  else if negb (0 =? bakeCountdownM v) then VMODE_BAKE
  else VMODE_WARM.
(** safeDecIfNZWeak, OTV0P2BASE_Concurrency.h 209-215, not interrupted. *)
Definition safeDecIfNZWeak (o : Z) : Z := if 0 =? o then o else u8 (o - 1).
(** read(), 108-114. *)
Definition vmode_read (v : VMode) : VMode * Z :=
  let v := mkVMode (isWarmMode v) (safeDecIfNZWeak (bakeCountdownM v)) (vm_value v) in
  let x := vmode__get v in
  (mkVMode (isWarmMode v) (bakeCountdownM v) x, x).
Definition inWarmMode (v : VMode) : bool := isWarmMode v.                          (* 123 *)
Definition inBakeMode (v : VMode) : bool := isWarmMode v && negb (0 =? bakeCountdownM v). (* 135 *)
Definition vmode_get (v : VMode) : Z := vm_value v.                                (* SimpleTSUint8Sensor::get *)

(** ** Schedules (OTRadValve_SimpleValveSchedule.h) *)
Definition MINS_PER_DAY := 1440.                                                   (* OTV0P2BASE_RTC.h 50 *)
Definition GRANULARITY := 6.                                                       (* 120 *)
Definition BASIC_ON := 60.                                                         (* 123 *)
Definition PREWARM_MINS := Z.max 30 (GRANULARITY + BASIC_ON / 2).                  (* 129 *)
Definition PREPREWARM_MINS := 3 * (PREWARM_MINS / 2).                              (* 136 *)
Definition MAX_COMPRESSED := MINS_PER_DAY / GRANULARITY - 1.                       (* 168 *)
Definition NONE16 := 65535.                                                        (* (uint_least16_t)~0 *)
Definition computeProgrammeByteFromTime (t : Z) : Z := u8 (t / GRANULARITY).       (* 176-180 *)
Definition computeTimeFromPrgrammeByte (b : Z) : Z := u16 (GRANULARITY * b).       (* 188-192 *)
Definition computeScheduleOnTimeFromProgrammeByte (b : Z) : Z :=                   (* 199-208 *)
  let startTime := computeTimeFromPrgrammeByte b in
  let startTime := if PREWARM_MINS >? startTime then u16 (startTime + MINS_PER_DAY) else startTime in
  u16 (startTime - PREWARM_MINS).

Definition Programmes := list Z.
Definition maxSchedules (p : Programmes) : Z := Zlen p.                            (* 225, 296 *)
Definition programme (p : Programmes) (which : Z) : Z := nth (Z.to_nat which) p 255.
(** getSimpleScheduleOn, .h 231-238 / .cpp 151-160. *)
Definition getSimpleScheduleOn (p : Programmes) (which : Z) : Z :=
  if which >=? maxSchedules p then NONE16
  else let startMM := programme p which in
    if startMM >? MAX_COMPRESSED then NONE16
    else computeScheduleOnTimeFromProgrammeByte startMM.
(** getSimpleScheduleOff, .cpp 84-92; [onTime] is onTime(). *)
Definition getSimpleScheduleOff (p : Programmes) (onTime which : Z) : Z :=
  let startMins := getSimpleScheduleOn p which in
  if startMins =? NONE16 then NONE16
  else let endTime := u16 (startMins + PREWARM_MINS + onTime) in
    if endTime >=? MINS_PER_DAY then u16 (endTime - MINS_PER_DAY) else endTime.
(** setSimpleSchedule, .h 246-253 / .cpp 168-178. *)
Definition setSimpleSchedule (p : Programmes) (start which : Z) : Programmes * bool :=
  if which >=? maxSchedules p then (p, false)
  else if start >=? MINS_PER_DAY then (p, false)
  else (firstn (Z.to_nat which) p ++ [computeProgrammeByteFromTime start] ++ skipn (S (Z.to_nat which)) p, true).
(** clearSimpleSchedule, .h 258-263 / .cpp 183-189. *)
Definition clearSimpleSchedule (p : Programmes) (which : Z) : Programmes :=
  if which >=? maxSchedules p then p
  else firstn (Z.to_nat which) p ++ [255] ++ skipn (S (Z.to_nat which)) p.
(** isAnySimpleScheduleSet, .h 269-277 / .cpp 193-204. *)
Fixpoint isAnySet_loop (p : Programmes) : bool :=
  match p with [] => false | b :: r => if b <=? MAX_COMPRESSED then true else isAnySet_loop r end.
Definition isAnySimpleScheduleSet (p : Programmes) : bool := isAnySet_loop p.

(** The test on one schedule, .cpp 106-125. *)
Definition one_on_now (p : Programmes) (onTime which mm : Z) : bool :=
  let s := getSimpleScheduleOn p which in
  if NONE16 =? s then false                                                        (* 108 *)
  else let e := getSimpleScheduleOff p onTime which in
    if s <? e then (s <=? mm) && (mm <? e)                                         (* 114-119 *)
    else (s <=? mm) || (mm <? e).                                                  (* 120-125 *)
(** Loop 104-126: [n] schedules still to look at from [which]. *)
Fixpoint on_now_loop (p : Programmes) (onTime mm : Z) (n : nat) (which : Z) : bool :=
  match n with
  | O => false
  | S k => if one_on_now p onTime which mm then true else on_now_loop p onTime mm k (which + 1)
  end.
(** isAnyScheduleOnWARMNow, .cpp 99-129. *)
Definition isAnyScheduleOnWARMNow (p : Programmes) (onTime mm : Z) : bool :=
  if mm >=? MINS_PER_DAY then false
  else on_now_loop p onTime mm (Z.to_nat (maxSchedules p)) 0.
(** isAnyScheduleOnWARMSoon, .cpp 136-142. *)
Definition isAnyScheduleOnWARMSoon (p : Programmes) (onTime mm : Z) : bool :=
  if mm >=? MINS_PER_DAY then false
  else let mm0 := u16 (mm + PREPREWARM_MINS) in
    let mmadj := if mm0 >=? MINS_PER_DAY then u16 (mm0 - MINS_PER_DAY) else mm0 in
    isAnyScheduleOnWARMNow p onTime mmadj.

(** applyUserSchedule, .cpp 50-78. *)
Definition apply_one (p : Programmes) (onTime mm : Z) (v : VMode) (which : Z) : VMode :=
  if negb (isAnyScheduleOnWARMNow p onTime mm) && (mm =? getSimpleScheduleOff p onTime which)
  then setWarmModeDebounced v false                                                (* 66-70 *)
  else if mm =? getSimpleScheduleOn p which then setWarmModeDebounced v true       (* 73-76 *)
  else v.
Fixpoint apply_loop (p : Programmes) (onTime mm : Z) (n : nat) (which : Z) (v : VMode) : VMode :=
  match n with
  | O => v
  | S k => apply_loop p onTime mm k (which + 1) (apply_one p onTime mm v which)
  end.
Definition applyUserSchedule (p : Programmes) (onTime : Z) (v : VMode) (mm : Z) : VMode :=
  apply_loop p onTime mm (Z.to_nat (maxSchedules p)) 0 v.

(** onTime() of SimpleValveSchedule, .h 339-364; [wt_eco], [wt_comfort] and
    [longVacant] are the results of isEcoTemperature(wt), isComfortTemperature(wt) and
    of the occupancy test at 358. *)
Definition learned_onTime (learnedOnM learnedOnComfortM : Z) (wt_eco wt_comfort longVacant : bool) : Z :=
  if learnedOnM =? learnedOnComfortM then learnedOnM
  else if wt_eco then learnedOnM
  else if wt_comfort then learnedOnComfortM
  else if longVacant then learnedOnM
  else u8 ((learnedOnM + learnedOnComfortM) / 2).

(** Operations on the valve mode by the user or the minute tick. *)
Inductive vop := VSet (n : Z) | VRead | VWarm (b : bool) | VCancel | VStartBake | VReset.
Definition vstep (v : VMode) (o : vop) : VMode :=
  match o with
  | VSet n => fst (vmode_set v n)
  | VRead => fst (vmode_read v)
  | VWarm b => setWarmModeDebounced v b
  | VCancel => cancelBakeDebounced v
  | VStartBake => startBake v
  | VReset => vmode_reset v
  end.
Definition vrun (v : VMode) (l : list vop) : VMode := fold_left vstep l v.

(** A minute of a controller's life: some operations, then the schedule is applied with
    the on-time then in force (AppDriver main loops call applyUserSchedule once a minute). *)
Definition minute_step (p : Programmes) (mm : Z) (v : VMode) (m : list vop * Z) : VMode :=
  applyUserSchedule p (snd m) (vrun v (fst m)) mm.
(** State after the given minutes, the first being minute [mm0] of the day. *)
Fixpoint sched_run (p : Programmes) (mm0 : Z) (v : VMode) (l : list (list vop * Z)) : VMode :=
  match l with
  | [] => v
  | m :: r => sched_run p ((mm0 + 1) mod MINS_PER_DAY) (minute_step p mm0 v m) r
  end.
