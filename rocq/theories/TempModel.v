(** Model of the temperature controls and of the target temperature computation:
    /repo/content/OTRadioLink/utility/OTRadValve_Parameters.h 46-143, 178-234,
    OTRadValve_TempControl.h 89-307, OTV0P2BASE_SensorTemperaturePot.h 52-265 and
    OTRadValve_ModelledRadValve.h 106-118, 167-345 (computeTargetTemp, "Basic"),
    516-643 ("2016").  Occupancy and valve mode are the models of OccModel and
    ScheduleModel; the schedule, light, humidity and by-hour statistics inputs are taken
    as arbitrary values (a simplification in the direction of more behaviours). *)
From Verif Require Import Base EepromModel OccModel ScheduleModel.

Definition MIN_TARGET_C := 5.                       (* Parameters.h 46 *)
Definition MAX_TARGET_C := 95.                      (* Parameters.h 48 *)
Definition SAFE_ROOM_TEMPERATURE := 18.             (* Parameters.h 59 *)
Definition fnmin (a b : Z) := if a >? b then b else a. (* OTV0P2BASE_Util.h 66 *)
Definition fnmax (a b : Z) := if a <? b then b else a. (* OTV0P2BASE_Util.h 67 *)
(** Template arguments of ValveControlParameters, 76-77. *)
Record VCP := mkVCP { ecoMinC : Z; comMinC : Z; ecoWarmC : Z; comWarmC : Z; bakeLiftC : Z; setbackECO : Z; setbackFULL : Z }.
Definition FROST p := fnmin (fnmax (ecoMinC p) MIN_TARGET_C) MAX_TARGET_C.                    (* 83 *)
Definition FROST_ECO p := FROST p.                                                            (* 86 *)
Definition FROST_COM p := fnmax (fnmin (comMinC p) MAX_TARGET_C) (FROST_ECO p).               (* 89 *)
Definition WARM_ECO p := fnmax (fnmin (ecoWarmC p) MAX_TARGET_C) (u8 (FROST_ECO p + 1)).      (* 94 *)
Definition WARM_COM p := fnmax (fnmin (comWarmC p) MAX_TARGET_C) (u8 (FROST_COM p + 1)).      (* 97 *)
Definition WARM p := fnmax (WARM_ECO p) SAFE_ROOM_TEMPERATURE.                                (* 99 *)
Definition TEMP_SCALE_MIN p := u8 (WARM_ECO p - 1).                                           (* 104 *)
Definition TEMP_SCALE_MID p := u8 ((WARM_ECO p + WARM_COM p + 1) / 2).                        (* 106 *)
Definition TEMP_SCALE_MAX p := u8 (WARM_COM p + 1).                                           (* 108 *)
Definition BAKE_UPLIFT p := bakeLiftC p.                                                      (* 113 *)
Definition SETBACK_DEFAULT := 1.                                                              (* 119 *)
Definition SETBACK_ECO p := fnmax (setbackECO p) (u8 (SETBACK_DEFAULT + 1)).                  (* 124-125 *)
Definition SETBACK_FULL p := fnmax (setbackFULL p) (u8 (SETBACK_ECO p + 1)).                  (* 141-142 *)
Definition DEFAULT_Params := mkVCP 6 14 17 21 10 3 6.   (* 178-196 *)
Definition Proposed_Params := mkVCP 6 14 16 22 10 3 6.  (* 202-221 *)
Definition DHW_Params := mkVCP 6 20 45 65 10 3 6.       (* 224-234 *)

(** TempControlTempPot_computeWARMTargetC, TempControl.h 222-263.  [None] is the division
    by zero of line 262 (undefined). *)
Fixpoint dial_loop (fuel : nat) (ppot band result bottom maxT : Z) : Z :=                     (* 254-258 *)
  match fuel with
  | O => result
  | S k => if (ppot >=? bottom) && (result <? maxT) then dial_loop k ppot band (u8 (result + 1)) (u8 (bottom + band)) maxT else result
  end.
Definition computeWARMTargetC (p : VCP) (pot lo hi : Z) : option Z :=
  if pot <=? lo then Some (TEMP_SCALE_MIN p)                                  (* 226 *)
  else if pot >=? hi then Some (TEMP_SCALE_MAX p)                             (* 227 *)
  else
    let usefulScale := u8 (hi - lo + 1) in                                    (* 231 *)
    let DIAL_TEMPS := u8 (TEMP_SCALE_MAX p - TEMP_SCALE_MIN p + 1) in         (* 232 *)
    let range := DIAL_TEMPS in
    let doShim := negb (0 =? range) && (0 =? Z.land range (range + 1)) in     (* 234, 239 *)
    let rangeUsed := if doShim then u8 (range + 1) else range in              (* 240 *)
    let band := u8 ((usefulScale + rangeUsed / 2) / rangeUsed) in             (* 242 *)
    let ppotBasic := u8 (pot - lo) in                                         (* 244 *)
    let shimWidth := Z.shiftr band 1 in                                       (* 245 *)
    if doShim && (ppotBasic <=? shimWidth) then Some (TEMP_SCALE_MIN p)       (* 246 *)
    else let ppot := if doShim then u8 (ppotBasic - shimWidth) else ppotBasic in (* 247 *)
      if DIAL_TEMPS <? 10 then                                                (* 250 *)
        Some (dial_loop 256 ppot band (TEMP_SCALE_MIN p) band (TEMP_SCALE_MAX p))
      else if band =? 0 then None
      else Some (u8 (ppot / band + TEMP_SCALE_MIN p)).                        (* 262 *)

(** What a temperature control offers, TempControl.h 44-69. *)
Record TempControl := mkTC { tc_frost : Z; tc_warm : Z; tc_ecoBias : bool; tc_isEco : Z -> bool; tc_isComfort : Z -> bool }.
Definition isEcoTemperature (p : VCP) (t : Z) := t <=? WARM_ECO p.            (* 129 *)
Definition isComfortTemperature (p : VCP) (t : Z) := t >=? WARM_COM p.        (* 131 *)
Definition hasEcoBias (p : VCP) (warm : Z) := warm <=? TEMP_SCALE_MID p.      (* 127 *)
(** NULLTempControl, 89-112. *)
Definition tc_null : TempControl := mkTC MIN_TARGET_C SAFE_ROOM_TEMPERATURE true (fun t => t <? SAFE_ROOM_TEMPERATURE) (fun t => t >? SAFE_ROOM_TEMPERATURE).
(** TempControlSimpleVCP, 117-136. *)
Definition tc_simple (p : VCP) : TempControl := mkTC (FROST p) (WARM p) (hasEcoBias p (WARM p)) (isEcoTemperature p) (isComfortTemperature p).
(** TempControlTempPot, 276-307: cached (potLast, resultLast), and the dial position. *)
Definition PotCache := (Z * Z)%type.
Definition PotCache0 : PotCache := (0, 0).                                    (* 280-281 *)
Definition pot_getWARMTargetC (p : VCP) (lo hi : Z) (c : PotCache) (pot : Z) : option (PotCache * Z) := (* 291-306 *)
  if negb (fst c =? pot) || (0 =? snd c) then
    do r <- computeWARMTargetC p pot lo hi; Some ((pot, r), r)
  else Some (c, snd c).
Definition pot_getFROSTTargetC (p : VCP) (warm : Z) (rhHigh : bool) : Z :=    (* 284-289 *)
  if negb (hasEcoBias p warm) || rhHigh then FROST_COM p else FROST_ECO p.
Definition tc_pot (p : VCP) (warm : Z) (rhHigh : bool) : TempControl :=
  mkTC (pot_getFROSTTargetC p warm rhHigh) warm (hasEcoBias p warm) (isEcoTemperature p) (isComfortTemperature p).
(** TempControlSimpleEEPROMBacked, 167-210. *)
Definition EE_FROST_C := 14. Definition EE_WARM_C := 15.                      (* OTV0P2BASE_EEPROM.h 112-113 *)
Definition ee_getFROSTTargetC (p : VCP) (m : Z -> Z) : Z :=                   (* 180-188 *)
  let stored := m EE_FROST_C in if (stored <? TEMP_SCALE_MIN p) || (stored >? TEMP_SCALE_MAX p) then FROST p else stored.
Definition ee_getWARMTargetC (p : VCP) (m : Z -> Z) : Z :=                    (* 170-178 *)
  let stored := m EE_WARM_C in
  if (stored <? TEMP_SCALE_MIN p) || (stored >? TEMP_SCALE_MAX p) then fnmax (WARM p) (ee_getFROSTTargetC p m) else fnmax stored (ee_getFROSTTargetC p m).
Definition tc_eeprom (p : VCP) (m : Z -> Z) : TempControl :=
  let w := ee_getWARMTargetC p m in mkTC (ee_getFROSTTargetC p m) w (hasEcoBias p w) (isEcoTemperature p) (isComfortTemperature p).
Definition ee_setFROSTTargetC (p : VCP) (t : Z) : M bool := fun s f =>        (* 193-199 *)
  if (t <? TEMP_SCALE_MIN p) || (t >? TEMP_SCALE_MAX p) then ret false s f
  else if t >? ee_getWARMTargetC p (mem s) then ret false s f
  else (run _ <- smart_update EE_FROST_C t; ret true) s f.
Definition ee_setWARMTargetC (p : VCP) (t : Z) : M bool := fun s f =>         (* 203-209 *)
  if (t <? TEMP_SCALE_MIN p) || (t >? TEMP_SCALE_MAX p) then ret false s f
  else if t <? ee_getFROSTTargetC p (mem s) then ret false s f
  else (run _ <- smart_update EE_WARM_C t; ret true) s f.

(** The dial sensor, SensorTemperaturePot.h.  End stops from the expected range, 161-177. *)
Definition RN_FRBO := 8.                                                      (* 59, 68 *)
Definition computeLoEndStop (mn mx : Z) : Z :=
  let r := u8 (fnmin (Z.shiftr mn 2) (Z.shiftr mx 2)) in if r >=? 255 - RN_FRBO then r else u8 (r + RN_FRBO).
Definition computeHiEndStop (mn mx : Z) : Z :=
  let r := u8 (fnmax (Z.shiftr mn 2) (Z.shiftr mx 2)) in if r <? RN_FRBO then r else u8 (r - RN_FRBO).
(** read(), 192-265, as a function of the (direction-corrected) ADC value 0..1023; the
    callbacks made are returned.  uint16_t subtractions are 16-bit unsigned on AVR. *)
Record Pot := mkPot { pot_raw : Z; pot_value : Z }.
Definition Pot0 := mkPot 65535 0.                                             (* 151; SimpleTSUint8Sensor *)
Inductive PotCall := CallFrost | CallWarm | CallBakeStart | CallBakeCancel | CallOccupied.
Definition pot_read (lo hi : Z) (s : Pot) (newRaw : Z) : Pot * list PotCall :=
  let oldRaw := pot_raw s in let oldValue := pot_value s in                   (* 195, 216 *)
  let pv := u8 (Z.shiftr newRaw 2) in                                         (* 217 *)
  if ((pv >? oldValue) && (u16 (newRaw - oldRaw) >=? 4)) || ((pv <? oldValue) && (u16 (oldRaw - newRaw) >=? 4)) then (* 218-219 *)
    let calls :=
      if negb (65535 =? oldRaw) then                                          (* 232 *)
        (if pv <? lo then [CallFrost] else if pv >? hi then [CallBakeStart]
         else if pv <? oldValue then [CallBakeCancel] else if pv >? oldValue then [CallWarm] else []) ++ [CallOccupied]  (* 235-248 *)
      else [] in
    (mkPot newRaw pv, calls)                                                  (* 224, 261 *)
  else (mkPot newRaw (pot_value s), []).                                      (* 261 *)

(** Inputs of computeTargetTemp, 168-175. *)
Record Env := mkEnv {
  e_mode : VMode; e_tc : TempControl; e_occ : Occ;
  e_onNow : bool; e_onSoon : bool;               (* schedule.isAnyScheduleOnWARMNow / Soon *)
  e_recentUI : bool;                             (* physicalUI.recentUIControlUse *)
  e_lockout : bool;                              (* setbackLockout given and true *)
  e_dm : Z;                                      (* ambLight.getDarkMinutes *)
  e_hThis : Z; e_hNext : Z;                      (* hours less occupied than this / the next hour *)
  e_dark : bool; e_veryDark : bool;              (* ambLight.isRoomDark / isRoomVeryDark ("2016") *)
  e_rhHigh : bool;                               (* humidity available and high ("2016") *)
  e_zeroThisHour : bool                          (* stored occupancy 0 for the current hour ("2016") *)
}.
(** "Basic", 167-345. *)
Definition computeTargetTemp (p : VCP) (e : Env) : Z :=
  let tc := e_tc e in
  if negb (inWarmMode (e_mode e)) then                                        (* 178 *)
    let frostC := tc_frost tc in
    if negb (longVacant (e_occ e)) && e_onSoon e && negb (e_recentUI e) then  (* 200-202 *)
      let warmTarget := tc_warm tc in
      fnmax frostC (u8 (warmTarget - (if tc_isEco tc warmTarget then SETBACK_ECO p else SETBACK_DEFAULT))) (* 205-210 *)
    else frostC                                                               (* 214 *)
  else if inBakeMode (e_mode e) then                                          (* 215 *)
    fnmin (u8 (tc_warm tc + BAKE_UPLIFT p)) MAX_TARGET_C                      (* 217-219 *)
  else
    let wt := tc_warm tc in                                                   (* 222 *)
    if e_lockout e then wt                                                    (* 225-226 *)
    else
      let longVac := longVacant (e_occ e) in                                  (* 229 *)
      let confVac := longVac || confidentlyVacant (e_occ e) in                (* 230 *)
      let likelyVac := confVac || isLikelyUnoccupied (e_occ e) in             (* 231 *)
      let allowSetback := likelyVac && (longVac || negb (e_onNow e)) in       (* 236-239 *)
      if allowSetback then
        let dm := e_dm e in
        let thr := if tc_ecoBias tc then 17 else 14 in                        (* 264-268 *)
        let relativelyActive := e_hThis e >? thr in                           (* 269-270 *)
        let inhibitECO := negb longVac && (e_onSoon e || ((dm <? 420) && relativelyActive)) in (* 276-277 *)
        let setback :=
          if negb inhibitECO && (confVac || (likelyVac && (e_hThis e <=? 1)) || negb (0 =? dm)) then (* 282-285 *)
            let relativelyActiveSoon := e_hNext e >? 2 + thr in               (* 299-300 *)
            let thrF := u8 (fnmin (thr - 4) (Z.shiftr thr 2 + u8 (Z.shiftr dm 5))) in (* 307-309 *)
            let notInactive := e_hThis e >? thrF in                           (* 310-311 *)
            let inhibitFULL := tc_isComfort tc wt || ((dm <? 420) && (notInactive || relativelyActiveSoon)) in (* 314-317 *)
            let veryQuiet := (e_hThis e <=? 1) || (e_hNext e <=? 1) in        (* 327-328 *)
            if negb inhibitFULL && (longVac || (dm >=? (if veryQuiet then 2 else 10))) (* 329-331 *)
            then SETBACK_FULL p else SETBACK_ECO p
          else SETBACK_DEFAULT in
        fnmax (u8 (wt - setback)) (tc_frost tc)                               (* 337-339 *)
      else wt.                                                                (* 343 *)
(** "2016", 516-643. *)
Definition computeTargetTemp2016 (p : VCP) (e : Env) : Z :=
  let tc := e_tc e in let occ := e_occ e in
  if negb (inWarmMode (e_mode e)) then                                        (* 519 *)
    let frostC := tc_frost tc in
    if negb (longVacant occ) && e_onSoon e && negb (e_recentUI e) then        (* 533 *)
      let warmTarget := tc_warm tc in
      let pre := fnmax (u8 (warmTarget - (if tc_isEco tc warmTarget then SETBACK_ECO p else SETBACK_DEFAULT))) frostC in (* 537 *)
      if frostC <? pre then pre else frostC                                   (* 538-539, 543 *)
    else frostC
  else if inBakeMode (e_mode e) then fnmin (u8 (tc_warm tc + BAKE_UPLIFT p)) MAX_TARGET_C (* 546-549 *)
  else
    let wt := tc_warm tc in
    if e_lockout e then wt                                                    (* 556-557 *)
    else
      let longLongVac := longLongVacant occ in
      let longVac := longLongVac || longVacant occ in
      let likelyVac := longVac || isLikelyUnoccupied occ in
      let ecoBias := tc_ecoBias tc in
      let dm := e_dm e in
      let darkForHours := dm >? 245 in
      let thr := if ecoBias then 15 else 12 in
      let notLikelySoon := longLongVac || (likelyVac && (e_hThis e <? thr) && (darkForHours || (e_hNext e <? thr + 1))) in (* 587-593 *)
      let minOff := if ecoBias then 10 else 20 in
      if longVac || ((notLikelySoon || (dm >? minOff) || (ecoBias && (getVacancyH occ >? 0) && e_zeroThisHour e))
                     && negb (e_onNow e) && negb (e_recentUI e)) then         (* 595-597 *)
        let comfort := tc_isComfort tc wt in
        let setback :=
          if (comfort && negb (e_veryDark e)) || isLikelyOccupied occ
             || (negb longVac && negb (e_dark e) && negb (tc_isEco tc wt) && e_rhHigh e)
             || (negb longVac && negb (e_dark e) && (e_hThis e >? 4))
             || (negb longVac && negb (e_dark e) && negb darkForHours && (e_hNext e >=? thr - 1))
             || (negb longVac && e_onSoon e) then SETBACK_DEFAULT              (* 622-628 *)
          else if negb comfort && (longLongVac || (notLikelySoon && (tc_isEco tc wt || ((dm >? 120) && (getVacancyH occ >=? 2)))))
          then SETBACK_FULL p else SETBACK_ECO p in                           (* 629-632 *)
        fnmax (u8 (wt - setback)) (tc_frost tc)                               (* 635 *)
      else wt.

(** Setback lockout countdown, 106-118. *)
Definition EE_LOCKOUT := 32.  (* OTV0P2BASE_EEPROM.h 150, 160 *)
Definition getSetbackLockout : M Z := run v <- ee_read EE_LOCKOUT; ret (u8 (Z.lnot v)).  (* 106 *)
Definition countDownSetbackLockout : M unit :=                                (* 109-118 *)
  run sloInv <- ee_read EE_LOCKOUT;
  if negb (255 =? sloInv) then run _ <- smart_update EE_LOCKOUT (u8 (Z.lnot (Z.lnot sloInv - 1))); ret tt else ret tt.
