(** Model of the valve position computation:
    /repo/content/OTRadioLink/utility/OTRadValve_ModelledRadValveState.h 30-39, 50-120,
    136-331, 385-482, 557-945 and OTRadValve_Parameters.h 46-48, 260-319.
    [binary] and [aggressive] are the template parameters MINIMAL_BINARY_IMPL and
    AGGRESSIVE_ON.  int_fast16_t arithmetic is modelled in Z; ValveProps shows that with
    readings of magnitude at most 2040 (127C) nothing leaves 16 bits.  Event reporting
    (compiled out, 375-383) and the disabled features (143-145, 469) are omitted. *)
From Verif Require Import Base TempModel.

Definition fnconstrain (x l h : Z) := if x <? l then l else if x >? h then h else x.  (* OTV0P2BASE_Util.h 71 *)
Definition fnabsdiff (a b : Z) := if a <? b then b - a else a - b.                    (* OTV0P2BASE_Util.h 75 *)
Definition fnabs (a : Z) := if a <? 0 then - a else a.                                (* OTV0P2BASE_Util.h 79 *)

Definition refTempOffsetC16 := 8.                        (* 53 *)
Definition proportionalRange := 7.                       (* 166 *)
Definition MAX_TEMP_JUMP_C16 := 3.                       (* 175 *)
Definition filterLength := 16.                           (* 456 *)
Definition filter_minimum_ON := 4 * filterLength.        (* 246-247 *)
Definition REOPEN_DELAY_M := 11.                         (* OTRadValve_Parameters.h 301-316 *)
Definition RECLOSE_DELAY_M := 10.                        (* OTRadValve_Parameters.h 301-302 *)
Definition SAFER_OPEN := 50.                             (* OTRadValve_Parameters.h 260 *)
Definition TRV_SLEW_FAST := 21.                          (* 587-594: 1 + max(100/5, 1+5) *)
Definition halfNormalBand := 6.                          (* 696 *)
Definition wATC16 := 28.                                 (* 707-708: min(64, 7*4) *)
Definition centreOffsetC16 := 12.                        (* 668 *)
Definition maxSlew := 2.                                 (* 879-880: max(2, 49/20) *)

(** Input state, 50-120 (hasEcoBias is not used by the computation). *)
Record VIn := mkVIn { targetTempC : Z; maxTargetTempC : Z; maxPCOpen : Z; widenDeadband : bool;
                      in_glacial : bool; in_bake : bool; fastResponse : bool; refTempC16 : Z }.
Definition setReferenceTemperature (currentTempC16 : Z) : Z := currentTempC16 + refTempOffsetC16.   (* 68-76 *)
(** Retained state, 333-465; [temps] is prevRawTempC16, newest first. *)
Record VState := mkVS { alwaysGlacial : bool; initialised : bool; isFiltering : Z; valveMoved : bool;
                        turndownM : Z; turnupM : Z; cumulativeMovementPC : Z; prevValvePC : Z; temps : list Z }.
Definition computeRawTemp16 (i : VIn) : Z := refTempC16 i - refTempOffsetC16.                  (* 944-945 *)
Definition backfill (raw : Z) : list Z := repeat raw 16.                                       (* 940-941 *)
(** A new instance, 188-192; the temperatures are then unspecified. *)
Definition VS_new (glacial : bool) (junk : list Z) := mkVS glacial false 0 false 0 0 0 0 junk.
(** smallIntMean<16>, 30-39 (C division truncates towards zero). *)
Definition smallIntMean (l : list Z) : Z := Z.quot (fold_right Z.add 0 l + 8) 16.
Definition getSmoothedRecent (s : VState) : Z := smallIntMean (temps s).                       (* 472-473 *)
Definition temp_at (l : list Z) (n : nat) : Z := nth n l 0.
Definition rawDelta (l : list Z) : Z := temp_at l 0 - temp_at l 1.                             (* 476 *)
Definition rawDelta5 (l : list Z) : Z := temp_at l 0 - temp_at l 5.                            (* 479 with n = MIN_TICKS_0p5C_DELTA = 5 *)
Definition dontTurnup s := negb (0 =? turndownM s).                                            (* 397 *)
Definition dontTurndown s := negb (0 =? turnupM s).                                            (* 412 *)

(** computeRequiredTRVPercentOpen, 557-933. *)
Definition computeRequired (binary aggressive : bool) (s : VState) (valvePCOpen : Z) (i : VIn) : Z :=
  let filt := negb (isFiltering s =? 0) in
  let adjustedTempC16 := if filt then getSmoothedRecent s + refTempOffsetC16 else refTempC16 i in  (* 561-563 *)
  let adjustedTempC := i8 (Z.shiftr adjustedTempC16 4) in                                      (* 567 *)
  let beGlacial := alwaysGlacial s || in_glacial i in                                          (* 570 *)
  let tTC := targetTempC i in
  let worf := widenDeadband i || filt in                                                       (* 574-575 *)
  let higherTargetC := fnmax tTC (maxTargetTempC i) in                                         (* 614-615 *)
  if (if binary then adjustedTempC <? tTC else adjustedTempC <? fnmax (tTC - proportionalRange) MIN_TARGET_C) then (* 617-619 *)
    if dontTurnup s && negb (in_bake i) then valvePCOpen                                       (* 622 *)
    else if negb binary && beGlacial && (valvePCOpen <? maxPCOpen i) then u8 (valvePCOpen + 1) (* 623-627 *)
    else maxPCOpen i                                                                           (* 630 *)
  else if (if binary then adjustedTempC >? tTC else adjustedTempC >? fnmin (u8 (higherTargetC + proportionalRange)) MAX_TARGET_C) then (* 640-642 *)
    if dontTurndown s then valvePCOpen else 0                                                  (* 645-647 *)
  else if negb binary then                                                                     (* 662 *)
    if in_bake i then maxPCOpen i                                                              (* 665 *)
    else
    let errorC16 := adjustedTempC16 - Z.shiftl tTC 4 - centreOffsetC16 in                      (* 669-670 *)
    let belowTarget := errorC16 <? 0 in                                                        (* 672 *)
    if (if belowTarget then dontTurnup s else dontTurndown s) then valvePCOpen                 (* 675-678 *)
    else if (if belowTarget then valvePCOpen >=? maxPCOpen i else 0 =? valvePCOpen) then valvePCOpen (* 681-684 *)
    else
    let wOTC16basic := if worf then 2 * halfNormalBand else halfNormalBand in                  (* 698 *)
    let wOTC16highSide := if filt then wATC16 else halfNormalBand in                           (* 712 *)
    let wellAboveTarget := errorC16 >? wOTC16highSide in                                       (* 713 *)
    let wellBelowTarget := errorC16 <? - wOTC16basic in                                        (* 714 *)
    let herrorC16 := errorC16 - Z.shiftl (higherTargetC - tTC) 4 in                            (* 717-718 *)
    let wellAboveTargetMax := herrorC16 >? wOTC16highSide in                                   (* 725 *)
    let errShift := if worf then 3 else 2 in                                                   (* 730-731 *)
    let slewF := fnmin TRV_SLEW_FAST (u8 (if errorC16 <? 0 then Z.shiftr (- errorC16) errShift else Z.shiftr errorC16 errShift)) in (* 733-735 *)
    let inCentralSweetSpot := 0 =? slewF in                                                    (* 736 *)
    if negb beGlacial && (fastResponse i || wellBelowTarget) && (slewF >? 0) then              (* 760-762 *)
      if belowTarget then maxPCOpen i                                                          (* 764-768 *)
      else u8 (fnconstrain (valvePCOpen - slewF) 0 (SAFER_OPEN - 1))                           (* 789-792 *)
    else
    let callingForHeat := valvePCOpen >=? SAFER_OPEN in                                        (* 797-798 *)
    let rise := rawDelta (temps s) in                                                          (* 801 *)
    if negb callingForHeat &&
       (inCentralSweetSpot ||
        (if belowTarget then (if wellBelowTarget then rise >? 0 else rise >=? 0)
         else (if wellAboveTargetMax then rise <? 0 else rise <=? 0))) then valvePCOpen        (* 807-843 *)
    else if negb beGlacial && wellAboveTarget && (rise >? 0) then                              (* 849, 865 *)
      u8 (fnconstrain (valvePCOpen - maxSlew) 0 (SAFER_OPEN - 1))                              (* 893-896 *)
    else
    let shouldOpen := belowTarget && (rise <=? 0) in                                           (* 908 *)
    let shouldClose := negb belowTarget && (rise >=? 0) in                                     (* 909 *)
    if shouldClose then u8 (valvePCOpen - 1)                                                   (* 921 *)
    else if shouldOpen then (if aggressive && negb beGlacial then maxPCOpen i else u8 (valvePCOpen + 1)) (* 922-926 *)
    else valvePCOpen
  else valvePCOpen.                                                                            (* 932 *)

(** First part of tick, 222-291: shift in the temperature, filtering, countdowns.
    [v0] is the position to start tracking from (236-237). *)
Definition tick_pre (s : VState) (v0 : Z) (i : VIn) : VState :=
  let raw := computeRawTemp16 i in                                                             (* 230 *)
  let old := if initialised s then temps s else backfill raw in                                (* 232-234 *)
  let prev := if initialised s then prevValvePC s else v0 in                                   (* 236-237 *)
  let ts := raw :: firstn 15 old in                                                            (* 242-243 *)
  let f := isFiltering s in
  let f := if negb (f =? 0) then (if f >? 1 then f - 1
                                  else if fnabsdiff (smallIntMean ts) raw <=? MAX_TEMP_JUMP_C16 then 0 else f)
           else f in                                                                           (* 253-259 *)
  let f := if f =? 0 then (if fnabs (rawDelta5 ts) >? 8 then filter_minimum_ON else f) else f in (* 266-279 *)
  mkVS (alwaysGlacial s) true f (valveMoved s)
       (if turndownM s >? 0 then turndownM s - 1 else turndownM s)                             (* 290 *)
       (if turnupM s >? 0 then turnupM s - 1 else turnupM s)                                   (* 291 *)
       (cumulativeMovementPC s) prev ts.
(** tick, 218-331.  [phys] is the attached device if any: what get() gives on entry (used
    only on the first tick) and after set(). *)
Definition tick (binary aggressive : bool) (s : VState) (valve : Z) (i : VIn) (phys : option (Z * Z)) : VState * Z :=
  let s1 := tick_pre s (match phys with None => valve | Some (g, _) => g end) i in
  let oldValvePC := prevValvePC s1 in                                                          (* 295 *)
  let new := computeRequired binary aggressive s1 valve i in                                   (* 297-298 *)
  let changed := negb (new =? valve) in                                                        (* 299-300 *)
  let newValvePC := match phys with None => new | Some (_, g) => g end in                      (* 311-325 *)
  (mkVS (alwaysGlacial s1) true (isFiltering s1) changed
        (if changed && negb (new >? valve) then REOPEN_DELAY_M else turndownM s1)              (* 305, 395 *)
        (if changed && (new >? valve) then RECLOSE_DELAY_M else turnupM s1)                    (* 303, 410 *)
        (Z.land (cumulativeMovementPC s1 + fnabsdiff oldValvePC newValvePC) 1023)              (* 326-328 *)
        newValvePC (temps s1),                                                                 (* 329-330 *)
   if changed then new else valve).                                                            (* 306 *)
(** A history of ticks: state and position after it. *)
Definition trun (binary aggressive : bool) (c : VState * Z) (l : list (VIn * option (Z * Z))) : VState * Z :=
  fold_left (fun c x => tick binary aggressive (fst c) (snd c) (fst x) (snd x)) l c.
