(** Model of the adaptive ambient light sensor and its occupancy detector:
    content/OTRadioLink/utility/OTV0P2BASE_SensorAmbientLight.h lines 53-335 (the ADC read that sets
    the value, 392-424, is an input) and
    content/OTRadioLink/utility/OTV0P2BASE_SensorAmbientLightOccupancy.{h,cpp}, with the default
    tunables of OTV0P2BASE_SensorAmbientLightOccupancy_Tuneable.h. *)
From Verif Require Import Base.

(** ** Occupancy detector, SensorAmbientLightOccupancyDetectorSimple *)
Definition EPS := 4.                 (* Tuneable.h 28; Occupancy.h 130 *)
Definition ON_TICKS := 3.            (* steadyTicksMinWithLightOn, Tuneable.h 43 *)
Definition ART_TICKS := 30.          (* steadyTicksMinForArtificialLight, Tuneable.h 48 *)
Definition BEFORE_TICKS := 3.        (* steadyTicksMinBeforeLightOn, Tuneable.h 57 *)
Definition DEFAULT_LIGHT := 16.      (* DEFAULT_LIGHT_THRESHOLD, AmbientLight.h 86 *)

Inductive occ := OccNone | OccWeak | OccProbable | OccStrong.      (* Occupancy.h 77-83 *)

Record det := Det {
  prevL : Z;          (* prevLightLevel, starts at 254; .h 150-151 *)
  steadyT : Z;        (* .h 155 *)
  meanFF : Z; minFF : Z; maxFF : Z;   (* .h 158-160 *)
  pending : bool }.   (* probablePending, .h 168 *)
Definition det0 : det := Det 254 0 255 255 255 false.
(** setTypMinMax, Occupancy.h 196-205. *)
Definition det_typ (d : det) m mn mx : det := Det (prevL d) (steadyT d) m mn mx (pending d).
Definition min_use (d : det) := if minFF d =? 255 then EPS else minFF d.          (* .cpp 92 *)
Definition max_use (d : det) := if maxFF d =? 255 then u8 (255 - EPS) else maxFF d. (* .cpp 94 *)
Definition absdiff (a b : Z) := if a <? b then b - a else a - b.                  (* Util.h 75 *)
(** Minimum rise, .cpp 131-138. *)
Definition min_rise (d : det) : Z :=
  if negb (meanFF d =? 255) && (meanFF d >? min_use d)
  then u8 (Z.shiftr (meanFF d - min_use d) 1) else DEFAULT_LIGHT / 2.
(** The weak test, .cpp 184-231. *)
Definition weak_now (d : det) (lvl : Z) : bool :=
  let range := u8 (max_use d - min_use d) in                                      (* 184 *)
  if range >? 2 * EPS then                                                        (* 185 *)
    let marginW := Z.shiftr range 1 in                                            (* 191-192 *)
    let margin := Z.shiftr marginW 2 in                                           (* 193 *)
    let thrL := u8 (min_use d + margin) in                                        (* 194 *)
    let thrH := u8 (max_use d - marginW) in                                       (* 195 *)
    let maxDist := u8 (Z.shiftr (Z.min (meanFF d - min_use d) (max_use d - meanFF d)) 1) in (* 196 *)
    (lvl >? thrL) && (lvl <? thrH) && (absdiff lvl (meanFF d) <=? maxDist)        (* 225-226 *)
  else false.
(** update, .cpp 50-236. *)
Definition update (d : det) (lvl : Z) : det * occ :=
  if lvl <? prevL d then                                                          (* 68 *)
    if prevL d - lvl >=? EPS                                                      (* 72 *)
    then (Det lvl 0 (meanFF d) (minFF d) (maxFF d) false, OccNone)                (* 73 *)
    else (Det lvl (if steadyT d <? 255 then u8 (steadyT d + 1) else steadyT d)
              (meanFF d) (minFF d) (maxFF d) (pending d), OccNone)                (* 74-77 *)
  else
    let rise := u8 (lvl - prevL d) in                                             (* 97 *)
    let steady := rise <? EPS in                                                  (* 98 *)
    let old := steadyT d in                                                       (* 102 *)
    let st := if negb steady then 0 else if steadyT d <? 255 then u8 (steadyT d + 1) else steadyT d in (* 103-104 *)
    let '(o, pend) :=
      if pending d then                                                           (* 108 *)
        if st >=? ON_TICKS then (OccProbable, false) else (OccNone, true)         (* 113-118 *)
      else if negb steady && (old >=? BEFORE_TICKS) then                          (* 128 *)
        if rise >=? min_rise d then                                               (* 139 *)
          if (prevL d >? min_use d) || (old <? 255)                               (* 141 *)
          then (OccProbable, false)                                               (* 146-147 *)
          else (OccWeak, true)                                                    (* 155-156 *)
        else (OccNone, pending d)
      else if (st >=? ART_TICKS) && (min_use d <? meanFF d) && (meanFF d <? max_use d) then (* 174-175 *)
        (if weak_now d lvl then OccWeak else OccNone, pending d)
      else (OccNone, pending d) in
    (Det lvl st (meanFF d) (minFF d) (maxFF d) pend, o).                          (* 234-235 *)

(** ** The sensor, SensorAmbientLightAdaptiveTBase *)
Record lsens := LS {
  lvalue : Z;            (* value *)
  litf : bool;           (* isRoomLitFlag, .h 59 *)
  narrow : bool;         (* rangeTooNarrow, .h 68 *)
  darkT : Z;             (* darkTicks, uint16_t, .h 75 *)
  lightThr : Z; darkThr : Z;   (* .h 164-170 *)
  hascb : bool;          (* occCallbackOpt != NULL, .h 153 *)
  odet : det }.
Definition UPDELTA := Z.max 1 (Z.shiftr DEFAULT_LIGHT 2).                         (* .h 167-168 *)
Definition ls0 : lsens := LS 0 false false 0 DEFAULT_LIGHT (DEFAULT_LIGHT - UPDELTA) false det0.
(** recomputeThresholds, .h 177-244, with rollingMin and rollingMax as given by setTypMinMax:
    new light and dark thresholds, range-too-narrow flag, dark ticks. *)
Definition recompute (s : lsens) (mean mn mx : Z) (sens : bool) : Z * Z * bool * Z :=
  if (mn =? 255) || (mx =? 255) then                                              (* 185 *)
    (DEFAULT_LIGHT, DEFAULT_LIGHT - UPDELTA, false, darkT s)                      (* 189-192 *)
  else if (mn >=? 254 - EPS) || (mx <=? mn) || (mx - mn <=? EPS) then             (* 200-202 *)
    (DEFAULT_LIGHT, DEFAULT_LIGHT - UPDELTA, true, 0)                             (* 206-210 *)
  else
    let isLow := mean <? Z.shiftr mx 1 in                                         (* 230 *)
    let upDelta := Z.max (u8 (Z.shiftr (mx - mn) (if sens || isLow then 4 else 3))) EPS in (* 234-235 *)
    let dark := u8 (Z.min 254 (mn + Z.max 1 (Z.shiftr upDelta 1))) in             (* 237-238 *)
    let light := u8 (Z.min (mx - 1) (dark + upDelta)) in                          (* 239-240 *)
    (light, dark, false, darkT s).                                                (* 243 *)
(** setTypMinMax, .h 279-292. *)
Definition ls_typ (s : lsens) (mean mn mx : Z) (sens : bool) : lsens :=
  let '(l, dk, nr, dt) := recompute s mean mn mx sens in
  LS (lvalue s) (litf s) nr dt l dk (hascb s) (det_typ (odet s) mean mn mx).
(** read with the new value [v], .h 296-330: the callback made, if any. *)
Definition ls_read (s : lsens) (v : Z) : lsens * option bool :=
  let definitelyLit := v >? lightThr s in                                         (* 300 *)
  let '(lit, dt) :=
    if definitelyLit then (true, 0)                                               (* 301-305 *)
    else if v <=? darkThr s then                                                  (* 307 *)
      (false, if negb (narrow s) && (darkT s <? 65535) then u16 (darkT s + 1) else darkT s) (* 309-314 *)
    else (litf s, darkT s) in
  if hascb s then                                                                 (* 319 *)
    let '(d, o) := update (odet s) v in
    (LS v lit (narrow s) dt (lightThr s) (darkThr s) (hascb s) d,
     match o with
     | OccProbable | OccStrong => Some true                                       (* 323-324 *)
     | OccWeak => if definitelyLit then Some false else None                      (* 325-326 *)
     | OccNone => None
     end)
  else (LS v lit (narrow s) dt (lightThr s) (darkThr s) (hascb s) (odet s), None).
(** setOccCallbackOpt, .h 267; reset, .h 254-255 with .h 82 and Occupancy.h 174. *)
Definition ls_cb (s : lsens) (b : bool) : lsens := LS (lvalue s) (litf s) (narrow s) (darkT s) (lightThr s) (darkThr s) b (odet s).
Definition ls_reset (s : lsens) : lsens :=
  let s1 := ls_typ (LS 0 false false 0 (lightThr s) (darkThr s) false (odet s)) 255 255 255 false in
  LS (lvalue s1) (litf s1) (narrow s1) (darkT s1) (lightThr s1) (darkThr s1) (hascb s1) det0.

Definition isRoomLit (s : lsens) := litf s && negb (narrow s).                    (* .h 104 *)
Definition isRoomDark (s : lsens) := negb (litf s) && negb (narrow s).            (* .h 111 *)
Definition isRoomVeryDark (s : lsens) := (lvalue s <=? 4) && negb (narrow s).     (* .h 118 *)
Definition getDarkMinutes (s : lsens) := darkT s.                                 (* .h 125 *)

Inductive lev := LRead (v : Z) | LTyp (mean mn mx : Z) (sens : bool) | LCb (b : bool) | LReset.
Definition ls_step (s : lsens) (e : lev) : lsens * option bool :=
  match e with
  | LRead v => ls_read s v
  | LTyp m mn mx sn => (ls_typ s m mn mx sn, None)
  | LCb b => (ls_cb s b, None)
  | LReset => (ls_reset s, None)
  end.
Definition ls_run (l : list lev) : lsens := fold_left (fun s e => fst (ls_step s e)) l ls0.

(** The detector used on its own: updates and setTypMinMax calls, from power-up. *)
Inductive dev := DU (lvl : Z) | DT (m mn mx : Z).
Definition det_step (d : det) (e : dev) : det :=
  match e with DU l => fst (update d l) | DT m mn mx => det_typ d m mn mx end.
Definition det_run (l : list dev) : det := fold_left det_step l det0.
(** What the next update returns. *)
Definition det_out (H : list dev) (lvl : Z) : occ := snd (update (det_run H) lvl).
