(** Model of the on/off boiler hub logic:
    /repo/content/OTRadioLink/utility/OTRadValve_BoilerDriver.h 125-318
    (OnOffBoilerDriverLogic), AVR build.  Serial-port messages and the
    updateCalled debugging flag are not modelled. *)
From Verif Require Import Base.

Record Boiler := mkBoiler { callForHeatRX : bool; boilerNoCallM : Z; boilerCountdownTicks : Z }. (* 139-156 *)
Definition Boiler0 := mkBoiler false 0 0.                            (* 139-156, 173 *)
Definition isBoilerOn (b : Boiler) : bool := negb (0 =? boilerCountdownTicks b). (* 176 *)
Definition getMinValveReallyOpen := 50.   (* 160-168; DEFAULT_VALVE_PC_SAFER_OPEN, OTRadValve_Parameters.h *)
Definition MODERATELY_OPEN := 67.         (* DEFAULT_VALVE_PC_MODERATELY_OPEN, OTRadValve_Parameters.h *)

(** remoteCallForHeatRX, 185-243. *)
Definition remoteCallForHeatRX (b : Boiler) (percentOpen minuteCount : Z) : Boiler :=
  let minvro := getMinValveReallyOpen in                             (* 203 *)
  let window := Z.land minuteCount 63 in                             (* 219 *)
  let considerPause := window <? Z.shiftr 63 2 in                    (* 220 *)
  let encourageOn := negb considerPause && (window <? Z.shiftr 63 1) in (* 225 *)
  let threshold := if negb considerPause && (encourageOn || isBoilerOn b)
                   then minvro else Z.max minvro (MODERATELY_OPEN - 1) in (* 236-237 *)
  if percentOpen >=? threshold                                       (* 239 *)
  then mkBoiler true (boilerNoCallM b) (boilerCountdownTicks b) else b. (* 241 *)

(** processCallsForHeat, 252-317; [minOn] is hm.getMinBoilerOnMinutes(); returns
    the new state and the level written to the output pin. *)
Definition processCallsForHeat (b : Boiler) (second0 hubMode : bool) (minOn : Z) : Boiler * bool :=
  if hubMode then
    let b :=
      if callForHeatRX b then                                        (* 268 *)
        let b := mkBoiler false (boilerNoCallM b) (boilerCountdownTicks b) in (* 269 *)
        let ignore := negb (isBoilerOn b) && (boilerNoCallM b <=? Z.min 254 minOn) in (* 272-279 *)
        if ignore then b else mkBoiler false 0 (u16 (minOn * 30))    (* 285-290; MAIN_TICK_S = 2 *)
      else b in
    let b :=
      if isBoilerOn b then mkBoiler (callForHeatRX b) (boilerNoCallM b) (boilerCountdownTicks b - 1) (* 294-295 *)
      else if second0 && (boilerNoCallM b <? 255)
      then mkBoiler (callForHeatRX b) (boilerNoCallM b + 1) (boilerCountdownTicks b) (* 303-304 *)
      else b in
    (b, isBoilerOn b)                                                (* 309 *)
  else (b, false).                                                   (* 314 *)

(** One tick of a boiler hub's life: the calls received since the previous tick
    (percentage, minute count), then processCallsForHeat. *)
Record BTick := mkBTick { bt_calls : list (Z * Z); bt_second0 : bool; bt_hub : bool; bt_min : Z }.
Definition boiler_step (b : Boiler) (t : BTick) : Boiler * bool :=
  processCallsForHeat (fold_left (fun b c => remoteCallForHeatRX b (fst c) (snd c)) (bt_calls t) b)
    (bt_second0 t) (bt_hub t) (bt_min t).
(** Pin level after each tick. *)
Fixpoint boiler_run (b : Boiler) (l : list BTick) : list bool :=
  match l with
  | [] => []
  | t :: r => let (b', p) := boiler_step b t in p :: boiler_run b' r
  end.
