(** Model of /repo/content/OTRadioLink/utility/OTV0P2BASE_Stats.{h,cpp}: hourly
    statistics, and of the EEPROM-backed store of OTV0P2BASE_EEPROM.{h,cpp}. *)
From Verif Require Import Base EepromModel.

Definition UNSET_BYTE := 255.        (* .h 57 *)
Definition UNSET_INT := 32767.       (* .h 58 *)
Definition STATS_SETS := 14.         (* .h 87; OTV0P2BASE_EEPROM.h 45 *)

(** A bounds-checked by-hour store: getByHourStatSimple / setByHourStatSimple of
    NVByHourByteStatsMock, .h 215-220.  (For the EEPROM store see the end.) *)
Definition Store := Z -> Z -> Z.
Definition sget (m : Store) (set hh : Z) : Z :=
  if (STATS_SETS <=? set) || (24 <=? hh) then UNSET_BYTE else m set hh.
Definition sset (m : Store) (set hh v : Z) : Store :=
  if (STATS_SETS <=? set) || (24 <=? hh) then m
  else fun s h => if (s =? set) && (h =? hh) then v else m s h.

(** getSpecialHour: .cpp 35-51. *)
Definition getSpecialHour (hour cur : Z) : Z :=
  if hour =? 255 then cur
  else if hour =? 254 then (if 23 <=? cur then 0 else u8 (cur + 1))
  else if hour =? 253 then (if 0 =? cur then 23 else u8 (cur - 1))
  else hour.
(** getByHourStatRTC: .cpp 58-63; [cur] is getHour(). *)
Definition getByHourStatRTC (m : Store) (set hour cur : Z) : Z :=
  sget m set (getSpecialHour hour cur).

(** smoothStatsValue: .cpp 69-78; [rnd] is what randRNG8() returns (a byte). *)
Definition smooth (rnd old new : Z) : Z :=
  if old =? new then old else
  let stocAdd := Z.land rnd 7 in
  u8 (Z.shiftr (u16 (u16 (Z.shiftl old 3) - old + new + stocAdd)) 3).

(** The loop "for(int8_t hh = 24; --hh >= 0; )". *)
Fixpoint hours_from (n : nat) : list Z :=
  match n with O => [] | S k => Z.of_nat k :: hours_from k end.
Definition hours_desc : list Z := hours_from 24.

(** countStatSamplesBelow: .cpp 82-93. *)
Definition countBelow (m : Store) (set value : Z) : Z :=
  if 0 =? value then 0 else
  fold_left (fun r hh => if sget m set hh <? value then u8 (r + 1) else r) hours_desc 0.
(** getMinByHourStat: .cpp 96-106. *)
Definition getMin (m : Store) (set : Z) : Z :=
  fold_left (fun r hh => let v := sget m set hh in if v <? r then v else r) hours_desc UNSET_BYTE.
(** getMaxByHourStat: .cpp 109-120. *)
Definition getMax (m : Store) (set : Z) : Z :=
  fold_left (fun r hh => let v := sget m set hh in
    if negb (UNSET_BYTE =? v) && ((UNSET_BYTE =? r) || (r <? v)) then v else r)
    hours_desc UNSET_BYTE.

(** inBottomQuartile .cpp 125-136 and inTopQuartile .cpp 141-152: the loop with
    its two early exits. *)
Fixpoint quart_loop (m : Store) (set : Z) (test : Z -> bool) (hs : list Z) (cnt : Z) : bool :=
  match hs with
  | [] => false
  | hh :: hs' =>
    let v := sget m set hh in
    if UNSET_BYTE =? v then false
    else if test v then
      let cnt := u8 (cnt + 1) in
      if 18 <=? cnt then true else quart_loop m set test hs' cnt
    else quart_loop m set test hs' cnt
  end.
Definition inBottomQuartile (m : Store) (set sample : Z) : bool :=
  quart_loop m set (fun v => sample <? v) hours_desc 0.
Definition inTopQuartile (m : Store) (set sample : Z) : bool :=
  if UNSET_BYTE =? sample then false
  else quart_loop m set (fun v => v <? sample) hours_desc 0.
(** inOutlierQuartile: .cpp 160-168. *)
Definition inOutlierQuartile (inTop : bool) (m : Store) (set hh cur : Z) : bool :=
  let sample := if 23 <? hh then getByHourStatRTC m set hh cur else sget m set hh in
  if UNSET_BYTE =? sample then false
  else if inTop then inTopQuartile m set sample else inBottomQuartile m set sample.

(** compressTempC16: .cpp 246-255 with the constants of .h 233-239. *)
Definition compressTempC16 (t : Z) : Z :=
  if t <=? 0 then 0
  else if t <? 256 then u8 (Z.shiftr t 3)
  else if t <? 384 then u8 (Z.shiftr (t - 256) 1 + 32)
  else if t <? 1600 then u8 (Z.shiftr (t - 384) 3 + 96)
  else 248.
(** expandTempC16: .cpp 259-267. *)
Definition expandTempC16 (c : Z) : Z :=
  if c <? 32 then i16 (Z.shiftl c 3)
  else if c <? 96 then i16 (Z.shiftl (c - 32) 1 + 256)
  else if c <=? 248 then i16 (Z.shiftl (c - 96) 3 + 384)
  else UNSET_INT.

(** ** The updater *)
(** StatsUpdaterState: .h 262-279. *)
Record UState := mkU { tempTotal : Z; ambTotal : Z; occTotal : Z; rhTotal : Z; sampleCount : Z }.
Definition u_init : UState := mkU 0 0 0 0 0.

(** percentageStatsAccumulator_t: .h 272; uint8_t up to 2 samples per hour. *)
Definition pcAcc (maxSub z : Z) : Z := if maxSub <=? 2 then u8 z else u16 z.

(** divide_to_u8: .h 285-304. *)
Definition divide_to_u8 (total sc maxSub : Z) : Z :=
  if (1 =? maxSub) || (1 =? sc) then u8 total
  else if (2 <? maxSub) && (2 <? sc) then u8 ((total + Z.shiftr sc 1) / sc)
  else u8 (Z.shiftr (total + 1) 1).

(** update_stats_pair: .h 313-330; [rnd] feeds smoothStatsValue. *)
Definition update_pair (rnd set hh value : Z) (m : Store) : Store :=
  let m := sset m set hh value in
  let sm := sget m (set + 1) hh in
  if UNSET_BYTE =? sm then sset m (set + 1) hh value
  else sset m (set + 1) hh (smooth rnd sm value).

(** Readings of the four optional sensors at one call: None when there is no
    sensor or it is not available.  int16_t temperature, uint8_t others. *)
Record Readings := mkR { rAmb : option Z; rTemp : option Z; rOcc : option Z; rRh : option Z }.
(** The random bytes the four smoothings would draw. *)
Record Rnds := mkRn { nAmb : Z; nTemp : Z; nOcc : Z; nRh : Z }.

(** update_stats_store: .h 357-457. *)
Definition update_stats (maxSub : Z) (full : bool) (hh : Z) (r : Readings) (n : Rnds)
    (u : UState) (m : Store) : UState * Store :=
  if 23 <? hh then (mkU (tempTotal u) (ambTotal u) (occTotal u) (rhTotal u) 0, m) else      (* 373 *)
  if negb full && (maxSub - 1 <=? sampleCount u) then (u, m) else                         (* 377 *)
  let first := 0 =? sampleCount u in                                                     (* 379 *)
  let sc := u8 (sampleCount u + 1) in
  let (ambT, m) :=                                                                        (* 388-402 *)
    match rAmb r with
    | None => (ambTotal u, m)
    | Some v =>
      let v := Z.min v 254 in
      let tot := if first then v else u16 (ambTotal u + v) in
      (tot, if full then update_pair (nAmb n) 2 hh (divide_to_u8 tot sc maxSub) m else m)
    end in
  let (tempT, m) :=                                                                       (* 404-423 *)
    match rTemp r with
    | None => (tempTotal u, m)
    | Some t =>
      let tot := if first then t else i16 (tempTotal u + t) in
      (tot,
       if full then
         let mean :=
           if maxSub <=? 2 then (if 1 =? sc then tot else i16 (Z.shiftr (tot + 1) 1))
           else if 1 =? sc then tot
           else if 2 =? sc then i16 (Z.shiftr (tot + 1) 1)
           else i16 (Z.quot (tot + Z.shiftr sc 1) sc) in
         update_pair (nTemp n) 0 hh (compressTempC16 mean) m
       else m)
    end in
  let (occT, m) :=                                                                        (* 425-437 *)
    match rOcc r with
    | None => (occTotal u, m)
    | Some v =>
      let tot := if first then v else pcAcc maxSub (occTotal u + v) in
      (tot, if full then update_pair (nOcc n) 4 hh (divide_to_u8 tot sc maxSub) m else m)
    end in
  let (rhT, m) :=                                                                         (* 439-450 *)
    match rRh r with
    | None => (rhTotal u, m)
    | Some v =>
      let tot := if first then v else pcAcc maxSub (rhTotal u + v) in
      (tot, if full then update_pair (nRh n) 6 hh (divide_to_u8 tot sc maxSub) m else m)
    end in
  (mkU tempT ambT occT rhT (if full then 0 else sc), m).                                  (* 454-456 *)

(** ** EEPROM-backed store: OTV0P2BASE_EEPROM.h 286-299, .cpp 180-185 *)
Definition STATS_START := 256.       (* OTV0P2BASE_EEPROM.h 188 *)
Definition STATS_END := 615.         (* .h 196: 256 + 24*(14+1) - 1 *)
Definition stat_addr (set hh : Z) : Z := STATS_START + set * 24 + hh.
Definition ee_getStat (set hh : Z) : M Z :=
  if STATS_SETS <=? set then ret UNSET_BYTE else
  if 23 <? hh then ret UNSET_BYTE else ee_read (stat_addr set hh).
Definition ee_setStat (set hh v : Z) : M unit :=
  if STATS_SETS <=? set then ret tt else
  if 23 <? hh then ret tt else
  run _ <- smart_update (stat_addr set hh) v; ret tt.
(** _zapStats: .cpp 180-185; [lim] is the uint16_t countdown. *)
Fixpoint zap_loop (p : Z) (n : nat) (lim : Z) : M bool :=
  match n with
  | O => ret true
  | S n' => run e <- smart_erase p;
            if (e : bool) then
              let lim := u16 (lim - 1) in
              if lim =? 0 then ret false else zap_loop (p + 1) n' lim
            else zap_loop (p + 1) n' lim
  end.
Definition zapStats (lim : Z) : M bool := zap_loop STATS_START 360 lim.
