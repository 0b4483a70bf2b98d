(** Model of the software real-time clock (AVR build):
    /repo/content/OTRadioLink/utility/OTV0P2BASE_RTC.cpp 98-130 (persistRTC), 142-176
    (restoreRTC), 187-248 (getters), 259-273 (setHoursMinutesLT), 301-310 (setSeconds),
    331-353 (timer interrupt; the watchdog part 354-386 is not modelled) and
    OTV0P2BASE_RTC.h 93, 130-131.  ATOMIC_BLOCKs make every function below atomic with
    respect to the timer interrupt; the EEPROM and its power failures are those of
    EepromModel. *)
From Verif Require Import Base EepromModel.

Record Clock := mkClock { secondsLT : Z; minutesSinceMidnightLT : Z; daysSince1999LT : Z }. (* .cpp 55-67 *)
Definition MAIN_TICK_S := 2.                        (* .h 158 *)
Definition RTC_DAY := 8.                            (* OTV0P2BASE_EEPROM.h 101 *)
Definition RTC_HHMM := 10.                          (* OTV0P2BASE_EEPROM.h 104 *)

(** avr-libc eeprom_write_byte (erase and write), eeprom_read_word / eeprom_write_word
    (little-endian, low byte first). *)
Definition ee_write_byte (p v : Z) : M unit := ee_op KEraseWrite p v.
Definition ee_read_word (p : Z) : M Z := run lo <- ee_read p; run hi <- ee_read (p + 1); ret (lo + 256 * hi).
Definition ee_write_word (p v : Z) : M unit :=
  run _ <- ee_op KEraseWrite p (Z.land v 255); ee_op KEraseWrite (p + 1) (Z.shiftr v 8).

(** The byte for the time of day, 102-109. *)
Definition rtc_target (mins : Z) : Z :=
  let quarterHours := u8 (mins / 15) in                                   (* 102 *)
  let targetByte := u8 (Z.land (Z.shiftl quarterHours 1) (Z.lnot 7)) in   (* 103 *)
  let k := Z.land quarterHours 3 in                                       (* 104 *)
  if k =? 0 then Z.lor targetByte 7 else if k =? 1 then Z.lor targetByte 3
  else if k =? 2 then Z.lor targetByte 1 else targetByte.                 (* 106-108 *)
(** persistRTC, 98-130. *)
Definition persistRTC (c : Clock) : M unit :=
  let targetByte := rtc_target (minutesSinceMidnightLT c) in
  run persistedValue <- ee_read RTC_HHMM;                                 (* 112 *)
  if negb (persistedValue =? targetByte) then                             (* 113 *)
    run _ <- (if negb (targetByte =? Z.land persistedValue targetByte)    (* 119 *)
              then ee_write_byte RTC_HHMM targetByte                      (* 120 *)
              else run _ <- smart_clear_bits RTC_HHMM targetByte; ret tt); (* 123 *)
    run days <- ee_read_word RTC_DAY;                                     (* 126 *)
    if negb (days =? daysSince1999LT c) then ee_write_word RTC_DAY (daysSince1999LT c) else ret tt (* 127 *)
  else ret tt.
(** restoreRTC, 142-176: new clock and result. *)
Definition restoreRTC (c : Clock) : M (Clock * bool) :=
  run days <- ee_read_word RTC_DAY;                                       (* 148 *)
  let c := if negb (days =? 65535) then mkClock (secondsLT c) (minutesSinceMidnightLT c) days else c in (* 149 *)
  run persistedValue <- ee_read RTC_HHMM;                                 (* 152 *)
  if persistedValue >=? Z.shiftl 24 3 then ret (c, false)                 (* 156 *)
  else
    let m := (Z.shiftr persistedValue 3) * 60 + 8 in                      (* 158-159 *)
    let lowBits := Z.land persistedValue 7 in                             (* 160 *)
    let set m := ret (mkClock (secondsLT c) (u16 m) (daysSince1999LT c), true) in (* 172-175 *)
    if lowBits =? 0 then set (m + 45) else if lowBits =? 1 then set (m + 30)
    else if lowBits =? 3 then set (m + 15) else if lowBits =? 7 then set m
    else ret (c, false).                                                  (* 167 *)

(** Timer interrupt, 339-353. *)
Definition rtc_tick (c : Clock) : Clock :=
  let sTemp := u8 (secondsLT c + MAIN_TICK_S) in
  if sTemp >? 59 then
    let mTemp := u16 (minutesSinceMidnightLT c + 1) in
    if mTemp >? 1439 then mkClock 0 0 (u16 (daysSince1999LT c + 1))
    else mkClock 0 mTemp (daysSince1999LT c)
  else mkClock sTemp (minutesSinceMidnightLT c) (daysSince1999LT c).
(** setHoursMinutesLT, 259-273. *)
Definition setHoursMinutesLT (c : Clock) (hours minutes : Z) : M (Clock * bool) :=
  if (hours >? 23) || (minutes >? 59) then ret (c, false)                 (* 261 *)
  else let m := u16 (60 * hours + minutes) in                             (* 262 *)
    if negb (m =? minutesSinceMidnightLT c) then                          (* 265 *)
      let c' := mkClock (secondsLT c) m (daysSince1999LT c) in
      run _ <- persistRTC c'; ret (c', true)                              (* 268-269 *)
    else ret (c, true).                                                   (* 272 *)
(** setSeconds, 301-310 (two-second tick). *)
Definition setSeconds (c : Clock) (seconds : Z) : Clock * bool :=
  if seconds >? 59 then (c, false)
  else (mkClock (Z.land seconds (Z.lnot 1)) (minutesSinceMidnightLT c) (daysSince1999LT c), true).
(** Getters, .cpp 187-248, .h 93, 130-131. *)
Definition getSecondsLT c := secondsLT c.
Definition getMinutesSinceMidnightLT c := minutesSinceMidnightLT c.
Definition getMinutesLT c := u8 (getMinutesSinceMidnightLT c mod 60).
Definition getHoursLT c := u8 (getMinutesSinceMidnightLT c / 60).
Definition getDaysSince1999LT c := daysSince1999LT c.
Definition getPrevHourLT c := let h := getHoursLT c in if 0 =? h then 23 else u8 (h - 1).
Definition getNextHourLT c := let h := getHoursLT c in if h >=? 23 then 0 else u8 (h + 1).
Definition getElapsedSecondsLT (start now : Z) : Z := u8 (if now >=? start then now - start else 60 + now - start).
