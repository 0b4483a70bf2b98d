(** Model of the occupancy tracker:
    /repo/content/OTRadioLink/utility/OTV0P2BASE_SensorOccupancy.cpp 40-131 and
    OTV0P2BASE_SensorOccupancy.h 44-282, with safeDecIfNZWeak and the atomic byte of
    OTV0P2BASE_Concurrency.h 134-164, 209-215 (AVR: byte loads and stores are atomic,
    compare_exchange_strong runs with interrupts off).
    Operations that may be interrupted take a schedule [g]: [g i] is the list of
    interrupt-time marks that run just before the i-th access to shared state. *)
From Verif Require Import Base.

Definition OCCUPATION_TIMEOUT_M := 50.                                  (* .h 54 *)
Definition OCCCP_SHIFT := 1.                                            (* .h 59-67 *)
Definition NEW_OCCUPANCY_TIMEOUT_M := 3.                                (* .h 72 *)
Definition OCCUPATION_TIMEOUT_LIKELY_M := Z.max ((OCCUPATION_TIMEOUT_M * 4) / 5) 3.  (* .h 76 *)
Definition OCCUPATION_TIMEOUT_MAYBE_M := Z.max (OCCUPATION_TIMEOUT_LIKELY_M / 2) 2.  (* .h 78 *)
Definition weakVacantHThrH := 2.                                        (* .h 245 *)
Definition longVacantHThrH := 24.                                       (* .h 249 *)
Definition longLongVacantHThrH := 39.                                   (* .h 256 *)

Record Occ := mkOcc { occupationCountdownM : Z; newOccupancyCountdownM : Z;
                      vacancyH : Z; vacancyM : Z; occ_value : Z }.      (* .h 93-105; value: SimpleTSUint8Sensor *)
Definition Occ0 := mkOcc 0 0 0 0 0.                                     (* .h 104-110 *)
Definition set_oc s x := mkOcc x (newOccupancyCountdownM s) (vacancyH s) (vacancyM s) (occ_value s).
Definition set_new s x := mkOcc (occupationCountdownM s) x (vacancyH s) (vacancyM s) (occ_value s).
Definition set_vac s h m := mkOcc (occupationCountdownM s) (newOccupancyCountdownM s) h m (occ_value s).
Definition set_value s x := mkOcc (occupationCountdownM s) (newOccupancyCountdownM s) (vacancyH s) (vacancyM s) x.
Definition cas_oc s expected desired := if occupationCountdownM s =? expected then set_oc s desired else s.   (* Concurrency.h 157-163 *)
Definition cas_new s expected desired := if newOccupancyCountdownM s =? expected then set_new s desired else s.

(** Marks usable from an interrupt (documented ISR-safe). *)
Inductive iop := IOcc | IPoss.
(** markAsOccupied, .cpp 76-84, uninterrupted. *)
Definition markAsOccupied0 (s : Occ) : Occ :=
  let s := set_value s 100 in
  let s := if 0 =? occupationCountdownM s then set_new s NEW_OCCUPANCY_TIMEOUT_M else s in
  set_oc s OCCUPATION_TIMEOUT_M.
(** markAsPossiblyOccupied, .cpp 95-108, uninterrupted. *)
Definition markAsPossiblyOccupied0 (s : Occ) : Occ :=
  let ocM := occupationCountdownM s in
  let s := if 0 =? ocM then set_new s NEW_OCCUPANCY_TIMEOUT_M else s in
  cas_oc s ocM (Z.max ocM OCCUPATION_TIMEOUT_LIKELY_M).
Definition isr_step (s : Occ) (o : iop) : Occ := match o with IOcc => markAsOccupied0 s | IPoss => markAsPossiblyOccupied0 s end.
Definition isr (l : list iop) (s : Occ) : Occ := fold_left isr_step l s.
Definition Gaps := nat -> list iop.

(** read(), .cpp 40-67. *)
Definition occ_read (g : Gaps) (s : Occ) : Occ * Z :=
  let s := isr (g 0%nat) s in let o := occupationCountdownM s in                        (* 54: load *)
  let s := isr (g 1%nat) s in let s := if 0 =? o then s else cas_oc s o (u8 (o - 1)) in (* 54: CAS *)
  let s := isr (g 2%nat) s in let n := newOccupancyCountdownM s in                      (* 56: load *)
  let s := isr (g 3%nat) s in let s := if 0 =? n then s else cas_new s n (u8 (n - 1)) in (* 56: CAS *)
  let s := isr (g 4%nat) s in let ocM := occupationCountdownM s in                      (* 59 *)
  let s := if ocM >? 0 then set_vac s 0 0                                               (* 60 *)
           else if vacancyH s <? 255 then                                               (* 61 *)
             if u8 (vacancyM s + 1) >=? 60 then set_vac s (u8 (vacancyH s + 1)) 0       (* 62 *)
             else set_vac s (vacancyH s) (u8 (vacancyM s + 1))
           else s in
  let newValue := if 0 =? ocM then 0
                  else Z.min 100 (100 - u8 (Z.shiftl (OCCUPATION_TIMEOUT_M - ocM) OCCCP_SHIFT)) in (* 63-64 *)
  let s := isr (g 5%nat) s in (set_value s newValue, newValue).                         (* 65-66 *)
(** markAsOccupied, .cpp 76-84. *)
Definition markAsOccupied (g : Gaps) (s : Occ) : Occ :=
  let s := isr (g 0%nat) s in let s := set_value s 100 in                               (* 78 *)
  let s := isr (g 1%nat) s in let z := 0 =? occupationCountdownM s in                   (* 80 *)
  let s := isr (g 2%nat) s in let s := if z then set_new s NEW_OCCUPANCY_TIMEOUT_M else s in (* 81 *)
  let s := isr (g 3%nat) s in set_oc s OCCUPATION_TIMEOUT_M.                            (* 83 *)
(** markAsPossiblyOccupied, .cpp 95-108. *)
Definition markAsPossiblyOccupied (g : Gaps) (s : Occ) : Occ :=
  let s := isr (g 0%nat) s in let ocM := occupationCountdownM s in                      (* 99 *)
  let s := isr (g 1%nat) s in let s := if 0 =? ocM then set_new s NEW_OCCUPANCY_TIMEOUT_M else s in (* 101-102 *)
  let s := isr (g 2%nat) s in cas_oc s ocM (Z.max ocM OCCUPATION_TIMEOUT_LIKELY_M).     (* 104-107 *)
(** markAsJustPossiblyOccupied, .cpp 118-131. *)
Definition markAsJustPossiblyOccupied (g : Gaps) (s : Occ) : Occ :=
  let s := isr (g 0%nat) s in
  if vacancyH s >? weakVacantHThrH then isr (g 1%nat) s                                 (* 122 *)
  else let ocM := occupationCountdownM s in                                             (* 125 *)
    let s := isr (g 1%nat) s in cas_oc s ocM (Z.max ocM OCCUPATION_TIMEOUT_MAYBE_M).    (* 127-130 *)
(** markAsVacant .h 210, setHolidayMode .h 281, reset .h 119 (main line, uninterrupted). *)
Definition markAsVacant (s : Occ) : Occ := mkOcc 0 0 (vacancyH s) (vacancyM s) 0.
Definition setHolidayMode (s : Occ) : Occ := mkOcc 0 0 255 (vacancyM s) 0.
Definition occ_reset (s : Occ) : Occ := mkOcc 0 0 0 0 0.

(** Queries. *)
Definition reportedNewOccupancyRecently s := negb (0 =? newOccupancyCountdownM s).      (* .h 147 *)
Definition isLikelyOccupied s := negb (0 =? occupationCountdownM s).                    (* .h 155 *)
Definition isLikelyRecentlyOccupied s := occupationCountdownM s >? OCCUPATION_TIMEOUT_LIKELY_M. (* .h 165 *)
Definition isLikelyUnoccupied s := negb (isLikelyOccupied s).                           (* .h 175 *)
Definition twoBitOccupancyValue s := if isLikelyRecentlyOccupied s then 3 else if isLikelyOccupied s then 2 else 1. (* .h 215 *)
Definition getVacancyH s := if negb (occ_value s =? 0) then 0 else vacancyH s.          (* .h 229 *)
Definition vacHSubSensor s := vacancyH s.                                               (* .h 110, 238 *)
Definition occ_get s := occ_value s.
Definition confidentlyVacant s := getVacancyH s >? weakVacantHThrH.                     (* .h 259 *)
Definition longVacant s := getVacancyH s >? longVacantHThrH.                            (* .h 266 *)
Definition longLongVacant s := getVacancyH s >? longLongVacantHThrH.                    (* .h 273 *)

Inductive oop := ORead | OOcc | OPoss | OJust | OVacant | OHoliday | OReset.
Definition nogaps : Gaps := fun _ => [].
Definition ostep_i (g : Gaps) (s : Occ) (o : oop) : Occ :=
  match o with
  | ORead => fst (occ_read g s)
  | OOcc => markAsOccupied g s
  | OPoss => markAsPossiblyOccupied g s
  | OJust => markAsJustPossiblyOccupied g s
  | OVacant => markAsVacant s
  | OHoliday => setHolidayMode s
  | OReset => occ_reset s
  end.
Definition ostep := ostep_i nogaps.
Definition orun (s : Occ) (l : list oop) : Occ := fold_left ostep l s.
