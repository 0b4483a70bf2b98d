(** Model of OTV0P2BASE_ErrorReport.h (class ErrorReport) and of the supply
    voltage sensor of OTV0P2BASE_PowerManagement.h/.cpp
    (class SupplyVoltageCentiVolts), which reports through it. *)
From Verif Require Import Base.

(** ErrorReport.h 147-158: value (int8_t) and timeoutTicks (atomic uint8_t). *)
Record Err := mkErr { er_value : Z; er_ticks : Z }.

(** ErrorReport.h 162: created aged with no error. *)
Definition err_init : Err := mkErr 0 0.

(** ErrorReport.h 153: DEFAULT_TIMEOUT. *)
Definition ERR_TIMEOUT : Z := 10.

(** ErrorReport.h 202-203: isAged. *)
Definition err_isAged (e : Err) : bool := er_ticks e =? 0.

(** ErrorReport.h 206-207: isAvailable. *)
Definition err_isAvailable (e : Err) : bool := negb (err_isAged e).

(** ErrorReport.h 190-191: get. *)
Definition err_get (e : Err) : Z := er_value e.

(** ErrorReport.h 169-179: set; the returned bool is the method's result. *)
Definition err_set (e : Err) (newValue : Z) : Err * bool :=
  if (0 <? newValue) || err_isAged e
  then (mkErr newValue ERR_TIMEOUT, true)
  else (e, false).

(** ErrorReport.h 198-199: read; Concurrency.h 209-215: safeDecIfNZWeak
    (single-threaded: the compare-exchange always succeeds; the class
    documents set() as not ISR-safe, so no interleaving is modelled). *)
Definition err_read (e : Err) : Err * Z :=
  let e' := if er_ticks e =? 0 then e
            else mkErr (er_value e) (u8 (er_ticks e - 1)) in
  (e', err_get e').

(** The two mutating calls a program can make on a reporter. *)
Inductive ErrOp := ESet (v : Z) | ERead.

Definition err_do (e : Err) (o : ErrOp) : Err :=
  match o with ESet v => fst (err_set e v) | ERead => fst (err_read e) end.

Definition err_run (e : Err) (os : list ErrOp) : Err := fold_left err_do os e.

(** ErrorReport.h 96, 144: catalogue entries used by the supply sensor. *)
Definition WARN_BATTERY_LOW : Z := -21.
Definition ERR_BATTERY_VERY_LOW : Z := 20.

(** PowerManagement.h 302-310, 339-360: thresholds and state. *)
Definition BATTERY_VERY_LOW_cV : Z := 210.
Definition BATTERY_LOW_cV : Z := 245.
Definition MAINS_MIN_cV : Z := 300.
Definition INITIAL_RAWINV : Z := 65535.

Record Supply := mkSupply
  { sv_rawInv : Z; sv_value : Z; sv_isLow : bool; sv_isVeryLow : bool }.

Definition supply_init : Supply := mkSupply INITIAL_RAWINV 0 true true.

(** PowerManagement.h 384: isMains. *)
Definition sv_isMains (s : Supply) : bool := MAINS_MIN_cV <=? sv_value s.

(** PowerManagement.cpp 321: the conversion; unsigned int is 16 bits on AVR;
    None = division by zero. *)
Definition supply_cV (raw : Z) : option Z :=
  if raw =? 0 then None
  else Some (u16 (u16 (u16 (Z.shiftl 1023 6) / raw * 55) / 32)).

(** PowerManagement.cpp 277-344: read() with the ADC result [raw]
    (the entropy capture of 287 is omitted; it does not feed back).
    Returns the new sensor and reporter states and the method's result. *)
Definition supply_read (s : Supply) (e : Err) (raw : Z)
  : option (Supply * Err * Z) :=
  if (raw <=? sv_rawInv s) && (sv_rawInv s - raw <=? 6)
  then Some (s, e, sv_value s)
  else
    do result <- supply_cV raw ;
    let vlow := result <=? BATTERY_VERY_LOW_cV in
    let low := vlow || (result <=? BATTERY_LOW_cV) in
    let s' := mkSupply raw result low vlow in
    let e' := if vlow then fst (err_set e ERR_BATTERY_VERY_LOW)
              else if low then fst (err_set e WARN_BATTERY_LOW) else e in
    Some (s', e', result).

(** A program's history: supply readings (with the ADC value seen), once-a-
    minute ageing polls of the reporter, and reports by other code. *)
Inductive PowOp := PSupply (raw : Z) | PErr (o : ErrOp).

Definition pow_do (st : Supply * Err) (o : PowOp) : option (Supply * Err) :=
  match o with
  | PSupply raw => do (s, e, _) <- supply_read (fst st) (snd st) raw ; Some (s, e)
  | PErr o => Some (fst st, err_do (snd st) o)
  end.

Fixpoint pow_run (st : Supply * Err) (os : list PowOp) : option (Supply * Err) :=
  match os with
  | [] => Some st
  | o :: os => do st' <- pow_do st o ; pow_run st' os
  end.
