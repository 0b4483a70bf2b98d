(** Model of OTV0P2BASE_ADC.cpp (AVR), of the motor hardware drivers
    OTRadValve_ValveMotorDirectV1.h, OTRadValve_ValveMotorDRV8850.h and of
    OTRadValve_ValveMotorBase.h/.cpp. *)
From Verif Require Import Base.

(** ** Analogue reads *)

(** ADC.cpp 105-142: _analogueNoiseReducedReadM (variant with ADC_TIMEOUT_TEST,
    which the file defines): [sct k] is the sub-cycle time before the k-th
    conversion and [conv k] its 10-bit result; the pair (h, l) is kept as one
    number; [old] starts at 0xffff and [result] at 1024 (h = 4, l = 0).
    Power-up, sleep modes and the entropy accumulator are not modelled. *)
Fixpoint adc_loop (samples k : nat) (sct conv : nat -> Z) (old result : Z) : Z :=
  match samples with
  | O => result
  | S s => if 254 <? sct k then result
           else let c := conv k in
                if c =? old then c
                else adc_loop s (S k) sct conv c c
  end.
Definition adc_read (samples : nat) (sct conv : nat -> Z) : Z := adc_loop samples 0 sct conv 65535 1024.

(** ADC.cpp 324-341: readInternalTemperatureC16; int is 16 bits on the AVR:
    None is the signed overflow of the product. *)
Definition internal_temp (raw : Z) : option Z :=
  let d := i16 raw - 324 in
  let m := d * 210 in
  if (-32768 <=? m) && (m <=? 32767) then Some (Z.shiftr m 4) else None.

(** SensorAmbientLight.h 396-402: the light level from the ADC (shift 2). *)
Definition light_level (al : Z) : Z := u8 (Z.shiftr al 2).

(** SensorTemperaturePot.h 204-205: direction correction of the dial reading. *)
Definition pot_newRaw (reverse : bool) (tpRaw : Z) : Z := if reverse then u16 (1023 - tpRaw) else tpRaw.

(** ValveMotorDirectV1.h 74-95: isCurrentHigh with the ADC reading [mi];
    directions as in AbstractRadValve.h 277-283: 0 off, 1 closing, 2 opening. *)
Definition v1_currentHigh (closing : bool) (mi : Z) : bool := (if closing then 600 else 450) <? mi.

(** ** The V1 H-bridge *)

(** The two bridge lines: data direction (output) and port latch of each.
    A line is driven low, which turns on that half of the bridge, when it is an
    output with a 0 latch. *)
Record Pins := mkPins { dL : bool; pL : bool; dR : bool; pR : bool }.
Inductive Line := ML | MR.

Definition low (l : Line) (p : Pins) : bool :=
  match l with ML => dL p && negb (pL p) | MR => dR p && negb (pR p) end.

(** What the driver does, one AVR port access at a time.  pinMode(OUTPUT) sets
    the direction bit; pinMode(INPUT_PULLUP) clears it and then sets the latch. *)
Inductive Act :=
| Port (l : Line) (v : bool)
| Dir (l : Line) (v : bool)
| NapMs (ms : Z)
| Spin (maxTicks minTicks dir : Z)
| Reset.

Definition do_act (p : Pins) (a : Act) : Pins :=
  match a with
  | Port ML v => mkPins (dL p) v (dR p) (pR p)
  | Port MR v => mkPins (dL p) (pL p) (dR p) v
  | Dir ML v => mkPins v (pL p) (dR p) (pR p)
  | Dir MR v => mkPins (dL p) (pL p) v (pR p)
  | NapMs _ | Spin _ _ _ => p
  | Reset => mkPins false false false false
  end.

(** ValveMotorBase.h 37-46: ticks, from 8 ms and 32 ms. *)
Definition SETTLE_TICKS : Z := Z.max 1 (8 / (2000 / 256)).
Definition RUNUP_TICKS : Z := Z.max 1 (32 / (2000 / 256)).

(** ValveMotorDirectV1.h 121-203: motorRun, given last_dir. *)
Definition v1_motorRun (maxRunTicks dir prev : Z) : list Act :=
  if dir =? 1 then
    [Port ML true; Dir ML true] ++ (if negb (prev =? dir) then [NapMs 120] else []) ++
    [Dir MR true; Port MR false; Spin (Z.max maxRunTicks RUNUP_TICKS) RUNUP_TICKS dir]
  else if dir =? 2 then
    [Port MR true; Dir MR true] ++ (if negb (prev =? dir) then [NapMs 120] else []) ++
    [Dir ML true; Port ML false; Spin (Z.max maxRunTicks RUNUP_TICKS) RUNUP_TICKS dir]
  else
    let wasOff := prev =? 0 in
    [Port MR true; Dir MR false; Port MR true;
     Spin (if wasOff then SETTLE_TICKS else RUNUP_TICKS) (if wasOff then 0 else RUNUP_TICKS / 2) prev;
     Port ML true; Dir ML false; Port ML true; Spin SETTLE_TICKS 0 0] ++
    (if negb (prev =? dir) then [NapMs 60] else []).

(** A history: calls of motorRun (last_dir is recorded at the end of each), and
    a reset of the CPU after any number of the actions of a call. *)
Inductive Ev := Run (maxTicks dir : Z) | CrashIn (maxTicks dir : Z) (after : nat).

(** The trace: every action with the line state it finds. *)
Fixpoint acts_trace (p : Pins) (l : list Act) : list (Pins * Act) * Pins :=
  match l with
  | [] => ([], p)
  | a :: l => let (t, p') := acts_trace (do_act p a) l in ((p, a) :: t, p')
  end.
Fixpoint v1_history (p : Pins) (last : Z) (evs : list Ev) : list (Pins * Act) * (Pins * Z) :=
  match evs with
  | [] => ([], (p, last))
  | Run m d :: evs =>
      let (t, p1) := acts_trace p (v1_motorRun m d last) in
      let (t', r) := v1_history p1 d evs in (t ++ t', r)
  | CrashIn m d n :: evs =>
      let (t, p1) := acts_trace p (firstn n (v1_motorRun m d last) ++ [Reset]) in
      let (t', r) := v1_history p1 0 evs in (t ++ t', r)
  end.

(** ** The DRV8850 *)

(** ValveMotorDRV8850.h 117-192: the latches of the lines, all outputs. *)
Record Drv := mkDrv { v_ml : bool; v_mr : bool; v_nsleep : bool }.

(** ValveMotorDRV8850.h 125-191: the line states left by motorRun, and those it
    goes through. *)
Definition drv_motorRun (s : Drv) (dir : Z) : list Drv :=
  if dir =? 1 then
    let s1 := mkDrv false (v_mr s) (v_nsleep s) in
    let s2 := mkDrv false (v_mr s1) true in
    [s1; s2; mkDrv false true true]
  else if dir =? 2 then
    let s1 := mkDrv (v_ml s) false (v_nsleep s) in
    let s2 := mkDrv (v_ml s1) false true in
    [s1; s2; mkDrv true false true]
  else
    let s1 := mkDrv (v_ml s) (v_mr s) false in
    let s2 := mkDrv (v_ml s1) false false in
    [s1; s2; s2].
Definition drv_after (s : Drv) (dir : Z) : Drv := last (drv_motorRun s dir) s.
Fixpoint drv_run (s : Drv) (dirs : list Z) : Drv :=
  match dirs with [] => s | d :: ds => drv_run (drv_after s d) ds end.

(** ValveMotorDRV8850.h 47-48 and 197-201: the template parameters of the
    hardware driver, in its order, and what DRV8850Driver passes for them. *)
Record DrvPins := mkDrvPins { k_ml : Z; k_mr : Z; k_mi : Z; k_mc : Z; k_nsleep : Z }.
Definition drv_instance (ml mr nsleep mi mc : Z) : DrvPins := mkDrvPins ml mr nsleep mi mc.

(** ** Spinning the motor *)

(** CurrentSenseValveMotorDirect.h 104-112 with 7, 255 and RUNUP_TICKS. *)
Definition SPIN_LIMIT : Z := u8 (255 - Z.max 1 (u8 ((255 + 1) / 4 - RUNUP_TICKS - 1 - 240 / 7))).

(** ValveMotorBase.cpp 44-105: spinSCTTicks.  [sct k] is the k-th reading of the
    sub-cycle counter and [hi k] the answer of isCurrentHigh before the k-th
    reading.  The result: the value returned, the signalRunSCTTick callbacks
    made, whether signalHittingEndStop was called, and the index of the last
    reading; None is a loop still running. *)
Record SpinR := mkSpinR { sp_ret : bool; sp_ticks : Z; sp_end : bool; sp_k : nat }.

Fixpoint spin_min (fuel : nat) (sct : nat -> Z) (k : nat) (cur minRun ticks : Z) : option (nat * Z * Z) :=
  match fuel with
  | O => None
  | S f => let s := sct k in
           if negb (s =? cur) then
             if minRun <=? s then Some (k, s, ticks + 1)
             else spin_min f sct (S k) s minRun (ticks + 1)
           else spin_min f sct (S k) cur minRun ticks
  end.
Fixpoint spin_max (fuel : nat) (sct : nat -> Z) (hi : nat -> bool) (k : nat) (cur maxRun ticks : Z) : option (nat * Z * bool) :=
  match fuel with
  | O => None
  | S f => if hi k then Some (k, ticks, true)
           else let s := sct k in
                if negb (s =? cur) then
                  if maxRun <=? s then Some (k, ticks + 1, false)
                  else spin_max f sct hi (S k) s maxRun (ticks + 1)
                else spin_max f sct hi (S k) cur maxRun ticks
  end.
Definition spin (fuel : nat) (sct : nat -> Z) (hi : nat -> bool) (maxT minT dir : Z) : option SpinR :=
  let start := sct O in
  let maxb := u8 (SPIN_LIMIT - start) in
  if (SPIN_LIMIT <=? start) || (maxb <? minT) then Some (mkSpinR true 0 false O)
  else
    let stopped := dir =? 0 in
    let minRun := u8 (start + minT) in
    let maxRun := u8 (start + Z.min maxT maxb) in
    do (k, cur, ticks) <- spin_min fuel sct 1 start minRun 0 ;
    if minRun <? maxRun then
      do (k', ticks', high) <- spin_max fuel sct hi (S k) cur maxRun ticks ;
      Some (mkSpinR high (if stopped then 0 else ticks') high k')
    else Some (mkSpinR false (if stopped then 0 else ticks) false k).
