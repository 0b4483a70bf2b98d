(** Model of OTV0P2BASE_Sleep.h/.cpp (busy-wait delays, naps, sleeping to a
    sub-cycle time, sleeping to a new cycle) and of the oscillator tests of
    OTV0P2BASE_HardwareTests.cpp.  Time is counted in half microseconds, so that
    one tick of the 2 s / 256 sub-cycle counter (TCNT2) is exactly 15625 units. *)
From Verif Require Import Base.

Definition TICK : Z := 15625.

(** Sleep.h 286-287: getSubCycleTime, TCNT2 driven by the 32768 Hz crystal:
    one count per [p] units, 8 bits. *)
Definition subcycle (p T : Z) : Z := u8 (T / p).

(** Sleep.h 336-342: SUBCYCLE_TICK_MS_RD and SUBCYCLE_TICK_MS_RN. *)
Definition TICK_MS_RD : Z := 2000 / 256.
Definition TICK_MS_RN : Z := (2000 + 128) / 256.

(** Sleep.h 346: msRemainingThisBasicCycle. *)
Definition ms_remaining (T : Z) : Z := u16 (TICK_MS_RD * (255 - subcycle TICK T)).

(** Sleep.h 291-306: the EFR32 emulated sub-cycle: SysTick reload for a clock of
    [hz], from an integer number of milliseconds; 32-bit arithmetic. *)
Definition systick_ticks (hz period_ms : Z) : Z := ((hz * period_ms) mod 2 ^ 32) / 1000.
Definition emulated_ticks (hz : Z) : Z := systick_ticks hz (2000 / 256).

(** ** Delays *)

(** Sleep.h 84-93: the AVR assembly loop "1: dec n; breq 2f; 2: brne 1b": each
    pass takes four cycles (dec 1; breq not taken 1 and brne taken 2, or breq
    taken 2 and brne not taken 1); the register is decremented before it is
    tested.  Returns the cycles used; at most 256 passes. *)
Fixpoint x4_loop (fuel : nat) (n cycles : Z) : Z :=
  match fuel with
  | O => cycles
  | S f => let n' := u8 (n - 1) in
           if n' =? 0 then cycles + 4 else x4_loop f n' (cycles + 4)
  end.
Definition x4cycles (n : Z) : Z := x4_loop 256 (u8 n) 0.

(** Sleep.h 103-109: OTV0P2BASE_busy_spin_delay at 1 MHz; [const] is
    __builtin_constant_p(us).  The result is in CPU cycles (microseconds). *)
Definition spin_1MHz (const : bool) (us : Z) : Z :=
  if const && (us =? 0) then 0
  else (if const && Z.testbit us 0 then 1 else 0)
     + (if const && Z.testbit us 1 then 2 else 0)
     + (if 4 <=? us then x4cycles (us / 4) else 0).

(** Sleep.h 111-116: the same at 16 MHz: an uint8_t count of 64 us blocks, then
    the rest.  The result is in CPU cycles, 16 to the microsecond. *)
Definition spin_16MHz (const : bool) (us : Z) : Z :=
  if const && (us =? 0) then 0
  else u8 (us / 64) * x4cycles 0 + x4cycles ((us mod 64) * 4).

(** Sleep.h 129: delay_ms: [ms] constant delays of 996 us. *)
Definition delay_ms_1MHz (ms : Z) : Z := ms * spin_1MHz true 996.

(** Sleep.h 140-149: the ARM loop "SUBS; NOP; BNE": 4 cycles a pass on a 32-bit
    register, so that 0 makes 2^32 passes.  In cycles. *)
Definition arm_x4long (n : Z) : Z := 4 * (if n mod 2 ^ 32 =? 0 then 2 ^ 32 else n mod 2 ^ 32).

(** Sleep.h 151: the ARM _delay_x4cycles: n = (0U == n) ? 256 : 0. *)
Definition arm_x4cycles (n : Z) : Z := arm_x4long (if n =? 0 then 256 else 0).

(** Sleep.h 158-171: delayLoopTimeInNS at F_CPU 19 MHz, loops per microsecond,
    and OTV0P2BASE_busy_spin_delayLong with an argument that is not a
    compile-time constant.  In cycles, 19 to the microsecond. *)
Definition ARM_LOOP_NS : Z := 1000000000 / (19000000 / 4).
Definition arm_spin (us : Z) : Z := arm_x4long (us * (1000 / ARM_LOOP_NS)).

(** Sleep.h 178: the ARM delay_ms. *)
Definition arm_delay_ms (ms : Z) : Z := ms * arm_spin (1000000 / (ARM_LOOP_NS * 9)).

(** Sleep.h 222-234, 261, 271; Sleep.cpp 186-192: loops of 4 cycles at the
    minimum CPU clock of 1000000 >> (8 - 3) = 31250 Hz for one slice of
    sleepLowPowerLessThanMs, and its length in half microseconds (64 each
    cycle), without the entry and exit overheads. *)
Definition MIN_CPU_HZ : Z := 1000000 / 2 ^ (8 - 3).
Definition low_loops (ms : Z) : Z := u16 ((MIN_CPU_HZ / 4000) * ms - 2).
Definition low_slice : Z := low_loops 1 * 4 * (2000000 / MIN_CPU_HZ).

(** Sleep.h 251: _sleepLowPowerMs: the loops asked for.  MIN_CPU_HZ and ms are
    uint16_t and int is 16 bits on the AVR, so the product is taken modulo
    65536. *)
Definition low_loops_ms (ms : Z) : Z := u16 (u16 (u16 (MIN_CPU_HZ * ms) + 2000) / 4000 - 2).

(** ** Naps *)

(** What can wake the CPU: the watchdog interrupt, or any other. *)
Inductive Wake := WDT | OtherInt.

Definition fires (w : Wake) : bool := match w with WDT => true | OtherInt => false end.

(** Sleep.cpp 88-108 (_idleCPU), 114-129 (nap(t)), 137-155 (nap(t, premature)):
    the three loops are the same but for the sleep mode, and nap(t) is the case
    [premature = false].  A round is the interrupts served while the CPU is
    awake between the last test and the sleep instruction (Sleep.cpp 57-67 does
    not test the flag again before sleeping), and the interrupt that ends the
    sleep.  [fired] is _watchdogFired <> 0 (Sleep.cpp 78-85: the handler stores
    a value with bit 7 set).  [tail] are the interrupts served before a last
    sleep that nothing ends: None is a CPU still asleep.  Returns the result
    and the number of rounds slept. *)
Fixpoint nap_loop (premature : bool) (rounds : list (list Wake * Wake)) (fired : bool) (k : Z)
  : option (bool * Z) :=
  match rounds with
  | [] => None
  | (pre, w) :: rs =>
      let fired := fired || existsb fires pre || fires w in
      if fired || premature then Some (fired, k + 1)
      else nap_loop premature rs fired (k + 1)
  end.
Definition nap (premature : bool) (rounds : list (list Wake * Wake)) (tail : list Wake)
  : option (bool * Z) := nap_loop premature rounds false 0.

(** ** Sleeping to a sub-cycle time *)

(** The requests sleepUntilSubCycleTime makes: a nap of a nominal number of
    milliseconds, or a number of slices of sleepLowPowerLessThanMs. *)
Inductive Req := Nap (ms : Z) | Low (slices : Z).

(** Sleep.cpp 202-255: the request made with [ticks] (uint8_t, > 0) left. *)
Definition sleep_request (ticks : Z) : Req :=
  if ticks =? 1 then Low 1
  else let msLeft := u16 (TICK_MS_RD * ticks) in
       if 20 <=? msLeft then
         if 80 <=? msLeft then if 333 <=? msLeft then Nap 250 else Nap 60
         else Nap 15
       else Low (u16 (msLeft - 1)).

(** Sleep.cpp 202-255: sleepUntilSubCycleTime; the k-th sleep, asked for as [r],
    lasts [dur k r].  Returns the result and the time at the return. *)
Fixpoint sleep_until (fuel : nat) (dur : nat -> Req -> Z) (k : nat) (T target : Z)
  : option (bool * Z) :=
  match fuel with
  | O => None
  | S f =>
      let now := subcycle TICK T in
      if now =? target then Some (true, T)
      else if target <? now then Some (false, T)
      else let r := sleep_request (u8 (target - now)) in
           sleep_until f dur (S k) (T + dur k r) target
  end.

(** ** Sleeping to a new cycle *)

(** Sleep.h 417-447: sleepUntilNewCycle, with no pre-sleep function and long
    sleeps.  A round is the values the RTC handler leaves in the seconds (only
    the last matters) while the CPU is awake between the test and the sleep,
    and the seconds after the interrupt that ends the sleep. *)
Fixpoint new_cycle (rounds : list (Z * Z)) (sec old k : Z) : option (Z * Z) :=
  if negb (sec =? old) then Some (sec, k)
  else match rounds with
       | [] => None
       | (_, after) :: rs => new_cycle rs after old (k + 1)
       end.

(** ** Oscillator tests *)

(** HardwareTests.cpp 56-86: check32768HzOsc: for(uint8_t i = 255; --i > 0; )
    makes 254 passes.  [read i] is the counter at the i-th pass. *)
Fixpoint osc_loop (n i : nat) (initial : Z) (read : nat -> Z) : bool :=
  match n with
  | O => false
  | S m => let sct := read i in
           if negb (sct =? initial) && negb (sct =? u8 (initial + 1)) then true
           else osc_loop m (S i) initial read
  end.
Definition check_osc (initial : Z) (read : nat -> Z) : bool := osc_loop 254 0 initial read.

(** HardwareTests.cpp 97-143: check32768HzOscExtended: [cycles i] is the number
    of TIMER0 counts (64 CPU cycles each) in the tick measured at the i-th try. *)
Fixpoint osc_ext_loop (n : nat) (i : Z) (k : nat) (cycles : nat -> Z) : bool :=
  match n with
  | O => false
  | S m => let count := u8 (cycles k) in
           if (count <? 122 + 4) && (122 - 4 <? count) then true
           else if 30 <? i then false
           else osc_ext_loop m (u8 (i + 1)) (S k) cycles
  end.
Definition check_osc_ext (initial : Z) (read : nat -> Z) (cycles : nat -> Z) : bool :=
  if check_osc initial read then osc_ext_loop 256 0 0 cycles else false.

(** HardwareTests.cpp 184-258: calibrateInternalOscWithExtOsc: [loops k osccal]
    is the number of passes of the inner loop in the k-th tick measured, with
    that register value; returns the result, OSCCAL and the number of
    measurements. *)
Definition CAL_TARGET : Z := 7815 / 39.
Fixpoint cal_loop (n k : nat) (osccal : Z) (loops : nat -> Z -> Z) : bool * Z * nat :=
  match n with
  | O => (false, osccal, k)
  | S m =>
      let count := u8 (loops k osccal) in
      if (osccal =? 128) || (osccal =? 255) then (false, osccal, S k)
      else if CAL_TARGET <? count then cal_loop m (S k) (u8 (osccal - 1)) loops
      else if count <? CAL_TARGET then cal_loop m (S k) (u8 (osccal + 1)) loops
      else (true, osccal, S k)
  end.
Definition calibrate (initial : Z) (read : nat -> Z) (osccal : Z) (loops : nat -> Z -> Z) : bool * Z * nat :=
  if check_osc initial read then cal_loop 128 0 osccal loops else (false, osccal, O).
