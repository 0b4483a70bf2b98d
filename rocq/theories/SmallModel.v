(** Models of small separate parts: the QM-1 voice sensor, the relay valve, the
    motor tester, the lock-free counters, number printing, and the carrying of
    entropy over restarts in EEPROM. *)
From Verif Require Import Base EepromModel.

(** ** VoiceDetectionQM1, OTV0P2BASE_SensorQM1.{h,cpp}.  The callback is a flag
    whether one is set; calling NULL is [None] (line 127).  Printing from the
    interrupt (131) and I2C initialisation (99) are not modelled. *)
Record Qm := mkQm { q_count : Z; q_det : bool; q_value : Z; q_cb : bool; q_calls : Z }.
Definition qm_init (cb : bool) : Qm := mkQm 0 false 0 cb 0.              (* .h 80, 98 *)
Inductive QmEv := QIntr | QRead (minutes : Z).
(** handleInterruptSimple, .cpp 116-134. *)
Definition qm_intr (s : Qm) : option Qm :=
  if q_count s <? 255 then
    let c := u8 (q_count s + 1) in
    if 4 <=? c then (if q_cb s then Some (mkQm c true (q_value s) true (q_calls s + 1)) else None)
    else Some (mkQm c (q_det s) (q_value s) (q_cb s) (q_calls s))
  else Some s.
(** read, .cpp 97-109; [minutes] is getMinutesSinceMidnightLT(). *)
Definition qm_read (m : Z) (s : Qm) : Qm :=
  mkQm (if Z.land m 3 =? 0 then 0 else q_count s) (4 <=? q_count s) (q_count s) (q_cb s) (q_calls s).
Definition qm_step (e : QmEv) (s : Qm) : option Qm := match e with QIntr => qm_intr s | QRead m => Some (qm_read m s) end.
(** History, newest first. *)
Fixpoint qm_run (cb : bool) (h : list QmEv) : option Qm :=
  match h with [] => Some (qm_init cb) | e :: h => do s <- qm_run cb h ; qm_step e s end.

(** ** BinaryRelayDirect, OTRadValve_AbstractRadValve.h 183-230. *)
Record Relay := mkRelay { r_value : Z; r_pin : option bool }.            (* level driven; None: not yet an output *)
Inductive RelayEv := RSetup | RSet (v : Z).
Definition SAFER_OPEN := 50.                                             (* OTRadValve_Parameters.h 260 *)
Definition calcRelayState (v : Z) : bool := SAFER_OPEN <=? v.            (* 185-187 *)
Definition relay_step (activeHigh : bool) (e : RelayEv) (s : Relay) : Relay * bool :=
  match e with
  | RSetup => (mkRelay (r_value s) (Some (negb activeHigh)), true)       (* 205-209 *)
  | RSet v => if 100 <? v then (s, false)                                (* 218 *)
              else let a := calcRelayState v in
                   (mkRelay v (match r_pin s with Some _ => Some (if activeHigh then a else negb a) | None => None end), true)  (* 219-222 *)
  end.
Fixpoint relay_run (ah : bool) (l : list RelayEv) (s : Relay) : Relay :=
  match l with [] => s | e :: l => relay_run ah l (fst (relay_step ah e s)) end.
(** isControlledValveReallyOpen 114-115, isCallingForHeat 123-124, with
    getMinPercentOpen 227-228. *)
Definition relay_open (s : Relay) : bool := SAFER_OPEN <=? r_value s.
Definition relay_calling (s : Relay) : bool := relay_open s && (SAFER_OPEN <=? r_value s).

(** ** TestValveMotor, OTRadValve_TestValve.{h,cpp}.  [hit]: whether the driver
    signals the end stop during the run.  The motor commands given are listed,
    in order. *)
Inductive Motor := MOff | MClosing | MOpening.
Record Tester := mkTester { t_state : bool; t_hit : bool; t_count : Z }.
Definition tester_init := mkTester false false 0.                         (* .h 77 *)
Definition tester_run (toOpen hit : bool) (s : Tester) : Tester * list Motor :=     (* .cpp 28-43 *)
  (mkTester (t_state s) hit (if hit then (t_count s + 1) mod 2 ^ 32 else t_count s), [if toOpen then MOpening else MClosing; MOff]).
Definition tester_poll (hit : bool) (s : Tester) : Tester * list Motor :=  (* .cpp 45-49 *)
  let s := mkTester (if t_hit s then negb (t_state s) else t_state s) (t_hit s) (t_count s) in tester_run (t_state s) hit s.
Fixpoint tester_polls (hits : list bool) (s : Tester) : Tester * list Motor :=
  match hits with [] => (s, []) | h :: r => let (s, m) := tester_poll h s in let (s, ms) := tester_polls r s in (s, m ++ ms) end.

(** ** safeDecIfNZWeak and safeIncIfNotMaxWeak, OTV0P2BASE_Concurrency.h 209-229,
    as threads or interrupt routines: the load and the compare-and-exchange are
    the atomic steps, anything may come between.  A thread is what it will do
    next: [o] is the value loaded. *)
Inductive Thr := TDec (o : Z) | TInc (o : Z).
Record Shared := mkShared { s_v : Z; s_thr : list (nat * Thr) }.
Inductive ShEv := BeginDec (t : nat) | BeginInc (t : nat) | Cas (t : nat) | Store (x : Z).
Definition find_thr (t : nat) (l : list (nat * Thr)) : option Thr :=
  match find (fun p => Nat.eqb (fst p) t) l with Some p => Some (snd p) | None => None end.
Definition drop_thr (t : nat) (l : list (nat * Thr)) : list (nat * Thr) := filter (fun p => negb (Nat.eqb (fst p) t)) l.
Definition sh_step (e : ShEv) (s : Shared) : Shared :=
  match e with
  | BeginDec t => if 0 =? s_v s then s else mkShared (s_v s) ((t, TDec (s_v s)) :: drop_thr t (s_thr s))     (* 211-212 *)
  | BeginInc t => if 255 =? s_v s then s else mkShared (s_v s) ((t, TInc (s_v s)) :: drop_thr t (s_thr s))   (* 225-226 *)
  | Cas t => match find_thr t (s_thr s) with
             | Some (TDec o) => mkShared (if s_v s =? o then u8 (o - 1) else s_v s) (drop_thr t (s_thr s))   (* 213-214 *)
             | Some (TInc o) => mkShared (if s_v s =? o then u8 (o + 1) else s_v s) (drop_thr t (s_thr s))   (* 227-228 *)
             | None => s
             end
  | Store x => mkShared (u8 x) (s_thr s)
  end.
Fixpoint sh_run (l : list ShEv) (s : Shared) : Shared := match l with [] => s | e :: l => sh_run l (sh_step e s) end.

(** ** Print::printUnsigned and printSigned, OTV0P2BASE_ArduinoCompat.h 60-86
    (hosted: 64-bit long), output of the digits; [None] is leaving the buffer
    or overflowing a signed long. *)
Definition MAXSPACE := 64.                                               (* 65 *)
Definition digit_char (d : Z) : Z := if d <=? 9 then 48 + d else 65 + d - 10.   (* 73 *)
(** The loop 71-75: [p] digits are in the buffer (least significant first). *)
Fixpoint digits_loop (fuel : nat) (b ul : Z) (buf : list Z) : option (list Z) :=
  match fuel with
  | O => None
  | S fuel => if MAXSPACE <=? Zlen buf then None else
      let buf := buf ++ [digit_char (ul mod b)] in
      let ul := ul / b in
      if 0 <? ul then digits_loop fuel b ul buf else Some buf
  end.
Definition printUnsigned (ul base : Z) : option (list Z) :=
  let b := if base <? 2 then 2 else if 36 <? base then 36 else base in   (* 62-63 *)
  do buf <- digits_loop 65 b ul [] ; Some (rev buf).                     (* 77-79 *)
Definition printSigned (l base : Z) : option (list Z) :=
  if (l <? 0) && (10 =? base) then                                       (* 84 *)
    if l =? - 2 ^ 63 then None else do r <- printUnsigned (- l) base ; Some (45 :: r)
  else printUnsigned (l mod 2 ^ 64) base.                                (* 85 *)

(** ** The last part of seedPRNGs, OTV0P2BASE_Entropy.cpp 200-217: one of the four
    seed bytes is erased if zero, else some of its bits cleared.  Which byte and
    which bits are arbitrary ([k] and [mask]: CRCs, times and clock jitter). *)
Definition SEED_START := 2.                                              (* OTV0P2BASE_EEPROM.h 93-94 *)
Definition seed_carry (k mask : Z) : M unit :=
  let erp := SEED_START + Z.land 3 k in                                  (* 205 *)
  run erv <- ee_read erp ;                                               (* 206 *)
  if 0 =? erv then run _ <- smart_erase erp ; ret tt                     (* 207 *)
  else run _ <- smart_clear_bits erp (u8 mask) ; ret tt.                 (* 210-216 *)
(** Restarts, each possibly cut off by power failure. *)
Fixpoint restarts (l : list (Z * Z * nat)) (s : EE) : EE :=
  match l with [] => s | (k, mask, f) :: l => restarts l (fst (seed_carry k mask s f)) end.
