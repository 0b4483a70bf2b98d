(** Models of the software UARTs: OTV0P2BASE_SoftSerial2.h (blocking) and
    OTV0P2BASE_SoftSerialAsync.h (interrupt-driven receive).

    Time is in CPU cycles.  Machine-code overheads (pin access, loop control,
    delay call) are not in the source, so the per-bit transmit time, per-bit
    receive step, half-bit wait and poll period are parameters. *)
From Verif Require Import Base.

(** SoftSerial2.h 90-115 = SoftSerialAsync.h 101-124: the levels driven onto
    the TX pin by write(byte), each held for one writeDelay; [mask] walks 1,
    2, .. 128 and then overflows to 0, ending the loop (at most 8 steps). *)
Fixpoint soft_bits (fuel : nat) (mask c : Z) : list bool :=
  match fuel with
  | O => []
  | S fuel =>
    if mask =? 0 then []
    else negb (Z.land mask c =? 0) :: soft_bits fuel (u8 (Z.shiftl mask 1)) c
  end.
Definition soft_write (b : Z) : list bool := false :: soft_bits 9 1 b ++ [true].

(** Receive timing parameters: [sr_half] cycles for _delay(halfDelay);
    [sr_step] from one bit sample to the next; [sr_poll] per iteration of the
    wait loops. *)
Record SoftRx := mkSoftRx { sr_half : Z; sr_step : Z; sr_poll : Z }.

(** SoftSerial2.h 60: timeOut. *)
Definition SOFT_TIMEOUT : Z := 60000.

(** SoftSerial2.h 130 and 149: poll while the line is at [lvl]; the result is
    the time at which it was first seen at the other level, or None on
    timeout.  [timer] counts down. *)
Fixpoint soft_wait (fuel : nat) (poll : Z) (line : Z -> bool) (lvl : bool) (t : Z) : option Z :=
  match fuel with
  | O => None
  | S fuel => if Bool.eqb (line t) lvl then soft_wait fuel poll line lvl (t + poll) else Some t
  end.

(** SoftSerial2.h 140-143: sample eight bits, least significant first. *)
Fixpoint soft_sample (n : nat) (i : Z) (step : Z) (line : Z -> bool) (t val : Z) : Z * Z :=
  match n with
  | O => (val, t)
  | S n =>
    let t := t + step in
    soft_sample n (i + 1) step line t (u8 (Z.lor val (Z.shiftl (Z.b2z (line t)) i)))
  end.

(** SoftSerial2.h 122-151 and, with another time-out, SoftSerial.cpp 77-106:
    read(), starting at time [t]; result and the time at which it returns
    (only needed when a byte is delivered).  [F] is the time-out in polls. *)
Definition soft_read_f (F : nat) (p : SoftRx) (line : Z -> bool) (t : Z) : option (Z * Z) :=
  match soft_wait F (sr_poll p) line true t with
  | None => None  (* -1 *)
  | Some t1 =>
    let (val, t2) := soft_sample 8 0 (sr_step p) line (t1 + sr_half p) 0 in
    match soft_wait F (sr_poll p) line false t2 with
    | None => None (* -1 *)
    | Some t3 => Some (val, t3)
    end
  end.
(** SoftSerial2.h 122-151. *)
Definition soft_read (p : SoftRx) (line : Z -> bool) (t : Z) : option (Z * Z) :=
  soft_read_f (Z.to_nat SOFT_TIMEOUT) p line t.

(** SoftSerial2.h 61-64: the compile-time delay counts (uint8_t). *)
Definition ss2_bitCycles (fcpu baud : Z) : Z := u8 (fcpu / 4 / baud).
Definition ss2_writeDelay (fcpu baud : Z) : Z := u8 (ss2_bitCycles fcpu baud - 3).
Definition ss2_readDelay (fcpu baud : Z) : Z := u8 (ss2_bitCycles fcpu baud - 8).
Definition ss2_halfDelay (fcpu baud : Z) : Z := ss2_bitCycles fcpu baud / 2.

(** ** SoftSerialAsync *)

(** SoftSerialAsync.h 36, 63-75: the buffer. *)
Definition ASYNC_SIZE : Z := 32.
Record Async := mkAsync { as_head : Z; as_tail : Z; as_buf : list Z }.
Definition async_init (junk : list Z) : Async := mkAsync 0 0 junk.

(** SoftSerialAsync.h 80-88: begin() clears the buffer contents only. *)
Definition async_begin (s : Async) : Async :=
  mkAsync (as_head s) (as_tail s) (repeat 0 (Z.to_nat ASYNC_SIZE)).

(** SoftSerialAsync.h 101-130: write() (its waveform is [soft_write]). *)
Definition async_write (s : Async) : Async := mkAsync 0 0 (repeat 0 (Z.to_nat ASYNC_SIZE)).

(** SoftSerialAsync.h 217-249: three samples per bit for seven bits;
    [samples] lists them per bit.  Only the decision is modelled, not the
    delay adjustments. *)
Definition async_bit (s : bool * bool * bool) : bool :=
  let '(x, y, z) := s in
  let v := Z.b2z x * 4 + Z.b2z y * 2 + Z.b2z z in (5 <=? v) || (v =? 3).
Fixpoint async_byte (samples : list (bool * bool * bool)) (val : Z) : Z :=
  match samples with
  | [] => val
  | s :: samples =>
    async_byte samples (Z.shiftr (u8 (val + (if async_bit s then 128 else 0))) 1)
  end.

(** SoftSerialAsync.h 208-273: handle_interrupt; None = write outside the
    buffer. *)
Definition async_isr (s : Async) (samples : list (bool * bool * bool)) : option Async :=
  let bufptr := as_tail s in
  let val := async_byte samples 0 in
  if bufptr <? ASYNC_SIZE then
    do buf <- blit (as_buf s) bufptr [val] ;
    Some (mkAsync (as_head s) (u8 (bufptr + 1)) buf)
  else Some s.

Fixpoint async_isrs (s : Async) (fs : list (list (bool * bool * bool))) : option Async :=
  match fs with
  | [] => Some s
  | f :: fs => do s' <- async_isr s f ; async_isrs s' fs
  end.

(** SoftSerialAsync.h 149-158: read(), with the frames received by interrupt
    [i1] between the loads of head and tail and [i2] between the load of the
    tail and the access to the buffer. Result -1 = empty. *)
Definition async_read (s : Async) (i1 i2 : list (list (bool * bool * bool)))
  : option (Async * Z) :=
  let head := as_head s in
  do s1 <- async_isrs s i1 ;
  let tail := as_tail s1 in
  do s2 <- async_isrs s1 i2 ;
  if (0 <? tail) && (head <? tail) then
    do v <- rd (as_buf s2) head ;
    Some (mkAsync (u8 (head + 1)) (as_tail s2) (as_buf s2), v)
  else Some (s2, -1).

(** SoftSerialAsync.h 136-144: peek(). *)
Definition async_peek (s : Async) : option Z :=
  if (0 <? as_tail s) && (as_head s <? as_tail s) then rd (as_buf s) (as_head s) else Some (-1).

(** SoftSerialAsync.h 163: available(). *)
Definition async_available (s : Async) : Z := as_tail s - as_head s.

(** A program's activity on the port. *)
Inductive AsyncOp :=
| AFrame (samples : list (bool * bool * bool))   (* a received frame *)
| ARead (i1 i2 : list (list (bool * bool * bool)))
| AWrite.

Fixpoint async_run (s : Async) (os : list AsyncOp) : option (Async * list Z) :=
  match os with
  | [] => Some (s, [])
  | AFrame f :: os => do s' <- async_isr s f ; async_run s' os
  | ARead i1 i2 :: os =>
      do (s', v) <- async_read s i1 i2 ;
      do (s'', vs) <- async_run s' os ; Some (s'', v :: vs)
  | AWrite :: os => async_run (async_write s) os
  end.
