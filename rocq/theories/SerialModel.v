(** Model of the serial print routines: OTV0P2BASE_Serial_IO.cpp, with the AVR part of
    OTV0P2BASE_PowerManagement.{h,cpp} they use, on a model of the ATmega328P's
    transmitter and of the Arduino core's HardwareSerial (neither is part of /repo). *)
From Verif Require Import Base SmallModel.

(** ** The transmitter.
    [s_on]: PRUSART0 clear.  [s_ring]: the software ring buffer of HardwareSerial, whose
    data-register-empty interrupt is enabled exactly while it is not empty; [s_udr]: the
    transmit data register; [s_sh]: the shift register with the time the byte still needs;
    [s_txc]: flag TXC0; [s_wr]: HardwareSerial's _written; [s_line]: all bytes sent. *)
Record Ser := mkSer { s_on : bool; s_ring : list Z; s_udr : option Z; s_sh : option (Z * nat);
                      s_txc : bool; s_wr : bool; s_line : list Z }.
(** Reset: transmit complete flag 0, nothing written (ATmega328P data sheet, UCSR0A).
    minimisePowerWithoutSleep has turned the UART off. *)
Definition ser0 : Ser := mkSer false [] None None false false [].

(** One poll of the status register later: the shift register moves on, takes the next
    byte from the data register or sets TXC0; then the interrupt refills the data
    register (clearing TXC0, HardwareSerial::_tx_udr_empty_irq).  [T k] is the time
    byte number k takes, in polls. *)
Definition hw (T : nat -> nat) (s : Ser) : Ser :=
  match s_sh s with
  | Some (b, S n) => mkSer (s_on s) (s_ring s) (s_udr s) (Some (b, n)) (s_txc s) (s_wr s) (s_line s)
  | Some (b, O) =>
      let line := s_line s ++ [b] in
      match s_udr s with
      | Some c => mkSer (s_on s) (s_ring s) None (Some (c, T (length line))) (s_txc s) (s_wr s) line
      | None => mkSer (s_on s) (s_ring s) None None true (s_wr s) line
      end
  | None =>
      match s_udr s with
      | Some c => mkSer (s_on s) (s_ring s) None (Some (c, T (length (s_line s)))) (s_txc s) (s_wr s) (s_line s)
      | None => s
      end
  end.
Definition isr (s : Ser) : Ser :=
  match s_udr s, s_ring s with
  | None, c :: r => mkSer (s_on s) r (Some c) (s_sh s) false (s_wr s) (s_line s)
  | _, _ => s
  end.
Definition tick (T : nat -> nat) (s : Ser) : Ser := isr (hw T s).
(** Busy-waiting while [c] holds; [None]: still waiting after [fuel] polls. *)
Fixpoint spin (c : Ser -> bool) (f : Ser -> Ser) (fuel : nat) (s : Ser) : option Ser :=
  if c s then match fuel with O => None | S fuel => spin c f fuel (f s) end else Some s.

(** ** HardwareSerial of the Arduino AVR core (64-byte ring, 63 usable). *)
Definition RING := 63%nat.
Definition ring_empty (s : Ser) : bool := match s_ring s with [] => true | _ => false end.
Definition udre (s : Ser) : bool := match s_udr s with None => true | Some _ => false end.
Definition hs_write (T : nat -> nat) (fuel : nat) (c : Z) (s : Ser) : option Ser :=
  if ring_empty s && udre s
  then Some (mkSer (s_on s) [] (Some c) (s_sh s) false true (s_line s))
  else do s <- spin (fun s => Nat.leb RING (length (s_ring s))) (tick T) fuel s ;
       Some (isr (mkSer (s_on s) (s_ring s ++ [c]) (s_udr s) (s_sh s) (s_txc s) true (s_line s))).
Fixpoint hs_puts (T : nat -> nat) (fuel : nat) (l : list Z) (s : Ser) : option Ser :=
  match l with [] => Some s | c :: l => do s <- hs_write T fuel c s ; hs_puts T fuel l s end.
Definition hs_flush (T : nat -> nat) (fuel : nat) (s : Ser) : option Ser :=
  if s_wr s then spin (fun s => negb (ring_empty s) || negb (s_txc s)) (tick T) fuel s else Some s.
(** begin() forgets _written; whether TXC0 survives the power-down of the module is
    not specified: [keep]. *)
Definition hs_begin (keep : bool) (s : Ser) : Ser :=
  mkSer true (s_ring s) (s_udr s) (s_sh s) (s_txc s && keep) false (s_line s).

(** ** PowerManagement *)
(** powerUpSerialIfDisabled, PowerManagement.h 225-231. *)
Definition powerUpSerial (keep : bool) (s : Ser) : Ser * bool := if s_on s then (s, false) else (hs_begin keep s, true).
(** flushSerialHW, PowerManagement.cpp 71-82. *)
Definition clear_txc (s : Ser) : Ser := mkSer (s_on s) (s_ring s) (s_udr s) (s_sh s) false (s_wr s) (s_line s).
Definition flushSerialHW (T : nat -> nat) (fuel : nat) (s : Ser) : option Ser :=
  if negb (s_on s) then Some s else                                          (* 73 *)
  do s <- spin (fun s => negb (udre s)) (fun s => tick T (clear_txc s)) fuel s ;  (* 77-78 *)
  spin (fun s => negb (s_txc s)) (tick T) fuel s.                            (* 79 *)
(** flushSerialProductive, 91-103; flushSerialSCTSensitive, 116-126, is the same. *)
Definition flushSerial (T : nat -> nat) (fuel : nat) (s : Ser) : option Ser :=
  do s <- spin (fun s => negb (udre s)) (tick T) fuel s ;                    (* 98 *)
  do s <- hs_flush T fuel s ;                                                (* 99 *)
  flushSerialHW T fuel s.                                                    (* 102 *)
(** powerDownSerial, 133-145; Serial.end() flushes, then drops the ring buffer. *)
Definition powerDownSerial (T : nat -> nat) (fuel : nat) (s : Ser) : option Ser :=
  do s <- (if s_on s then
             do s <- hs_flush T fuel s ;                                     (* 138 *)
             do s <- hs_flush T fuel s ;                                     (* 140: end() *)
             Some (mkSer (s_on s) [] (s_udr s) (s_sh s) (s_txc s) (s_wr s) (s_line s))
           else Some s) ;
  (* 144: without power the registers stop; a byte in them is lost *)
  Some (mkSer false (s_ring s) None None (s_txc s) (s_wr s) (s_line s)).
(** serialPrintAndFlush, serialPrintlnAndFlush, serialWriteAndFlush on AVR, Serial_IO.cpp
    102-120, ...: all have this shape, with the bytes of the text. *)
Definition serialPrint (T : nat -> nat) (keep : bool) (fuel : nat) (text : list Z) (s : Ser) : option Ser :=
  let (s, needed) := powerUpSerial keep s in
  do s <- hs_puts T fuel text s ;
  do s <- flushSerial T fuel s ;
  if (needed : bool) then powerDownSerial T fuel s else Some s.

(** What is printed. *)
Inductive Item := IText (t : list Z) | ITextLn (t : list Z) | INum (v base : Z) | ILn.
(** Arduino builds; numbers as Print does ([SmallModel.printSigned]). *)
Definition item_avr (i : Item) : option (list Z) :=
  match i with
  | IText t => Some t
  | ITextLn t => Some (t ++ [13; 10])
  | INum v b => printSigned v b
  | ILn => Some [13; 10]
  end.
(** Other builds, Serial_IO.cpp 113-116, 132-133, 162-165, 189-193 (base ignored), 251-252. *)
Definition item_host (i : Item) : option (list Z) :=
  match i with
  | IText t => Some t
  | ITextLn t => Some (t ++ [10] ++ [10])
  | INum v _ => printSigned v 10
  | ILn => Some [10]
  end.

(** ** PrintEFR32, Serial_IO.cpp 56-93 with the Print of ArduinoCompat.h 56-114: the
    bytes sent to USART0, and the count returned (size_t, 32 bits). *)
Definition efr_write1 (setup : bool) (c : Z) : list Z * Z := if setup then ([c], 0) else ([], 1).   (* 81-85 *)
Definition efr_writeN (setup : bool) (buf : list Z) : list Z * Z :=
  if setup then (buf, Zlen buf) else ([], 2 ^ 32 - 1).                       (* 87-92 *)
Fixpoint efr_each (setup : bool) (l : list Z) : list Z * Z :=                (* ArduinoCompat.h 78 *)
  match l with
  | [] => ([], 0)
  | c :: l => let (o, n) := efr_write1 setup c in let (o', n') := efr_each setup l in (o ++ o', (n + n') mod 2 ^ 32)
  end.
Definition efr_item (setup : bool) (i : Item) : option (list Z * Z) :=
  match i with
  | IText t => Some (efr_writeN setup t)
  | ITextLn t => let (o, n) := efr_writeN setup t in let (o', n') := efr_writeN setup [13; 10] in
                 Some (o ++ o', (n + n') mod 2 ^ 32)
  | INum v b => do l <- printSigned v b ; Some (efr_each setup l)
  | ILn => Some (efr_writeN setup [13; 10])
  end.
