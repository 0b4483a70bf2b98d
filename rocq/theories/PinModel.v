(** Model of OTV0P2BASE_FastDigitalIO.h 38-85 (ATmega328P): fast access to pins whose number is a constant.
    [None]: the macro falls back to Arduino's generic routine (not modelled), for pins not constant or unknown;
    the internal variants with a leading underscore give 0 and PIND instead.
    The registers are PIND/PINB/PINC, or for writing PORTD/PORTB/PORTC. *)
From Verif Require Import Base.

Record Ports := mkPorts { port_D : Z; port_B : Z; port_C : Z }.
Inductive PortName := PD | PB | PC.
Definition port (s : Ports) (r : PortName) : Z := match r with PD => port_D s | PB => port_B s | PC => port_C s end.

Definition in_range (const : bool) (pin lo hi : Z) : bool := const && (lo <=? pin) && (pin <? hi).
(** _fastDigitalMask 44-48, fastDigitalMask 49-53. *)
Definition mask_or (const : bool) (pin : Z) (other : option Z) : option Z :=
  if in_range const pin 0 8 then Some (Z.shiftl 1 pin)
  else if in_range const pin 8 14 then Some (Z.shiftl 1 (pin - 8))
  else if in_range const pin 14 20 then Some (Z.shiftl 1 (pin - 14))
  else other.
Definition fast_mask (const : bool) (pin : Z) := mask_or const pin None.
Definition fast_mask_ (const : bool) (pin : Z) := mask_or const pin (Some 0).
(** _fastDigitalInputRegister 55-59, fastDigitalInputRegister 60-64. *)
Definition reg_or (const : bool) (pin : Z) (other : option PortName) : option PortName :=
  if in_range const pin 0 8 then Some PD
  else if in_range const pin 8 14 then Some PB
  else if in_range const pin 14 20 then Some PC
  else other.
Definition fast_reg (const : bool) (pin : Z) := reg_or const pin None.
Definition fast_reg_ (const : bool) (pin : Z) := reg_or const pin (Some PD).
(** fastDigitalRead 68-72. *)
Definition fast_read (const : bool) (s : Ports) (pin : Z) : option Z :=
  if in_range const pin 0 8 then Some (Z.land (Z.shiftr (port_D s) pin) 1)
  else if in_range const pin 8 14 then Some (Z.land (Z.shiftr (port_B s) (Z.max (pin - 8) 0)) 1)
  else if in_range const pin 14 20 then Some (Z.land (Z.shiftr (port_C s) (Z.max (pin - 14) 0)) 1)
  else None.
(** Arduino's bitWrite macro on an 8-bit register (not in /repo). *)
Definition bit_write (r bit : Z) (v : bool) : Z :=
  if v then u8 (Z.lor r (Z.shiftl 1 bit)) else u8 (Z.land r (Z.lnot (Z.shiftl 1 bit))).
(** fastDigitalWrite 78-82; [value] constant or not. *)
Definition fast_write (const vconst : bool) (s : Ports) (pin : Z) (v : bool) : option Ports :=
  if in_range (const && vconst) pin 0 8 then Some (mkPorts (bit_write (port_D s) pin v) (port_B s) (port_C s))
  else if in_range (const && vconst) pin 8 14 then Some (mkPorts (port_D s) (bit_write (port_B s) (Z.max (pin - 8) 0) v) (port_C s))
  else if in_range (const && vconst) pin 14 20 then Some (mkPorts (port_D s) (port_B s) (bit_write (port_C s) (Z.max (pin - 14) 0) v))
  else None.
