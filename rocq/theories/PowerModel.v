(** Model of the powering up and down of on-chip devices, OTV0P2BASE_PowerManagement.{h,cpp}
    (AVR), and of how the drivers use it. *)
From Verif Require Import Base.

(** The devices: PRADC, PRTWI, PRUSART0 and PRSPI of the power reduction
    register PRR, and the enable bits ADEN, TWEN, the UART's (Serial.begin and
    end) and SPE.  Other bits and the pins are not modelled. *)
Inductive Dev := ADC | TWI | UART | SPI.
Record Bits := mkBits { b_adc : bool; b_twi : bool; b_uart : bool; b_spi : bool }.
Definition get (d : Dev) (r : Bits) : bool := match d with ADC => b_adc r | TWI => b_twi r | UART => b_uart r | SPI => b_spi r end.
Definition set (d : Dev) (v : bool) (r : Bits) : Bits :=
  match d with
  | ADC => mkBits v (b_twi r) (b_uart r) (b_spi r)
  | TWI => mkBits (b_adc r) v (b_uart r) (b_spi r)
  | UART => mkBits (b_adc r) (b_twi r) v (b_spi r)
  | SPI => mkBits (b_adc r) (b_twi r) (b_uart r) v
  end.
(** [prr]: true is powered down. *)
Record Pow := mkPow { prr : Bits; en : Bits }.

(** What code does with the devices:
    [Use d ok ...]: power up if disabled, use, power down if that was needed, as
    in ADC.cpp 68-101, 105-142 and 239-318, SensorTMP112.cpp 59-121,
    SensorSHT21.cpp 127-169 and 246-296, SensorQM1.cpp 79-93, Serial_IO.cpp
    100-295, Messaging.h 506-523, SystemStatsLine.h 179-181 and 340-346 and the
    RFM23B driver's _upSPI and _downSPI; [ok] false is a return in the middle
    (SensorTMP112.cpp 81, 89, 92, 93, 107-109; SensorSHT21.cpp 150-153 and
    270-274).  [i1]..[i5] are interrupts arriving during the power-up and
    power-down, [body] is what is called in between, interrupts included.
    [Bandgap]: analogueVsBandgapRead, ADC.cpp 167-211. *)
Inductive Prog := Use (d : Dev) (ok : bool) (i1 i2 i3 body i4 i5 : list Prog) | Bandgap.

(** PowerManagement.cpp 53-59 (ADC), 153-165 (TWI), .h 117-149 (SPI), 225-231
    (UART): power up; and .h 85-89, .cpp 168-171, .h 153-165, .cpp 134-147: power
    down.  PRR is changed by reading it and writing it back, and interrupts may
    come between (not in the SPI's, which are atomic blocks).  The second result
    is whether every user found its device powered and enabled, at the start and
    at the end of its use. *)
Fixpoint exec (p : Prog) (s : Pow) : Pow * bool :=
  let all := fix all (l : list Prog) (s : Pow) : Pow * bool :=
    match l with [] => (s, true) | p :: r => let (s, f1) := exec p s in let (s, f2) := all r s in (s, f1 && f2) end in
  match p with
  | Use d ok i1 i2 i3 body i4 i5 =>
      if get d (prr s) then
        let (s, f1) := all i1 s in
        let r := prr s in
        let (s, f2) := all i2 s in
        let s := mkPow (set d false r) (en s) in
        let (s, f3) := all i3 s in
        let s := mkPow (prr s) (set d true (en s)) in
        let u1 := negb (get d (prr s)) && get d (en s) in
        let (s, f) := all body s in
        let u2 := negb (get d (prr s)) && get d (en s) in
        if ok then
          let s := mkPow (prr s) (set d false (en s)) in
          let (s, f4) := all i4 s in
          let r := prr s in
          let (s, f5) := all i5 s in
          (mkPow (set d true r) (en s), f1 && f2 && f3 && u1 && f && u2 && f4 && f5)
        else (s, f1 && f2 && f3 && u1 && f && u2)
      else
        let u1 := negb (get d (prr s)) && get d (en s) in
        let (s, f) := all body s in
        (s, u1 && f && (negb (get d (prr s)) && get d (en s)))
  | Bandgap => (mkPow (set ADC true (prr s)) (set ADC false (en s)), true)
  end.
Fixpoint execs (l : list Prog) (s : Pow) : Pow * bool :=
  match l with [] => (s, true) | p :: r => let (s, f1) := exec p s in let (s, f2) := execs r s in (s, f1 && f2) end.
