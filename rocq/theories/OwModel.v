(** Model of the minimal OneWire master, /repo/content/OTRadioLink/utility/OTV0P2BASE_MinOW.{h,cpp},
    and of the DS18B20 driver above it, OTV0P2BASE_SensorDS18B20.{h,cpp}.

    The bus is given by what its slots do: reset (was there a presence pulse), a read slot, a write
    slot.  The code is modelled over any such bus; [Slave] below is a bus of devices behaving
    as their data sheet says.  Timing of the slots is not modelled.  [None] is an out-of-bounds
    access. *)
From Verif Require Import Base.

Record Bus (B : Type) := mkBus { b_reset : B -> bool * B; b_read : B -> bool * B; b_write : B -> bool -> B }.
Arguments mkBus {B}. Arguments b_reset {B}. Arguments b_read {B}. Arguments b_write {B}.

Section Code.
Context {B : Type} (K : Bus B).
(** MinimalOneWireBase::read, MinOW.cpp 91-100: eight times round; [v] so far. *)
Fixpoint read_bits (n : nat) (b : B) (v : Z) : Z * B :=
  match n with
  | O => (v, b)
  | S n => let '(x, b) := b_read K b in read_bits n b (if (x : bool) then Z.lor (v / 2) 128 else Z.land (v / 2) 127)
  end.
Definition ow_read (b : B) : Z * B := read_bits 8 b 0.
(** write, 104-111. *)
Fixpoint write_bits (n : nat) (b : B) (v : Z) : B :=
  match n with O => b | S n => write_bits n (b_write K b (negb (0 =? Z.land v 1))) (v / 2) end.
Definition ow_write (b : B) (v : Z) : B := write_bits 8 b v.
(** select, 229-233, and skip, 236-239. *)
Definition ow_select (b : B) (a : list Z) : B := fold_left ow_write (firstn 8 a) (ow_write b 85).
Definition ow_skip (b : B) : B := ow_write b 204.

(** lastDeviceFlag, lastDiscrepancy, addr: MinOW.h 62-65, 79-80. *)
Record OW := mkOW { lastDev : bool; lastDisc : Z; addr : list Z }.
(** reset_search, MinOW.cpp 113-118. *)
Definition reset_search : OW := mkOW false 0 (repeat 0 8).
(** The do-while of search, 150-205 (at most [fuel] times round; [None] also if that were not
    enough): bus, addr, idBitNumber and lastZero afterwards. *)
Fixpoint search_loop (fuel : nat) (b : B) (a : list Z) (byteNo mask idBit lastZero ld : Z) : option (B * list Z * Z * Z) :=
  match fuel with
  | O => None
  | S fuel =>
      let '(x, b) := b_read K b in
      let '(y, b) := b_read K b in
      if (x : bool) && y then Some (b, a, idBit, lastZero)                       (* 163: break *)
      else bind (if xorb x y then Some x                                         (* 169 *)
                 else if idBit <? ld then bind (rd a byteNo) (fun v => Some (negb (0 =? Z.land v mask)))
                 else Some (idBit =? ld)) (fun dir =>
      let lastZero := if negb (xorb x y) && negb dir then idBit else lastZero in   (* 178 *)
      bind (rd a byteNo) (fun v =>
      bind (wr a byteNo (u8 (if (dir : bool) then Z.lor v mask else Z.land v (Z.lnot mask)))) (fun a =>
      let idBit := u8 (idBit + 1) in
      let mask' := u8 (mask * 2) in
      let b := b_write K b dir in
      let byteNo' := if mask' =? 0 then byteNo + 1 else byteNo in
      let mask' := if mask' =? 0 then 1 else mask' in
      if byteNo' <? 8 then search_loop fuel b a byteNo' mask' idBit lastZero ld
      else Some (b, a, idBit, lastZero))))
  end.
(** search, 125-226: the result, newAddr, and the state of the master and the bus. *)
Definition search (w : OW) (b : B) : option (bool * list Z * OW * B) :=
  bind (if lastDev w then Some (false, w, b, false)
        else let '(pres, b) := b_reset K b in
             if negb (pres : bool) then Some (false, mkOW false 0 (addr w), b, true)              (* 138-144: returns at once *)
             else bind (search_loop 64 (ow_write b 240) (addr w) 0 1 1 0 (lastDisc w)) (fun '(b, a, idBit, lastZero) =>
               if idBit =? 65 then Some (true, mkOW ((lastZero =? 0) || lastDev w) lastZero a, b, false)
               else Some (false, mkOW (lastDev w) (lastDisc w) a, b, false)))
  (fun '(r, w, b, early) =>
   if (early : bool) then Some (false, addr w, w, b)      (* newAddr untouched; any value *)
   else if negb r || (0 =? znth (addr w) 0) then Some (false, addr w, mkOW false 0 (addr w), b)   (* 216-222 *)
   else Some (true, addr w, w, b)).
(** All that search() finds, one call after another until it says false (at most [n]). *)
Fixpoint search_all (n : nat) (w : OW) (b : B) : option (list (list Z) * bool * OW * B) :=
  match n with
  | O => Some ([], false, w, b)
  | S n => bind (search w b) (fun '(r, a, w, b) =>
      if (r : bool) then bind (search_all n w b) (fun '(l, done, w, b) => Some (a :: l, done, w, b)) else Some ([], true, w, b))
  end.
End Code.

(** ** Devices *)
(** A slave of the DS18B20 kind (data sheet): 64-bit ROM code as 8 bytes, least significant bit
    first; the temperature (1/16 C) it would measure now; whether its conversion takes longer than
    the call looked at (else it is instantaneous); its 9-byte scratchpad; where it is in the
    protocol.  A reset ends whatever it was doing on the wire, but not a conversion. *)
Inductive Phase := PRom (n : nat) (v : Z) | PId (i : nat) | PCmp (i : nat) | PDir (i : nat) | PMatch (i : nat)
  | PFun (n : nat) (v : Z) | PRead (k : nat) | PStore (k : nat) | PBusy | POff.
Record Slave := mkSlave { rom : list Z; actual : Z; slow : bool; pad : list Z; ph : Phase }.
Definition set_ph (s : Slave) (p : Phase) : Slave := mkSlave (rom s) (actual s) (slow s) (pad s) p.
(** Bit [k] of a sequence of bytes. *)
Definition abit (a : list Z) (k : nat) : bool := Z.testbit (znth a (Z.of_nat k / 8)) (Z.of_nat k mod 8).
Definition set_bit (a : list Z) (k : nat) (v : bool) : list Z :=
  let j := (k / 8)%nat in firstn j a ++ [if v then Z.setbit (znth a (Z.of_nat j)) (Z.of_nat (k mod 8)) else Z.clearbit (znth a (Z.of_nat j)) (Z.of_nat (k mod 8))] ++ skipn (S j) a.
Definition slave_write (s : Slave) (v : bool) : Slave :=
  match ph s with
  | PRom n c => let c := if v then c + 2 ^ Z.of_nat n else c in
      if (n =? 7)%nat then set_ph s (if c =? 240 then PId 0 else if c =? 85 then PMatch 0 else if c =? 204 then PFun 0 0 else POff)
      else set_ph s (PRom (S n) c)
  | PDir i => set_ph s (if Bool.eqb (abit (rom s) i) v then if (i =? 63)%nat then PFun 0 0 else PId (S i) else POff)
  | PMatch i => set_ph s (if Bool.eqb (abit (rom s) i) v then if (i =? 63)%nat then PFun 0 0 else PMatch (S i) else POff)
  | PFun n c => let c := if v then c + 2 ^ Z.of_nat n else c in
      if (n =? 7)%nat then
        if c =? 68 then if slow s then set_ph s PBusy else mkSlave (rom s) (actual s) (slow s) (actual s mod 256 :: actual s / 256 mod 256 :: skipn 2 (pad s)) POff   (* convert *)
        else set_ph s (if c =? 190 then PRead 0 else if c =? 78 then PStore 0 else POff)
      else set_ph s (PFun (S n) c)
  | PStore k => if (k <? 24)%nat then mkSlave (rom s) (actual s) (slow s) (set_bit (pad s) (16 + k) v) (PStore (S k)) else s
  | PRead k => set_ph s (PRead (S k))
  | PId _ | PCmp _ => set_ph s POff
  | PBusy | POff => s
  end.
Definition slave_read (s : Slave) : bool * Slave :=
  match ph s with
  | PId i => (abit (rom s) i, set_ph s (PCmp i))
  | PCmp i => (negb (abit (rom s) i), set_ph s (PDir i))
  | PRead k => (if (k <? 72)%nat then abit (pad s) k else true, set_ph s (PRead (S k)))
  | PBusy => (false, s)
  | _ => (true, slave_write s true)
  end.
(** The wire is low if anything pulls it low. *)
Definition slaves : Bus (list Slave) := mkBus
  (fun b => (match b with [] => false | _ => true end, map (fun s => set_ph s (PRom 0 0)) b))
  (fun b => (forallb (fun s => fst (slave_read s)) b, map (fun s => snd (slave_read s)) b))
  (fun b v => map (fun s => slave_write s v) b).
