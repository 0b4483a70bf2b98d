(** Model of small utilities: OTRadioLink_OTRadioLink.cpp printRXMsg;
    OTV0P2BASE_Util.h ScratchSpaceL, ScratchSpaceTemplate, MemoryChecks, and
    stackCheck of OTV0P2BASE_Util.cpp (AVR). *)
From Verif Require Import Base.

(** ** Dumping a received frame *)

(** Arduino's Print.print of an int in [0,255] in decimal, and in HEX (upper
    case, no leading zero). *)
Definition dec_print (n : Z) : list Z :=
  if n <? 10 then [48 + n] else if n <? 100 then [48 + n / 10; 48 + n mod 10]
  else [48 + n / 100; 48 + n / 10 mod 10; 48 + n mod 10].
Definition hexu (d : Z) : Z := if d <? 10 then 48 + d else 55 + d.
Definition hex_print (b : Z) : list Z := if b <? 16 then [hexu b] else [hexu (b / 16); hexu (b mod 16)].

(** OTRadioLink.cpp 78-82: one byte. *)
Definition rx_cell (b : Z) : list Z :=
  if b <? 16 then 48 :: hex_print b
  else if (b <? 32) || (126 <=? b) then hex_print b
  else [32; b].
(** OTRadioLink.cpp 76-83: the loop; reading outside [buf] is None. *)
Fixpoint rx_cells (buf : list Z) (i : Z) (n : nat) : option (list Z) :=
  match n with
  | O => Some []
  | S n => do b <- rd buf i ; do r <- rx_cells buf (i + 1) n ; Some (rx_cell b ++ r)
  end.
(** OTRadioLink.cpp 71-85: printRXMsg; the characters printed. *)
Definition printRXMsg (buf : list Z) (len : Z) : option (list Z) :=
  do cells <- rx_cells buf 0 (Z.to_nat len) ;
  Some ([124] ++ dec_print len ++ [32] ++ cells ++ [13; 10]).

(** ** Scratch space *)

(** A scratch space: the address of its buffer (None for NULL) and its size. *)
Record Space := mkSpace { sp_buf : option Z; sp_size : Z }.

(** Util.h 150-151: ScratchSpaceL from a buffer; size_t is unbounded here. *)
Definition spaceL (buf : option Z) (size : Z) : Space :=
  mkSpace (if 0 =? size then None else buf) (match buf with None => 0 | _ => size end).
(** Util.h 154-155 and 194-195: subSpaceCannotBeMade. *)
Definition cannot (old n : Z) : bool := (0 =? n) || (old <=? n).
Definition addr_plus (a : option Z) (n : Z) : option Z := match a with Some a => Some (a + n) | None => None end.
(** Util.h 159-162: the tail of a ScratchSpaceL. *)
Definition subL (p : Space) (n : Z) : Space :=
  mkSpace (if cannot (sp_size p) n then None else addr_plus (sp_buf p) n) (if cannot (sp_size p) n then 0 else sp_size p - n).
(** Util.h 190-191: ScratchSpaceTemplate from a buffer; the size is a uint8_t. *)
Definition space8 (buf : option Z) (size : Z) : Space := spaceL buf (u8 size).
(** Util.h 199-202: the tail of a ScratchSpaceTemplate; the count is a uint8_t. *)
Definition sub8 (p : Space) (n : Z) : Space :=
  let n := u8 n in
  mkSpace (if cannot (sp_size p) n then None else addr_plus (sp_buf p) n) (if cannot (sp_size p) n then 0 else u8 (sp_size p - n)).
(** Util.h 206-209: the wrapping of a large space. *)
Definition wrap8 (p : Space) : Space := mkSpace (sp_buf p) (if 255 <? sp_size p then 255 else u8 (sp_size p)).

(** ** Stack checks *)

(** The state: minSP, checkLocation, and whether WARN_STACK_SPACE_LOW has been
    set. *)
Record Mem := mkMem { m_min : Z; m_loc : Z; m_warn : bool }.

(** Util.h 300-312: recordIfMinSP, called with stack pointer [pos] and location
    [loc]; [i0]..[i3] are the calls made by interrupts that arrive before the
    load, between it and the store of the location, before the compare and
    exchange, and after it (the last two, if there is no exchange, after the
    call). *)
Inductive Call := mkCall (pos loc : Z) (i0 i1 i2 i3 : list Call).

(** size_t and intptr_t are 16 bits: the space is unsigned.  On success
    compare_exchange_strong leaves [min] as it was, on failure it loads it. *)
Fixpoint record (end_ : Z) (c : Call) (s : Mem) : Mem :=
  let all := fix all (l : list Call) (s : Mem) : Mem := match l with [] => s | c :: r => all r (record end_ c s) end in
  match c with
  | mkCall pos loc i0 i1 i2 i3 =>
      let s := all i0 s in
      let min := m_min s in
      let s := all i1 s in
      if pos <? min then
        let s := mkMem (m_min s) loc (m_warn s) in
        let s := all i2 s in
        let '(s, min) := if m_min s =? min then (mkMem pos (m_loc s) (m_warn s), min) else (s, m_min s) in
        let s := all i3 s in
        if u16 (min - end_) <? 64 then mkMem (m_min s) (m_loc s) true else s
      else all i3 (all i2 s)
  end.
Fixpoint records (end_ : Z) (l : list Call) (s : Mem) : Mem := match l with [] => s | c :: r => records end_ r (record end_ c s) end.

(** Util.h 316: getMinSPSpaceBelowStackToEnd; Util.cpp 79-101: stackCheck:
    whether it prints "!SP", and whether it forces a reset. *)
Definition min_space (end_ : Z) (s : Mem) : Z := i16 (m_min s - end_).
Definition stackCheck (end_ : Z) (s : Mem) : bool * bool := (min_space end_ s <? 64, min_space end_ s <=? 0).
