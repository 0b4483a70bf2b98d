(** Model of the FHT8V/FS20 bit-stream codec.
    content/OTRadioLink/utility/OTRadValve_FHT8VRadValve.cpp lines 51-363 and
    content/OTRadioLink/utility/OTRadValve_FHT8VRadValve.h lines 61-209.
    [adr] selects the build with OTV0P2BASE_FHT8V_ADR_USED (false by default). *)
From Verif Require Import Base.

(** fht8v_msg_t, .h 63-72; [m_address] is only used when [adr] is set. *)
Record msg := Msg { m_hc1 : Z; m_hc2 : Z; m_address : Z; m_command : Z; m_extension : Z }.

(** xor_parity_even_bit, .h 93-99 (the AVR build uses avr-libc's macro of the same meaning). *)
Definition parity_even_bit (v : Z) : Z :=
  let v := Z.lxor v (Z.shiftr v 4) in
  let v := Z.lxor v (Z.shiftr v 2) in
  let v := Z.lxor v (Z.shiftr v 1) in
  Z.land v 1.

(** What _FHT8VCreate200usAppendEncBit (.cpp 51-96) does with the byte [c] at *bptr: the value
    written back, and the value written to *++bptr if it advances. *)
Definition enc_byte (c : Z) (is1 : bool) : Z * option Z :=
  let left := Z.land c 3 in                                  (* 53 *)
  if negb is1 then                                           (* 54 *)
    if left =? 3 then (0xcd, None)                           (* 59 *)
    else if left =? 2 then (Z.lor (Z.land c 0xc0) 0x30, None) (* 62 *)
    else if left =? 1 then (Z.lor (Z.land c 0xf0) 0xc, Some 0xff) (* 65-66 *)
    else (Z.lor c 3, Some 0x3e)                              (* 69-70 *)
  else
    if left =? 3 then (0xe0, None)                           (* 79 *)
    else if left =? 2 then (Z.lor (Z.land c 0xc0) 0x38, Some 0xff) (* 82-83 *)
    else if left =? 1 then (Z.lor (Z.land c 0xf0) 0xe, Some 0x3e)  (* 86-87 *)
    else (Z.lor c 3, Some 0x8d).                             (* 90-91 *)

(** _FHT8VCreate200usAppendEncBit, .cpp 51-96, on the buffer; [p] is the index of *bptr. *)
Definition append_bit (buf : list Z) (p : Z) (is1 : bool) : option (list Z * Z) :=
  do c <- rd buf p ;
  let '(c', nxt) := enc_byte c is1 in
  do b1 <- wr buf p c' ;
  match nxt with
  | None => Some (b1, p)
  | Some v => do b2 <- wr b1 (p + 1) v ; Some (b2, p + 1)
  end.

Fixpoint append_bits (buf : list Z) (p : Z) (bs : list bool) : option (list Z * Z) :=
  match bs with
  | [] => Some (buf, p)
  | b :: bs => do (buf', p') <- append_bit buf p b ; append_bits buf' p' bs
  end.

(** _FHT8VCreate200usAppendByteEP, .cpp 105-110: masks 0x80 down to 1, then the parity bit. *)
Definition byte_ep (b : Z) : list bool :=
  map (fun mask => negb (Z.land b mask =? 0)) [0x80; 0x40; 0x20; 0x10; 8; 4; 2; 1]
  ++ [negb (parity_even_bit b =? 0)].
Definition append_byte_ep (buf : list Z) (p b : Z) : option (list Z * Z) :=
  append_bits buf p (byte_ep b).

(** Checksum, .cpp 144-148. *)
Definition checksum (m : msg) (address : Z) : Z :=
  u8 (0xc + m_hc1 m + m_hc2 m + address + m_command m + m_extension m).

(** FHT8VCreate200usBitStreamBptr, .cpp 119-159, writing from index [p] of [buf]; returns the
    buffer and the index of the terminating 0xff. *)
Definition create (adr : bool) (buf : list Z) (p : Z) (m : msg) : option (list Z * Z) :=
  do b <- wr buf p 0xcc ;                                    (* 123-128 *)
  do b <- wr b (p + 1) 0xcc ;
  do b <- wr b (p + 2) 0xcc ;
  do b <- wr b (p + 3) 0xcc ;
  do b <- wr b (p + 4) 0xcc ;
  do b <- wr b (p + 5) 0xcc ;
  do b <- wr b (p + 6) 0xff ;                                (* 129 *)
  do (b, q) <- append_bit b (p + 6) true ;                   (* 131 *)
  do (b, q) <- append_byte_ep b q (m_hc1 m) ;                (* 134 *)
  do (b, q) <- append_byte_ep b q (m_hc2 m) ;                (* 135 *)
  let address := if adr then m_address m else 0 in           (* 136-140 *)
  do (b, q) <- append_byte_ep b q address ;
  do (b, q) <- append_byte_ep b q (m_command m) ;            (* 141 *)
  do (b, q) <- append_byte_ep b q (m_extension m) ;          (* 142 *)
  do (b, q) <- append_byte_ep b q (checksum m address) ;     (* 149 *)
  do (b, q) <- append_bit b q false ;                        (* 153 *)
  do (b, q) <- append_bit b q false ;                        (* 155 *)
  do (b, q) <- append_bit b q false ;                        (* 156 *)
  do b <- wr b q 0xff ;                                      (* 157 *)
  Some (b, q).

(** ** Decoder *)

(** decode_state_t, .cpp 162-168.  The buffer is exactly the bytes up to *lastByte. *)
Record dst := D { d_idx : Z; d_mask : Z; d_failed : bool }.

(** readOneBit, .cpp 173-251; [None] is a read outside the bytes given. *)
Definition readOneBit (buf : list Z) (s : dst) : option (dst * Z) :=
  let last := Zlen buf - 1 in
  let failed := if d_idx s >? last then true else d_failed s in        (* 175 *)
  if failed then Some (D (d_idx s) (d_mask s) true, 0) else            (* 176 *)
  let mask := if d_mask s =? 0 then 0xc0 else d_mask s in              (* 178 *)
  let i := d_idx s in
  do v <- rd buf i ;                                                   (* 184 *)
  if negb (mask =? Z.land mask v) then Some (D i mask true, 0) else    (* 184-190 *)
  let m1 := Z.shiftr mask 2 in                                         (* 193 *)
  let '(i, mask) := if m1 =? 0 then (i + 1, 0xc0) else (i, m1) in      (* 195, 197 *)
  if (m1 =? 0) && (i >? last) then Some (D i mask true, 0) else        (* 197 *)
  do v <- rd buf i ;
  let secondPair := Z.land mask v in                                   (* 202 *)
  if secondPair =? 0 then                                              (* 205 *)
    let m2 := Z.shiftr mask 2 in                                       (* 211 *)
    Some (D (if m2 =? 0 then i + 1 else i) m2 false, 0)                (* 211-212 *)
  else if negb ((secondPair =? 0x80) || (secondPair =? 0x20) || (secondPair =? 8) || (secondPair =? 2))
  then Some (D i mask true, 0)                                         (* 214-225 *)
  else
  let m2 := Z.shiftr mask 2 in                                         (* 229 *)
  let '(i, mask) := if m2 =? 0 then (i + 1, 0xc0) else (i, m2) in      (* 231, 233 *)
  if (m2 =? 0) && (i >? last) then Some (D i mask true, 0) else        (* 233 *)
  do v <- rd buf i ;
  if negb (Z.land mask v =? 0) then Some (D i mask true, 0) else       (* 237-243 *)
  let m3 := Z.shiftr mask 2 in                                         (* 246 *)
  Some (D (if m3 =? 0 then i + 1 else i) m3 false, 1).                 (* 250 *)

(** The loop of readOneByteWithParity, .cpp 264-269. *)
Fixpoint read7 (n : nat) (buf : list Z) (s : dst) (result parity : Z) : option (dst * Z * Z) :=
  match n with
  | O => Some (s, result, parity)
  | S n =>
      do (s1, bit) <- readOneBit buf s ;
      read7 n buf s1 (u8 (Z.lor (Z.shiftl result 1) bit)) (Z.lxor parity bit)
  end.

(** readOneByteWithParity, .cpp 255-279. *)
Definition readByte (buf : list Z) (s : dst) : option (dst * Z) :=
  if d_failed s then Some (s, 0) else                                  (* 257 *)
  do (s1, b7) <- readOneBit buf s ;                                    (* 260 *)
  do (r7, parity) <- read7 7 buf s1 b7 b7 ;                            (* 261-269 *)
  let '(s2, result) := r7 in
  do (s3, pb) <- readOneBit buf s2 ;                                   (* 271 *)
  Some (if negb (parity =? pb) then D (d_idx s3) (d_mask s3) true else s3, result).  (* 271-278 *)

(** Leading loop, .cpp 304; [inl] = NULL returned. *)
Fixpoint skip0 (fuel : nat) (buf : list Z) (s : dst) : option (option dst) :=
  match fuel with
  | O => None
  | S fuel =>
      do (s1, bit) <- readOneBit buf s ;
      if bit =? 0 then (if d_failed s1 then Some None else skip0 fuel buf s1)
      else Some (Some s1)
  end.

(** FHT8VDecodeBitStream, .cpp 285-363: NULL, or the message (with the address byte read) and
    the index of the returned pointer. *)
Definition decode (buf : list Z) : option (option (msg * Z)) :=
  do r <- skip0 (S (S (2 * length buf))) buf (D 0 0 false) ;           (* 287-304 *)
  match r with
  | None => Some None
  | Some s =>
      do (s, hc1) <- readByte buf s ;                                  (* 309 *)
      do (s, hc2) <- readByte buf s ;                                  (* 310 *)
      do (s, address) <- readByte buf s ;                              (* 311-315 *)
      do (s, command) <- readByte buf s ;                              (* 316 *)
      do (s, extension) <- readByte buf s ;                            (* 317 *)
      do (s, checksumRead) <- readByte buf s ;                         (* 318 *)
      if d_failed s then Some None else                                (* 319-325 *)
      let m := Msg hc1 hc2 address command extension in
      if negb (checksum m address =? checksumRead) then Some None else (* 327-339 *)
      do (s, b) <- readOneBit buf s ;                                  (* 348 *)
      if negb (b =? 0) then Some None else
      if d_failed s then Some None else                                (* 355 *)
      Some (Some (m, d_idx s + 1))                                     (* 362 *)
  end.

(** ** Scale conversion *)
(** convertPercentTo255Scale, .h 136-180. *)
Definition percentTo255 (valvePC : Z) : Z :=
  if valvePC >=? 100 then 255
  else u8 (Z.shiftl valvePC 1 + Z.shiftr valvePC 1 + Z.shiftr valvePC 4).
(** convert255ScaleToPercent, .h 189-209. *)
Definition scale255ToPercent (s : Z) : Z :=
  if s =? 0 then 0 else if s =? 255 then 100 else u8 (Z.shiftr (s * 100 + 199) 8).
