(** Model of /repo/content/OTRadioLink/utility/OTRadioLink_JeelabsOemPacket.{h,cpp}: encoding, decoding
    and filtering of JeeLabs packets.  [None] is an access outside the buffer. *)
From Verif Require Import Base.

(** One bit, and _crc16_update of avr-libc (used at JeelabsOemPacket.cpp 146, 176; its documentation gives
    the equivalent: crc ^= a, then 8 times shift right, xor 0xA001 if a 1 fell out). *)
Definition crc_bit (s : Z) : Z := if Z.odd s then Z.lxor (s / 2) 40961 else s / 2.
Fixpoint crc_shift (n : nat) (s : Z) : Z := match n with O => s | S n => crc_bit (crc_shift n s) end.
Definition crc16_update (crc a : Z) : Z := crc_shift 8 (Z.lxor crc a).
(** The loops at 145-146 and 174-176, from index [i] for [n] bytes. *)
Fixpoint crc_loop (n : nat) (buf : list Z) (i crc : Z) : option Z :=
  match n with O => Some crc | S n => bind (rd buf i) (fun a => crc_loop n buf (i + 1) (crc16_update crc a)) end.
(** calcCrc, 172-179: len is a uint8_t. *)
Definition calcCrc (buf : list Z) (len : Z) : option Z := crc_loop (Z.to_nat (u8 len)) buf 0 65535.

(** _nodeID, _groupID: JeelabsOemPacket.h 62-67. *)
Record Jee := mkJee { node : Z; group : Z }.
Definition jee_new : Jee := mkJee 5 100.
(** encode, 72-98: the result and the buffer. *)
Definition encode (j : Jee) (buf : list Z) (buflen nodeID : Z) (dest ackReq ackConf : bool) : option (Z * list Z) :=
  if 31 <? nodeID then Some (0, buf)
  else bind (sub buf 0 buflen) (fun pl => bind (blit buf 3 pl) (fun buf =>
       bind (wr buf 0 (group j)) (fun buf =>
       let h := u8 (Z.lor (if dest then Z.lor nodeID 64 else node j) (Z.lor (if ackConf then 128 else 0) (if ackReq then 32 else 0))) in
       bind (wr buf 1 h) (fun buf => bind (wr buf 2 buflen) (fun buf =>
       bind (calcCrc buf (buflen + 3)) (fun crc =>
       bind (wr buf (buflen + 3) (u8 crc)) (fun buf => bind (wr buf (buflen + 4) (u8 (crc / 256))) (fun buf =>
       Some (u8 (buflen + 5), buf))))))))).
(** What decode returns through its references (as they were given, where not assigned). *)
Record Out := mkOut { o_len : Z; o_node : Z; o_dest : bool; o_ackReq : bool; o_ackConf : bool }.
(** decode, 111-134: the result, the buffer and the references. *)
Definition decode (j : Jee) (buf : list Z) (o : Out) : option (Z * list Z * Out) :=
  bind (rd buf 0) (fun g => if negb (g =? group j) then Some (u8 (-1), buf, o)
  else bind (rd buf 2) (fun l => bind (calcCrc buf (l + 5)) (fun crc => if negb (crc =? 0) then Some (u8 (-2), buf, o)
  else bind (rd buf 1) (fun h =>
       let o := mkOut (o_len o) (Z.land h 31) (negb (Z.land h 64 =? 0)) (o_ackReq o) (o_ackConf o) in
       if o_dest o && negb (o_node o =? node j) then Some (u8 (-3), buf, o)
       else bind (sub buf 3 l) (fun pl => bind (blit buf 0 pl) (fun buf =>
            Some (l, buf, mkOut l (o_node o) (o_dest o) (negb (Z.land h 32 =? 0)) (negb (Z.land h 128 =? 0))))))))).
(** filter, 140-151: the result and buflen.  The value of buflen given is not used. *)
Definition filter (buf : list Z) (buflen : Z) : option (bool * Z) :=
  bind (rd buf 2) (fun l => let buflen := u8 (l + 5) in
  if 64 <? buflen then Some (false, buflen)
  else bind (crc_loop (Z.to_nat buflen) buf 0 65535) (fun crc => Some (crc =? 0, buflen))).
