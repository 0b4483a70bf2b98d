(** Model of /repo/content/OTRadioLink/utility/OTV0P2BASE_CRC.cpp *)
From Verif Require Import Base.

(** One iteration of the loop of crc7_5B_update: OTV0P2BASE_CRC.cpp 47-53.
    [i] is the bit mask, [crc] a uint8_t. *)
Definition crc7_bit (crc datum i : Z) : Z :=
  let bit := negb (Z.land crc 64 =? 0) in                   (* line 49 *)
  let bit := if negb (Z.land datum i =? 0) then negb bit else bit in (* 50 *)
  let crc := u8 (Z.shiftl crc 1) in                          (* 51 *)
  if bit then Z.lxor crc 55 else crc.                        (* 52: 0x37 *)

(** crc7_5B_update: OTV0P2BASE_CRC.cpp 45-55; masks 0x80 .. 0x01. *)
Definition crc7_5B_update (crc datum : Z) : Z :=
  Z.land (fold_left (fun c i => crc7_bit c datum i)
            [128; 64; 32; 16; 8; 4; 2; 1] crc) 127.

(** crc7_5B_update_nz_final: OTV0P2BASE_CRC.cpp 62-67. *)
Definition crc7_5B_update_nz_final (crc datum : Z) : Z :=
  let result := crc7_5B_update crc datum in
  if negb (result =? 0) then result else 128.

(** The loop "crc = crc7_5B_update(crc, *p++)" over a run of bytes as used by
    computeNonSecureCRC (OTRadioLink_SecureableFrameType.cpp 275-278) and by
    the stats codecs. *)
Definition crc7_run (init : Z) (l : list Z) : Z :=
  fold_left crc7_5B_update l init.
