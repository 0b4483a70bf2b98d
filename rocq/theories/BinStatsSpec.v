(** What the binary stats formats promise, stated without the codec. *)
From Verif Require Import Base CrcModel CrcSpec BinStatsModel.

(** Values that fit the C++ structures (bit fields and bytes). *)
Definition min_ok (p : MinStats) : Prop := -16384 <= tempC16 p < 16384.
Definition full_ok (c : FullStats) : Prop :=
  byte (id0 c) /\ byte (id1 c) /\ min_ok (tempAndPower c) /\ byte (ambL c) /\ 0 <= occ c < 4.

(** Temperatures are forced into -20C .. ~107.9C (in C/16). *)
Definition clampT (t : Z) : Z := Z.max (-320) (Z.min 1727 t).
Definition clampM (p : MinStats) : MinStats := mkMin (clampT (tempC16 p)) (powerLow p).

(** A message the encoder may send: no ID byte 0xff, both ID bytes in the same
    half of the range; light level 1..254. *)
Definition sendable (c : FullStats) : Prop :=
  (containsID c = true -> id0 c <> 255 /\ id1 c <> 255 /\ (128 <= id0 c <-> 128 <= id1 c)) /\
  (containsAmbL c = true -> 1 <= ambL c <= 254).

(** Number of bytes on the wire, CRC included. *)
Definition wire_len (c : FullStats) : Z :=
  3 + (if containsID c then 2 else 0) + (if containsTempAndPower c then 2 else 0)
    + (if containsAmbL c then 1 else 0).

(** What a receiver may learn from a message sent with privacy level [lvl]:
    the fields flagged as present, everything else zero, occupancy only at the
    most permissive level. *)
Definition visible (lvl : Z) (c : FullStats) : FullStats :=
  mkFull (containsID c) (containsTempAndPower c) (containsAmbL c)
    (if containsID c then id0 c else 0) (if containsID c then id1 c else 0)
    (if containsTempAndPower c then clampM (tempAndPower c) else mkMin 0 false)
    (if containsAmbL c then ambL c else 0)
    (if lvl =? 0 then occ c else 0).

(** Two byte strings differ in exactly one bit / in at most [k] bits. *)
Definition differ_bits (l l' : list Z) (k : Z) : Prop :=
  exists e, diff l l' e /\ ones_l e = k.

(** The wire grammar the decoder accepts: [full_wire w c] says that the bytes
    [w] are a complete message carrying [c].
    header | id0 id1 if bit 2 | temp lsb, temp msb (first byte 010xxxxx) | flags
    011xxxxx | light if bit 3 | CRC.   Reserved bits (header bits 0 and 3, flag
    bits 2 and 4) may have either value. *)

Definition full_wire (w : list Z) (c : FullStats) : Prop :=
  exists hdr idb tpb fl amb,
    let body := [hdr] ++ idb ++ tpb ++ [fl] ++ amb in
    w = body ++ [crc7_run 127 body] /\
    112 <= hdr < 128 /\ 96 <= fl < 128 /\ occ c = fl mod 4 /\
    ((containsID c = true /\ Z.testbit hdr 2 = true /\
      exists x0 x1, idb = [x0; x1] /\
        id0 c = (if Z.testbit hdr 1 then Z.max x0 (128 + x0 mod 128) else x0) /\
        id1 c = (if Z.testbit hdr 1 then Z.max x1 (128 + x1 mod 128) else x1)) \/
     (containsID c = false /\ Z.testbit hdr 2 = false /\ idb = [] /\ id0 c = 0 /\ id1 c = 0)) /\
    ((containsTempAndPower c = true /\
      exists t0 t1, tpb = [t0; t1] /\ 64 <= t0 < 96 /\ 0 <= t1 < 128 /\
        tempAndPower c = mkMin (16 * t1 + t0 mod 16 - 320) (Z.testbit t0 4)) \/
     (containsTempAndPower c = false /\ tpb = [] /\ tempAndPower c = mkMin 0 false)) /\
    ((containsAmbL c = true /\ Z.testbit fl 3 = true /\
      amb = [ambL c] /\ 1 <= ambL c <= 254) \/
     (containsAmbL c = false /\ Z.testbit fl 3 = false /\ amb = [] /\ ambL c = 0)).
