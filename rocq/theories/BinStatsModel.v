(** Model of /repo/content/OTRadioLink/utility/OTV0P2BASE_SimpleBinaryStats.cpp/.h:
    the binary stats payloads carried on the FS20 radio. *)
From Verif Require Import Base CrcModel.

(** trailingMinimalStatsPayload_t: OTV0P2BASE_SimpleBinaryStats.h 79-83.
    tempC16 is a 15-bit signed bit field. *)
Record MinStats := mkMin { tempC16 : Z; powerLow : bool }.

(** FullStatsMessageCore_t: .h 182-200; occ is a 2-bit bit field. *)
Record FullStats := mkFull {
  containsID : bool; containsTempAndPower : bool; containsAmbL : bool;
  id0 : Z; id1 : Z; tempAndPower : MinStats; ambL : Z; occ : Z }.

(** clearFullStatsMessageCore: .h 208 (memset to zero). *)
Definition cleared : FullStats := mkFull false false false 0 0 (mkMin 0 false) 0 0.

(** writeTrailingMinimalStatsPayloadBody: .cpp 52-89 (DEBUG off): the two
    bytes stored at buf[0] and buf[1]. *)
Definition min_body (p : MinStats) : Z * Z :=
  let bitmask := 2047 in
  let minT := -320 in
  let maxT := bitmask + -320 in
  let t := tempC16 p in
  let t := if t <? minT then minT else if maxT <? t then maxT else t in
  let t := i16 (t - -320) in
  let byte0 := u8 (Z.lor (Z.lor 64 (if powerLow p then 16 else 0)) (Z.land t 15)) in
  let byte1 := u8 (Z.shiftr t 4) in
  (byte0, byte1).
Definition write_min_body (buf : list Z) (b : Z) (p : MinStats) : option (list Z) :=
  do buf <- wr buf b (fst (min_body p));
  wr buf (b + 1) (snd (min_body p)).

(** writeTrailingMinimalStatsPayload: .cpp 95-102. *)
Definition write_min (buf : list Z) (p : MinStats) : option (list Z) :=
  do buf <- write_min_body buf 0 p;
  do b0 <- rd buf 0;
  do b1 <- rd buf 1;
  wr buf 2 (crc7_5B_update b0 b1).

(** verifyHeaderAndCRCForTrailingMinimalStatsPayload: .cpp 40-45. *)
Definition verify_min (buf : list Z) : option bool :=
  do b0 <- rd buf 0;
  if negb (64 =? Z.land b0 224) then Some false else
  do b1 <- rd buf 1;
  if negb (0 =? Z.land b1 128) then Some false else
  do b2 <- rd buf 2;
  Some (b2 =? crc7_5B_update b0 b1).

(** extractTrailingMinimalStatsPayload: .cpp 108-115, from the two bytes read.
    (The value always fits int16_t and the 15-bit field: at most 4095-320.) *)
Definition extract_min (b0 b1 : Z) : MinStats :=
  mkMin (Z.lor (Z.shiftl b1 4) (Z.land b0 15) + -320) (negb (0 =? Z.land b0 16)).
Definition extract_min_buf (buf : list Z) : option MinStats :=
  do b0 <- rd buf 0;
  do b1 <- rd buf 1;
  Some (extract_min b0 b1).

(** stats_TX_level stTXalwaysAll: OTV0P2BASE_Security.h 47. *)
Definition stTXalwaysAll := 0.

(** encodeFullStatsMessageCore: .cpp 180-273.  Result: the returned pointer
    (as an offset, None for NULL) and the buffer.  buf and content non-NULL.
    [buf] is the memory actually there; [buflen] what the caller claims. *)
Definition encode_full (buf : list Z) (buflen secLevel : Z) (secureChannel : bool)
    (c : FullStats) : option (option Z * list Z) :=
  if secureChannel then Some (None, buf) else                             (* 185 *)
  let payloadLength :=
    u8 (1 + (if containsID c then 2 else 0) + (if containsTempAndPower c then 2 else 0)
        + 1 + (if containsAmbL c then 1 else 0)) in                        (* 191-196 *)
  if buflen <? payloadLength + 2 then Some (None, buf) else                (* 197 *)
  if containsID c && ((id0 c =? 255) || (id1 c =? 255)) then Some (None, buf) else (* 203 *)
  if containsID c && negb (Z.land (id0 c) 128 =? Z.land (id1 c) 128)
  then Some (None, buf) else                                               (* 204 *)
  if containsAmbL c && ((ambL c =? 0) || (ambL c =? 255)) then Some (None, buf) else (* 209 *)
  let b := 0 in
  let header := Z.lor (Z.lor (Z.lor 112 (if containsID c then 4 else 0))
                  (if containsID c && negb (0 =? Z.land (id0 c) 128) then 2 else 0)) 0 in
  do buf <- wr buf b header;                                               (* 227 *)
  let b := b + 1 in
  do (buf, b) <-
    (if containsID c then
       do buf <- wr buf b (Z.land (id0 c) 127);
       do buf <- wr buf (b + 1) (Z.land (id1 c) 127);
       Some (buf, b + 2)
     else Some (buf, b));                                                  (* 230-234 *)
  do (buf, b) <-
    (if containsTempAndPower c then
       do buf <- write_min_body buf b (tempAndPower c);
       Some (buf, b + 2)
     else Some (buf, b));                                                  (* 237-241 *)
  let flagsHeader := Z.lor (Z.lor 96 (if containsAmbL c then 8 else 0))
        (if secureChannel || (secLevel <=? stTXalwaysAll) then Z.land (occ c) 3 else 0) in
  do buf <- wr buf b flagsHeader;                                          (* 257 *)
  let b := b + 1 in
  do (buf, b) <-
    (if containsAmbL c then
       do buf <- wr buf b (ambL c); Some (buf, b + 1)
     else Some (buf, b));                                                  (* 259-260 *)
  do payload <- sub buf 0 b;
  let crc := crc7_run 127 payload in                                       (* 265-266 *)
  do buf <- wr buf b crc;                                                  (* 267 *)
  do buf <- wr buf (b + 1) 255;                                            (* 268 *)
  Some (Some (b + 1), buf).

(** decodeFullStatsMessageCore: .cpp 280-369.  None: out-of-bounds read.
    Some None: NULL returned.  Some (Some (c, n)): content c, pointer buf+n.
    (The content left behind by a failed decode is documented as undefined and
    is not modelled.) *)
Definition decode_full (buf : list Z) (buflen : Z) : option (option (FullStats * Z)) :=
  if buflen <? 3 then Some None else                                       (* 287 *)
  let c := cleared in                                                      (* 299 *)
  do header <- rd buf 0;                                                   (* 306 *)
  let b := 1 in
  if negb (112 =? Z.land header 112) then Some None else                   (* 315 *)
  if negb (0 =? Z.land header 128) then Some None else                     (* 317 *)
  do (c, b) <-
    (if negb (0 =? Z.land header 4) then                                   (* 320-328 *)
       let idHigh := if negb (0 =? Z.land header 2) then 128 else 0 in
       do x0 <- rd buf b;
       do x1 <- rd buf (b + 1);
       Some (mkFull true (containsTempAndPower c) (containsAmbL c)
               (Z.lor x0 idHigh) (Z.lor x1 idHigh) (tempAndPower c) (ambL c) (occ c), b + 2)
     else Some (c, b));
  if buflen <=? b then Some None else                                      (* 331 *)
  do h <- rd buf b;
  do r <-
    (if 64 =? Z.land h 224 then                                            (* 332 *)
       if buflen - 1 <=? b then Some None else                             (* 335 *)
       do h1 <- rd buf (b + 1);
       if negb (0 =? Z.land 128 h1) then Some None else                    (* 336 *)
       Some (Some (mkFull (containsID c) true (containsAmbL c) (id0 c) (id1 c)
                     (extract_min h h1) (ambL c) (occ c), b + 2))          (* 337-339 *)
     else Some (Some (c, b)));
  match r with
  | None => Some None
  | Some (c, b) =>
    if buflen <=? b then Some None else                                    (* 345 *)
    do flagsHeader <- rd buf b;
    if negb (96 =? Z.land flagsHeader 224) then Some None else             (* 346 *)
    let b := b + 1 in
    let c := mkFull (containsID c) (containsTempAndPower c) (containsAmbL c) (id0 c) (id1 c)
               (tempAndPower c) (ambL c) (Z.land flagsHeader 3) in         (* 348 *)
    do r <-
      (if negb (0 =? Z.land flagsHeader 8) then                            (* 349-358 *)
         if buflen <=? b then Some None else
         do a <- rd buf b;
         let b := b + 1 in
         if (0 =? a) || (a =? 255) then Some None else
         Some (Some (mkFull (containsID c) (containsTempAndPower c) true (id0 c) (id1 c)
                       (tempAndPower c) a (occ c), b))
       else Some (Some (c, b)));
    match r with
    | None => Some None
    | Some (c, b) =>
      if buflen <=? b then Some None else                                  (* 362 *)
      do payload <- sub buf 0 b;
      let crc := crc7_run 127 payload in                                   (* 363-364 *)
      do x <- rd buf b;
      if negb (crc =? x) then Some None else                               (* 366 *)
      Some (Some (c, b + 1))                                               (* 368 *)
    end
  end.
