(** Model of the framing layer:
    /repo/content/OTRadioLink/utility/OTRadioLink_SecureableFrameType.{h,cpp}.

    [None] is undefined behaviour (access outside the supplied storage).
    Every pointer argument that the code compares with NULL is an [option]. *)
From Verif Require Import Base CrcModel.

(** class SecurableFrameHeader: OTRadioLink_SecureableFrameType.h 155-215. *)
Record Hdr := mkHdr {
  hfl : Z;            (* fl, .h 158ff *)
  hftype : Z;         (* fType incl. secure bit, .h 182 *)
  hseqil : Z;         (* seqIl, .h 190ff *)
  hid : list Z;       (* id[maxIDLength], .h 206 *)
  hbl : Z             (* bl *)
}.

Definition maxSmallFrameSize := 63.   (* .h 172 *)
Definition maxIDLength := 8.          (* .h 205 *)
Definition FTS_NONE := 0.             (* .h 76 *)
Definition FTS_INVALID_HIGH := 127.   (* .h 77 *)
Definition FTS_ALIVE := 33.           (* .h 96: '!' *)
Definition FTS_BasicSensorOrValve := 79. (* .h 113: 'O' *)

Definition isInvalid (h : Hdr) : bool := 0 =? hfl h.                (* .h 161 *)
Definition isSecure (h : Hdr) : bool := negb (Z.land 128 (hftype h) =? 0). (* .h 183 *)
Definition getSeq (h : Hdr) : Z := Z.land (Z.shiftr (hseqil h) 4) 15.  (* .h 193 *)
Definition getIl (h : Hdr) : Z := Z.land (hseqil h) 15.               (* .h 195 *)
Definition getHl (h : Hdr) : Z := u8 (4 + getIl h).                   (* .h 209 *)
Definition getBodyOffset (h : Hdr) : Z := getHl h.                    (* .h 217 *)
Definition getTl (h : Hdr) : Z := u8 (hfl h - 3 - getIl h - hbl h).   (* .h 221 *)
Definition getTrailerOffset (h : Hdr) : Z := u8 (4 + getIl h + hbl h). (* .h 223 *)

Definition set_fl (h : Hdr) v := mkHdr v (hftype h) (hseqil h) (hid h) (hbl h).
Definition set_ftype (h : Hdr) v := mkHdr (hfl h) v (hseqil h) (hid h) (hbl h).
Definition set_seqil (h : Hdr) v := mkHdr (hfl h) (hftype h) v (hid h) (hbl h).
Definition set_id (h : Hdr) v := mkHdr (hfl h) (hftype h) (hseqil h) v (hbl h).
Definition set_bl (h : Hdr) v := mkHdr (hfl h) (hftype h) (hseqil h) (hid h) v.

(** A freshly constructed header object (.h: fl=0, fType=FTS_NONE; the ID bytes
    are uninitialised in C++, the model uses zeros but no theorem depends on it). *)
Definition hdr0 : Hdr := mkHdr 0 0 0 (repeat 0 8) 0.

(** SecurableFrameHeader::encodeHeader, .cpp 83-171.
    [buffer] = buf.buf (NULL allowed), [buflen] = buf.bufsize.
    [id] = id_ resolved: None is NULL on a non-AVR build (lines 129-131); on AVR
    (line 128) NULL means the EEPROM ID bytes, i.e. [Some eepromID].
    Result: (return value, header object, buffer). *)
Definition encodeHeader (h : Hdr) (buffer : option (list Z)) (buflen : Z)
    (secure : bool) (fType seqNum : Z) (id : option (list Z)) (il bl tl : Z)
    : option (Z * Hdr * option (list Z)) :=
  let h := set_fl h 0 in                                             (* 98 *)
  if (fType =? FTS_NONE) || (fType >=? FTS_INVALID_HIGH) then Some (0, h, buffer) else (* 112 *)
  let h := set_ftype h (if secure then Z.lor 128 fType else Z.land 127 fType) in (* 113 *)
  if il >? maxIDLength then Some (0, h, buffer) else                 (* 118 *)
  let h := set_seqil h (u8 (Z.lor il (Z.shiftl seqNum 4))) in        (* 120 *)
  let after_id (h : Hdr) : option (Z * Hdr * option (list Z)) :=
    let hlifl := 4 + il in                                           (* 134 *)
    if hlifl >? buflen then Some (0, h, buffer) else                 (* 136 *)
    if bl >? maxSmallFrameSize - hlifl then Some (0, h, buffer) else (* 139 *)
    let h := set_bl h bl in                                          (* 140 *)
    if (if negb secure then negb (1 =? tl)                           (* 142 *)
        else (0 =? tl) || (tl >? maxSmallFrameSize + 1 - hlifl - bl))(* 147, 150 *)
    then Some (0, h, buffer) else
    let fl := u8 (hlifl - 1 + bl + tl) in                            (* 153 *)
    do buffer' <-                                                    (* 157-164 *)
      match buffer with
      | None => Some None
      | Some b =>
          do b <- wr b 0 fl;
          do b <- wr b 1 (hftype h);
          do b <- wr b 2 (hseqil h);
          do idb <- sub (hid h) 0 il;
          do b <- blit b 3 idb;
          do b <- wr b (3 + il) bl;
          Some (Some b)
      end;
    Some (hlifl, set_fl h fl, buffer')                               (* 167-170 *)
  in
  if il >? 0 then                                                    (* 121 *)
    match id with
    | None => Some (0, h, buffer)                                    (* 130 *)
    | Some idb => do s <- sub idb 0 il;                              (* 125 / 128 *)
                  do hid' <- blit (hid h) 0 s;
                  after_id (set_id h hid')
    end
  else after_id h.

(** SecurableFrameHeader::decodeHeader, .cpp 202-255. [buf] None is NULL.
    Result: (return value, header object). *)
Definition decodeHeader (h : Hdr) (buf : option (list Z)) (buflen : Z)
    : option (Z * Hdr) :=
  let h := set_fl h 0 in                                             (* 205 *)
  match buf with
  | None => Some (0, h)                                              (* 208 *)
  | Some b =>
    if buflen <? 5 then Some (0, h) else                             (* 209 *)
    do fl <- rd b 0;                                                 (* 214 *)
    if fl <? 4 then Some (0, h) else                                 (* 215 *)
    if fl >? maxSmallFrameSize then Some (0, h) else                 (* 217 *)
    do ft <- rd b 1;                                                 (* 219 *)
    let h := set_ftype h ft in
    let secure := isSecure h in                                      (* 220 *)
    let fType := Z.land ft 127 in                                    (* 221 *)
    if (fType =? FTS_NONE) || (fType >=? FTS_INVALID_HIGH) then Some (0, h) else (* 222 *)
    do si <- rd b 2;                                                 (* 224 *)
    let h := set_seqil h si in
    let il := getIl h in                                             (* 225 *)
    if il >? maxIDLength then Some (0, h) else                       (* 226 *)
    if il >? fl - 4 then Some (0, h) else                            (* 228 *)
    let hlifl := u8 (4 + il) in                                      (* 230 *)
    if hlifl >? buflen then Some (0, h) else                         (* 232 *)
    do h <- (if il >? 0                                              (* 234 *)
             then do s <- sub b 3 il;
                  do hid' <- blit (hid h) 0 s; Some (set_id h hid')
             else Some h);
    do bl <- rd b (hlifl - 1);                                       (* 236 *)
    if bl >? fl - hlifl then Some (0, h) else                        (* 237 *)
    let h := set_bl h bl in                                          (* 238 *)
    do badlast <- (if buflen >? fl                                   (* 240-244 *)
                then do lastByte <- rd b fl;
                     Some ((lastByte =? 0) || (lastByte =? 255))
                else Some false);
    if (badlast : bool) then Some (0, h) else
    let tl := u8 (fl - 3 - il - bl) in                               (* 246 *)
    if (if negb secure then negb (1 =? tl) else 0 =? tl)             (* 247-248 *)
    then Some (0, h) else
    Some (hlifl, set_fl h fl)                                        (* 251-254 *)
  end.

(** SecurableFrameHeader::computeNonSecureCRC, .cpp 268-282. *)
Definition computeNonSecureCRC (h : Hdr) (buf : list Z) (buflen : Z) : option Z :=
  if isInvalid h then Some 0 else                                    (* 271 *)
  if buflen <? hfl h then Some 0 else                                (* 273 *)
  do l <- sub buf 0 (hfl h);                                         (* 276-278 *)
  let crc := crc7_run 127 l in
  Some (if crc =? 0 then 128 else crc).                              (* 280 *)

(** encodeNonsecure, .cpp 309-342.  fd.ptext = [ptext], fd.ptextbufSize =
    [psize], fd.outbuf = [outbuf] (never NULL by contract), fd.outbufSize =
    [outsize], fd.fType = [fType].  Result: (return value, outbuf). *)
Definition encodeNonsecure (ptext : list Z) (psize : Z) (outbuf : list Z)
    (outsize : Z) (fType seqNum : Z) (id : option (list Z)) (il : Z)
    : option (Z * list Z) :=
  do (hl, h, ob) <- encodeHeader hdr0 (Some outbuf) outsize false fType seqNum
                       id il psize 1;                                (* 317-326 *)
  let outbuf := match ob with Some b => b | None => outbuf end in
  if hl =? 0 then Some (0, outbuf) else                              (* 328 *)
  let fl := hfl h in
  if fl >=? outsize then Some (0, outbuf) else                       (* 331 *)
  do outbuf <- (if psize >? 0                                        (* 333-336 *)
                then do body <- sub ptext 0 psize;
                     blit outbuf (getBodyOffset h) body
                else Some outbuf);
  do crc <- computeNonSecureCRC h outbuf outsize;                    (* 338 *)
  do outbuf <- wr outbuf fl crc;                                     (* 339 *)
  Some (u8 (fl + 1), outbuf).                                        (* 341 *)

(** decodeNonsecure, .cpp 366-380.  fd.sfh = [h], fd.ctext = [ctext],
    fd.ctextLen is a reference to ctext[0] (.h 396). *)
Definition decodeNonsecure (h : Hdr) (ctext : option (list Z)) : option Z :=
  match ctext with
  | None => Some 0                                                   (* 368 *)
  | Some b =>
    if isInvalid h then Some 0 else                                  (* 370 *)
    let fl := hfl h in
    if negb (1 =? getTl h) then Some 0 else                          (* 373 *)
    do len <- rd b 0;
    do crc <- computeNonSecureCRC h b len;                           (* 375 *)
    if crc =? 0 then Some 0 else                                     (* 376 *)
    do t <- rd b fl;                                                 (* 377 *)
    if negb (t =? crc) then Some 0 else
    Some (u8 (fl + 1))                                               (* 379 *)
  end.

(** generateNonsecureBeacon, .cpp 774-780: empty body, type FTS_ALIVE. *)
Definition generateNonsecureBeacon (outbuf : list Z) (outsize seqNum : Z)
    (id : option (list Z)) (il : Z) : option (Z * list Z) :=
  encodeNonsecure [] 0 outbuf outsize FTS_ALIVE seqNum id il.
