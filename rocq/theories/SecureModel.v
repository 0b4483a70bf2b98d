(** Model of the secure ('O' / 0x80 style) frame layer:
    /repo/content/OTRadioLink/utility/OTRadioLink_SecureableFrameType.{h,cpp}.

    The AES-GCM primitives are function parameters, exactly as in the code
    (fixed32BTextSize12BNonce16BTagSimpleEnc_fn_t, .h 525-530, and
    ..Dec_fn_t, .h 856-861).  Workspace/scratch areas are represented by their
    sizes only: their contents are never read before being written.

    [None] is undefined behaviour. *)
From Verif Require Import Base FrameModel.

(** e(workspaceSize, key, iv, authtext, plaintext-or-NULL):
    [Some (ciphertext, tag)] if it returns true, [None] if false (in that case
    the output bytes are modelled as untouched; the caller reports failure). *)
Definition Enc := Z -> list Z -> list Z -> list Z -> option (list Z) -> option (list Z * list Z).
(** d(workspaceSize, key, iv, authtext, ciphertext-or-NULL, tag):
    [Some plaintextOut] if it returns true, [None] if false. *)
Definition Dec := Z -> list Z -> list Z -> list Z -> option (list Z) -> list Z -> option (list Z).

Definition ENC_BODY_SMALL_FIXED_CTEXT_SIZE := 32.       (* .h 126 *)
Definition ENC_BODY_SMALL_FIXED_PTEXT_MAX_SIZE := 31.   (* .h 129-130 *)
Definition ptextLenMax := 31.                           (* .h 402 *)
Definition fullMsgCtrBytes := 6.                        (* .h 472 *)
Definition workspaceRequred := 272.                     (* .h 521-523: 176+96 *)
Definition encode_scratch_usage := 20.                  (* .h 706 *)
Definition encode_total_scratch_usage := 292.           (* .h 707-709 *)
Definition encodeValveFrame_scratch_usage := 12.        (* .h 777 *)
Definition encodeValveFrame_total_scratch_usage := 284. (* .h 778-780 *)
Definition decodeRaw_scratch_usage := 32.               (* .h 914-915 *)
Definition decodeFromID_scratch_usage := 12.            (* .h 1002-1003 *)
Definition decode_scratch_usage := 14.                  (* .h 1052-1054 *)

(** Size of a sub-scratch-space: OTV0P2BASE_Util.h 154-162. *)
Definition subspace (size n : Z) : Z :=
  if (0 =? n) || (size <=? n) then 0 else size - n.

(** pad32BBuffer, .cpp 640-648. *)
Definition pad32BBuffer (buf : option (list Z)) (datalen : Z) : option (Z * option (list Z)) :=
  match buf with
  | None => Some (0, None)                                           (* 642 *)
  | Some b =>
    if datalen >? 31 then Some (0, Some b) else                      (* 643 *)
    let paddingZeros := u8 (32 - 1 - datalen) in                     (* 644 *)
    do b <- wr b 31 paddingZeros;                                    (* 645 *)
    do b <- blit b datalen (repeat 0 (Z.to_nat paddingZeros));       (* 646 *)
    Some (32, Some b)                                                (* 647 *)
  end.

(** unpad32BBuffer, .cpp 661-667. *)
Definition unpad32BBuffer (buf : list Z) : option Z :=
  do paddingZeros <- rd buf 31;                                      (* 663 *)
  if paddingZeros >? 31 then Some 0 else                             (* 664 *)
  Some (u8 (32 - 1 - paddingZeros)).                                 (* 665-666 *)

(** memcmp on equal-length runs: difference of the first differing bytes
    (any value of that sign is permitted by the C standard). *)
Fixpoint memcmp (a b : list Z) : Z :=
  match a, b with
  | x :: a', y :: b' => if x =? y then memcmp a' b' else x - y
  | _, _ => 0
  end.

(** msgcountercmp, .h 812-813. *)
Definition msgcountercmp (c1 c2 : list Z) : option Z :=
  do a <- sub c1 0 6; do b <- sub c2 0 6; Some (i16 (memcmp a b)).

(** The carry loop "for(int8_t i = fullMsgCtrBytes-1; --i > 0; )
    { if(0 != ++counter[i]) { break; } }", .cpp 400: i = 4, 3, 2, 1. *)
Fixpoint ripple (counter : list Z) (is : list Z) : option (list Z) :=
  match is with
  | [] => Some counter
  | i :: r =>
      do v <- rd counter i;
      let v := u8 (v + 1) in
      do counter <- wr counter i v;
      if negb (0 =? v) then Some counter else ripple counter r
  end.

(** msgcounteradd, .cpp 385-403. *)
Definition msgcounteradd (counter : list Z) (delta : Z) : option (bool * list Z) :=
  if 0 =? delta then Some (true, counter) else                       (* 387 *)
  do lsbyte <- rd counter 5;                                         (* 390 *)
  let bumped := u8 (lsbyte + delta) in                               (* 391 *)
  if bumped >? lsbyte
  then do counter <- wr counter 5 bumped; Some (true, counter)       (* 393 *)
  else
  do top <- sub counter 0 5;
  if forallb (fun b => 255 =? b) top then Some (false, counter) else (* 395-397 *)
  do counter <- wr counter 5 bumped;                                 (* 399 *)
  do counter <- ripple counter [4; 3; 2; 1];                         (* 400 *)
  Some (true, counter).                                              (* 402 *)

(** SimpleSecureFrame32or0BodyTXBase::encodeRaw, .cpp 465-520.
    [ptext] = fd.ptext, [ptextLen] = fd.ptextLen, [outbuf]/[outsize] =
    fd.outbuf/outbufSize, [fType] = fd.fType, [wsize] = scratch.bufsize.
    Result: (return value, ptext buffer, output buffer). *)
Definition encodeRaw (e : Enc) (ptext : option (list Z)) (ptextLen : Z)
    (outbuf : option (list Z)) (outsize fType : Z) (id : option (list Z)) (il : Z)
    (iv : list Z) (wsize : Z) (key : option (list Z))
    : option (Z * option (list Z) * option (list Z)) :=
  match key with
  | None => Some (0, ptext, outbuf)                                  (* 475 *)
  | Some key =>
    let bodylen := ptextLen in                                       (* 479 *)
    if bodylen >? 31 then Some (0, ptext, outbuf) else               (* 485 *)
    let encryptedBodyLength := if 0 =? bodylen then 0 else 32 in     (* 486 *)
    do iv11 <- rd iv 11;
    let seqNum := Z.land iv11 15 in                                  (* 489 *)
    do (hl, h, outbuf) <- encodeHeader hdr0 outbuf outsize true fType seqNum
                            id il encryptedBodyLength 23;            (* 493-500 *)
    if 0 =? hl then Some (0, ptext, outbuf) else                     (* 502 *)
    let fl := hfl h in                                               (* 504 *)
    if fl >=? outsize then Some (0, ptext, outbuf) else              (* 505 *)
    do (padres, ptext) <- (if negb (0 =? bodylen)                    (* 507-510 *)
                           then pad32BBuffer ptext bodylen
                           else Some (32, ptext));
    if 0 =? padres then Some (0, ptext, outbuf) else
    match outbuf with
    | None => None
    | Some buffer =>
      do aad <- sub buffer 0 hl;
      do pt <- (if 0 =? bodylen then Some None
                else match ptext with
                     | None => None
                     | Some p => do t <- sub p 0 32; Some (Some t)
                     end);
      match e wsize key iv aad pt with                               (* 513 *)
      | None => Some (0, ptext, outbuf)
      | Some (ct, tag) =>
        do buffer <- (match pt with
                      | None => Some buffer
                      | Some _ => blit buffer hl ct end);
        do buffer <- blit buffer (fl - 16) tag;
        do ctr <- sub iv 6 6;
        do buffer <- blit buffer (fl - 22) ctr;                      (* 515 *)
        do buffer <- wr buffer fl 128;                               (* 517 *)
        Some (u8 (fl + 1), ptext, Some buffer)                       (* 519 *)
      end
    end
  end.

(** SimpleSecureFrame32or0BodyRXBase::decodeRaw, .cpp 574-628.
    [h] = fd.sfh, [ctext] = fd.ctext, [ptext] = fd.ptext, [ssize] =
    scratch.bufsize, [plen] = fd.ptextLen on entry.
    Result: (return value, ptext buffer, fd.ptextLen). *)
Definition decodeRaw (d : Dec) (h : Hdr) (ctext ptext : option (list Z)) (plen : Z)
    (ssize : Z) (key iv : option (list Z)) : option (Z * option (list Z) * Z) :=
  let fail := Some (0, ptext, plen) in
  if decodeRaw_scratch_usage >? ssize then fail else                 (* 584 *)
  match ctext, key, iv with                                          (* 588 *)
  | Some buf, Some key, Some iv =>
    do b0 <- rd buf 0;
    let buflen := u8 (b0 + 1) in                                     (* 591 *)
    if isInvalid h then fail else                                    (* 595 *)
    let fl := hfl h in                                               (* 597 *)
    if fl >=? buflen then fail else                                  (* 598 *)
    if negb (23 =? getTl h) then fail else                           (* 599 *)
    do last <- rd buf fl;
    if negb (128 =? last) then fail else                             (* 600 *)
    let bl := hbl h in                                               (* 601 *)
    if negb (0 =? bl) && negb (32 =? bl) then fail else              (* 602 *)
    do iv11 <- rd iv 11;
    if negb (getSeq h =? Z.land iv11 15) then fail else              (* 604 *)
    do aad <- sub buf 0 (getHl h);
    do ct <- (if 0 =? bl then Some None
              else do c <- sub buf (getBodyOffset h) 32; Some (Some c));
    do tag <- sub buf (fl - 16) 16;
    match d (ssize - decodeRaw_scratch_usage) key iv aad ct tag with (* 610-613 *)
    | None => fail
    | Some decryptBuf =>
      match ptext with
      | Some p =>
        if negb (0 =? bl) then                                       (* 614 *)
          do upbl <- unpad32BBuffer decryptBuf;                      (* 617 *)
          if upbl >? 31 then fail else                               (* 618 *)
          if upbl >? ptextLenMax then fail else                      (* 619 *)
          do t <- sub decryptBuf 0 upbl;
          do p <- blit p 0 t;                                        (* 620 *)
          Some (u8 (fl + 1), Some p, upbl)                           (* 621, 627 *)
        else Some (u8 (fl + 1), ptext, 0)                            (* 625, 627 *)
      | None => Some (u8 (fl + 1), ptext, 0)
      end
    end
  | _, _, _ => fail
  end.

(** fixed32BTextSize12BNonce16BTagSimpleEnc_NULL_IMPL, .cpp 701-717
    (all pointers non-NULL). *)
Definition enc_null : Enc := fun _ _ iv _ pt =>
  Some (match pt with Some p => firstn 32 p | None => [] end, firstn 12 iv ++ [0; 0; 0; 0]).
(** fixed32BTextSize12BNonce16BTagSimpleDec_NULL_IMPL, .cpp 737-753. *)
Definition dec_null : Dec := fun _ _ iv _ ct tag =>
  if negb (znth tag 0 =? znth iv 0) || negb (0 =? znth tag 15) then None
  else Some (match ct with Some c => firstn 32 c | None => [] end).

(** ** Transmission.  The virtual functions getTXID and getNextTXMsgCtr of the
    TX object are parameters over its state [S]. *)
Section Tx.
Variable S : Type.
Variable getTXID : S -> option (list Z).                 (* 8 bytes, None = false *)
Variable getNextTXMsgCtr : S -> option (list Z) * S.     (* 6 bytes, None = false *)

(** computeIVForTX12B, .h 659-666: ID then counter over bytes 6..11. *)
Definition computeIVForTX12B (s : S) : option (list Z) * S :=
  match getTXID s with
  | None => (None, s)                                                (* 663 *)
  | Some idb =>
    match getNextTXMsgCtr s with                                     (* 665 *)
    | (Some ctr, s) => (Some (firstn 6 idb ++ ctr), s)
    | (None, s) => (None, s)
    end
  end.

(** encode, .cpp 820-849. Result: (return value, state, ptext, outbuf). *)
Definition encode (s : S) (e : Enc) (ptext : option (list Z)) (ptextLen : Z)
    (outbuf : option (list Z)) (outsize fType il ssize : Z) (key : option (list Z))
    : option (Z * S * option (list Z) * option (list Z)) :=
  if ssize <? encode_total_scratch_usage then Some (0, s, ptext, outbuf) else (* 830 *)
  if (fType >=? FTS_INVALID_HIGH) || (fType =? FTS_NONE)
  then Some (0, s, ptext, outbuf) else                               (* 832 *)
  match computeIVForTX12B s with                                     (* 835 *)
  | (None, s) => Some (0, s, ptext, outbuf)
  | (Some iv, s) =>
    let longID := il >? 6 in                                         (* 839 *)
    match (if longID then getTXID s else Some iv) with
    | None => Some (255, s, ptext, outbuf)                           (* 841 *)
    | Some actualID =>                                               (* 846 *)
      do (r, p, o) <- encodeRaw e ptext ptextLen outbuf outsize fType
                        (Some actualID) il iv
                        (subspace ssize encode_scratch_usage) key;   (* 844, 848 *)
      Some (r, s, p, o)
    end
  end.

(** generateSecureBeacon, .h 729-739: the OTEncodeData_T is built as
    (ptext = buf.buf, ptextbufSize = buf.bufsize, outbuf = NULL, outbufSize = 0). *)
Definition generateSecureBeacon (s : S) (e : Enc) (buf : option (list Z)) (il ssize : Z)
    (key : option (list Z)) :=
  encode s e buf 0 None 0 FTS_ALIVE il ssize key.

(** strlen of the text starting at [off]; None if no terminator (UB). *)
Fixpoint strlen_l (l : list Z) : option Z :=
  match l with
  | [] => None
  | c :: r => if c =? 0 then Some 0 else do n <- strlen_l r; Some (1 + n)
  end.

(** encodeValveFrame, .cpp 887-927. *)
Definition encodeValveFrame (s : S) (e : Enc) (ptext : option (list Z))
    (outbuf : option (list Z)) (outsize il valvePC ssize : Z) (key : option (list Z))
    : option (Z * S * option (list Z) * option (list Z)) :=
  if ssize <? encodeValveFrame_total_scratch_usage
  then Some (0, s, ptext, outbuf) else                               (* 898 *)
  match computeIVForTX12B s with                                     (* 905 *)
  | (None, s) => Some (0, s, ptext, outbuf)
  | (Some iv, s) =>
    do hasStats <- (match ptext with
                    | None => Some false
                    | Some p => do c <- rd p 2; Some (c =? 123)
                    end);                                            (* 908: '{' *)
    do slp1 <- (if (hasStats : bool)
                then match ptext with None => None
                     | Some p => strlen_l (skipn 2 p) end
                else Some 1);                                        (* 909 *)
    if slp1 >? 30 then Some (0, s, ptext, outbuf) else               (* 910 *)
    match ptext with
    | None => None                                                   (* 912: NULL write *)
    | Some p =>
      let statslen := u8 (slp1 - 1) in                               (* 911 *)
      do p <- wr p 0 (if valvePC <=? 100 then valvePC else 127);     (* 912 *)
      do p <- wr p 1 (if hasStats then 16 else 0);                   (* 913 *)
      if il >? 6 then Some (0, s, Some p, outbuf) else               (* 917 *)
      do (r, p, o) <- encodeRaw e (Some p) (if hasStats then u8 (2 + statslen) else 2)
                        outbuf outsize FTS_BasicSensorOrValve (Some iv) il iv
                        (subspace ssize encodeValveFrame_scratch_usage) key; (* 916-926 *)
      Some (r, s, p, o)
    end
  end.
End Tx.

(** ** Reception.  The virtual functions of the RX object over its state [S]. *)
Section Rx.
Variable S : Type.
Variable getNextMatchingNodeID : S -> Z -> Hdr -> option (Z * list Z). (* index>=0, 8-byte ID *)
Variable getLastRXMsgCtr : S -> list Z -> option (list Z).
Variable authAndUpdateRXMsgCtr : S -> list Z -> list Z -> bool * S.

(** validateRXMsgCtr, .cpp 672-681. *)
Definition validateRXMsgCtr (s : S) (id counter : list Z) : option bool :=
  match getLastRXMsgCtr s id with
  | None => Some false                                               (* 678 *)
  | Some cur => do c <- msgcountercmp counter cur; Some (c >? 0)     (* 680 *)
  end.

(** _decodeFromID, .cpp 972-997 (adjID is an 8-byte buffer). *)
Definition decodeFromID (d : Dec) (h : Hdr) (ctext : list Z) (ptext : option (list Z))
    (plen ssize : Z) (adjID : list Z) (key : option (list Z)) : option (Z * option (list Z) * Z) :=
  if decodeFromID_scratch_usage >? ssize then Some (0, ptext, plen) else (* 981 *)
  if Zlen adjID <? 6 then Some (0, ptext, plen) else                 (* 985 *)
  do b0 <- rd ctext 0;
  let buflen := u8 (b0 + 1) in                                       (* 987 *)
  if getTrailerOffset h + 6 >? buflen then Some (0, ptext, plen) else(* 988 *)
  do idp <- sub adjID 0 6;                                           (* 993 *)
  do ctr <- sub ctext (getTrailerOffset h) 6;                        (* 994 *)
  decodeRaw d h (Some ctext) ptext plen (subspace ssize decodeFromID_scratch_usage)
            key (Some (idp ++ ctr)).                                 (* 996 *)

(** decode, .cpp 1037-1088.  Result:
    (return value, RX state, ptext, ptextLen, fd.id). *)
Definition decode (s : S) (d : Dec) (h : Hdr) (ctext ptext : option (list Z))
    (plen : Z) (fdid : list Z) (ssize : Z) (key : option (list Z))
    : option (Z * S * option (list Z) * Z * list Z) :=
  if decode_scratch_usage >? ssize then Some (0, s, ptext, plen, fdid) else (* 1047 *)
  match ctext with
  | None => Some (0, s, ptext, plen, fdid)                           (* 1053 *)
  | Some b =>
    if isInvalid h then Some (0, s, ptext, plen, fdid) else          (* 1055 *)
    if negb (23 =? getTl h) then Some (0, s, ptext, plen, fdid) else (* 1058 *)
    match getNextMatchingNodeID s 0 h with                           (* 1065-1066 *)
    | None => Some (0, s, ptext, plen, fdid)
    | Some (_, nodeID) =>
      do ctr <- sub b (getTrailerOffset h) 6;                        (* 1074-1076 *)
      do ok <- validateRXMsgCtr s nodeID ctr;
      if negb ok then Some (0, s, ptext, plen, fdid) else            (* 1077 *)
      do (r, ptext, plen) <- decodeFromID d h b ptext plen
                  (subspace ssize decode_scratch_usage) nodeID key;  (* 1081 *)
      if 0 =? r then Some (0, s, ptext, plen, fdid) else             (* 1082 *)
      match authAndUpdateRXMsgCtr s nodeID ctr with                  (* 1084 *)
      | (false, s) => Some (0, s, ptext, plen, fdid)
      | (true, s) => Some (r, s, ptext, plen, nodeID)                (* 1086-1087 *)
      end
    end
  end.
End Rx.
