(** Handling of received messages: OTRadioLink_Messaging.h (build with ARDUINO_ARCH_AVR), on top of the
    receiver of SecureRxModel.  Serial text is represented by its parts; diagnostic prints and serial power
    control are not modelled. *)
From Verif Require Import Base FrameModel FrameSpec SecureModel EepromModel RxCtrModel SecureRxModel.

(** What a message can make the hub do. *)
Inductive act :=
| ABoiler (pct minute : Z)                      (* remoteCallForHeatRX(0, pct, minuteCount), .h 174 *)
| ARelay (frame : list Z)                       (* queueToSend(frame) on the relay radio, .h 150 *)
| ASerial (id : list Z) (seq : Z) (txt : list Z). (* serial line with node ID, sequence number and text, .h 111-117 *)

(** OTDecodeData_T as the operators see it (SecureableFrameType.h 383-408). *)
Record fdata := mkFd { fd_id : list Z; fd_seq : Z; fd_ctext : list Z; fd_ptext : list Z; fd_plen : Z }.
Inductive oper := OpNull | OpSerial | OpRelay | OpBoiler.

(** The common test "is it worth passing on", .h 107 and 149. *)
Definition worth (f : fdata) : option bool :=
  do b1 <- rd (fd_ptext f) 1;
  if Z.land b1 16 =? 0 then Some false else
  if negb (fd_plen f >? 3) then Some false else
  do b2 <- rd (fd_ptext f) 2; Some (123 =? b2).
Definition run_op (minute : Z) (o : oper) (f : fdata) : option (list act) :=
  match o with
  | OpNull => Some []                                                         (* .h 85 *)
  | OpSerial =>                                                               (* .h 100-126 *)
    do w <- worth f;
    if (w : bool) then do t <- sub (fd_ptext f) 3 (fd_plen f - 3); Some [ASerial (fd_id f) (fd_seq f) t]
    else Some []
  | OpRelay =>                                                                (* .h 140-153 *)
    do w <- worth f;
    if (w : bool) then do n <- rd (fd_ctext f) 0; do m <- sub (fd_ctext f) 1 n; Some [ARelay m] else Some []
  | OpBoiler =>                                                               (* .h 168-178 *)
    do p <- rd (fd_ptext f) 0;
    Some (if p <=? 100 then [ABoiler p minute] else [])
  end.

(** authAndDecodeOTSecurableFrame, .h 196-255: key in the first 16 bytes of the scratch space. *)
Definition authAndDecode (d : Dec) (key : option (list Z)) (ssize : Z) (s : RxS) (h : Hdr) (msg junk : list Z)
    : option (RxS * option (list Z * list Z * Z)) :=
  if ssize <? 16 then Some (s, None) else                                     (* 202 *)
  match key with
  | None => Some (s, None)                                                    (* 212-215 *)
  | Some k =>
    do (r, s', pt, pl, id) <- decodeV0p2 s d h (Some msg) (Some junk) 0 (repeat 0 8) (subspace ssize 16) (Some k); (* 218-232 *)
    match pt with
    | Some p => Some (s', if r =? 0 then None else Some (id, p, pl))
    | None => None
    end
  end.

(** decodeAndHandleOTSecureOFrame, .h 309-360.  [msg] is the buffer from the length byte on, possibly with trailing
    bytes; [junk] is the initial content of the local decryptedBodyOut[31] (uninitialised, so arbitrary).
    Result: receiver state, return value, actions. *)
Definition handle_O (d : Dec) (key : option (list Z)) (ssize minute : Z) (o1 o2 : oper) (junk : list Z)
    (s : RxS) (msg : list Z) : option (RxS * bool * list act) :=
  do firstByte <- rd msg 1;                                                   (* 316 *)
  do msglen <- rd msg 0;                                                      (* 317 *)
  do (l, h) <- decodeHeader hdr0 (Some msg) (u8 (msglen + 1));                (* 329 *)
  if l =? 0 then Some (s, false, []) else                                     (* 332 *)
  if negb (207 =? firstByte) then Some (s, false, []) else                    (* 334-335 *)
  if negb (isSecure h) then Some (s, false, []) else                          (* 338 *)
  do (s', a) <- authAndDecode d key ssize s h msg junk;                       (* 345 *)
  match a with
  | None => Some (s', true, [])                                               (* 346 *)
  | Some (id, p, pl) =>
    if 2 <? ptextLenMax then                                                  (* 350: the constant 31, not the length *)
      let f := mkFd id (getSeq h) msg p pl in
      do a1 <- run_op minute o1 f; do a2 <- run_op minute o2 f;               (* 351-352 *)
      Some (s', true, a1 ++ a2)
    else Some (s', true, [])
  end.                                                                        (* 356 *)

(** decodeAndHandleRawRXedMessage, .h 382-395, with two handlers. *)
Definition handler := RxS -> list Z -> option (RxS * bool * list act).
Definition handle_raw (h1 h2 : handler) (s : RxS) (msg : list Z) : option (RxS * list act) :=
  do msglen <- rd msg 0;
  if msglen <? 2 then Some (s, []) else                                       (* 388 *)
  do (s1, ok, a1) <- h1 s msg;
  if (ok : bool) then Some (s1, a1) else                                      (* 390 *)
  do (s2, ok2, a2) <- h2 s1 msg; Some (s2, a1 ++ a2).                         (* 391-393 *)
(** decodeAndHandleDummyFrame, .h 265-268 (also decodeAndHandleFS20Frame, MessagingFS20.h 31-34). *)
Definition handle_dummy : handler := fun s _ => Some (s, false, []).

(** OTMessageQueueHandler::handle, .h 477-523: the radio's receive queue is a list, oldest first. *)
Definition handle_queue (h1 h2 : handler) (sct : Z) (pollIO : bool) (s : RxS) (q : list (list Z))
    : option (RxS * list (list Z) * bool * list act) :=
  if sct >=? 255 / 4 * 3 then Some (s, q, false, []) else                     (* 493-494 *)
  match q with
  | [] => Some (s, [], pollIO, [])                                            (* 498, 504-506, 522 *)
  | m :: q' => do (s', a) <- handle_raw h1 h2 s m; Some (s', q', true, a)     (* 513-516 *)
  end.
