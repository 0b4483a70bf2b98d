(** Model of the per-node receive message counters:
    /repo/content/OTRadioLink/utility/OTRadioLink_SecureableFrameType_V0p2Impl.cpp 330-508, 531-534. *)
From Verif Require Import Base CrcModel SecureModel EepromModel TxCtrModel.

Definition CNT0 := 8.      (* OTV0P2BASE_EEPROM.h 224 *)
Definition CNT1 := 16.     (* OTV0P2BASE_EEPROM.h 226 *)

(** getLastRXMsgCtrFromTable, 335-356. *)
Definition readCtr (loc : Z) : M (option (list Z)) :=
  run raw <- read_block loc 6;                                       (* 344 *)
  let counter := map inv8 raw in                                     (* 345 *)
  run crcRAW <- ee_read (loc + 6);                                   (* 350 *)
  if negb (crc7_run 0 counter =? inv8 crcRAW) then ret None          (* 352-354 *)
  else ret (Some counter).                                           (* 355 *)

(** The unary increment as uint8_t, 385-387 and 470-472. *)
Definition readIncr (row : Z) : M Z :=
  run vm <- ee_read (row + CNT0 + 7);
  run vl <- ee_read (row + CNT1 + 7);
  ret (u8 (unary2_decode vm vl)).

(** Primary, else secondary: 389-391 and 457-459. *)
Definition readBase (row : Z) : M (option (list Z)) :=
  run p <- readCtr (row + CNT0);
  match p with
  | Some c => ret (Some c)
  | None => readCtr (row + CNT1)
  end.

(** getLastRXMsgCtr, 369-393 ([id] 8 bytes, counter non-NULL); None = false.
    msgcounteradd on a 6-byte buffer always has a result (theorem
    C09_add_behaviour), so its [None] (out-of-bounds) case is unreachable. *)
Definition getLastRXMsgCtr (id : list Z) : M (option (list Z)) :=
  run ix <- getNextMatchingNodeID 0 (Some id) 8;                     (* 374 *)
  match ix with
  | None => ret None                                                 (* 375 *)
  | Some (index, _) =>
    let row := row_addr index in                                     (* 378 *)
    run incr <- readIncr row;                                        (* 385 *)
    run c <- readBase row;                                           (* 389-390 *)
    match c with
    | None => ret None                                               (* 391 *)
    | Some c =>
      match msgcounteradd c incr with                                (* 392 *)
      | Some (true, c') => ret (Some c')
      | _ => ret None
      end
    end
  end.

(** validateRXMsgCtr, OTRadioLink_SecureableFrameType.cpp 672-681. *)
Definition validateRX (id new : list Z) : M bool :=
  run cur <- getLastRXMsgCtr id;                                     (* 678 *)
  match cur with
  | None => ret false
  | Some cur =>
    match msgcountercmp new cur with                                 (* 680 *)
    | Some r => ret (r >? 0)
    | None => ret false
    end
  end.

(** updateRXMessageCount, 399-421. *)
Definition updateRXMessageCount (loc : Z) (new : list Z) : M bool :=
  run _ <- smart_clear_bits (loc + 6) 127;                           (* 402-403 *)
  let crc := crc7_run 0 new in                                       (* 405-406 *)
  run ok <- save_checked loc new;                                    (* 409-415: same loop as TX 89-94 *)
  if negb (ok : bool) then ret false else
  run _ <- smart_update (loc + 6) (inv8 crc);                        (* 407, 417 *)
  run v <- ee_read (loc + 6);
  ret (inv8 crc =? v).                                               (* 418-420 *)

(** The search 478-496: the increment in [incr..16] giving exactly [new]. *)
Fixpoint unary_find (base new : list Z) (incr : Z) (fuel : nat) : option Z :=
  match fuel with
  | O => None
  | S fuel' =>
    if incr >? 16 then None else                                     (* 478, 497 *)
    match msgcounteradd base incr with
    | Some (true, tot) =>
      match msgcountercmp tot new with
      | Some r => if r =? 0 then Some incr                           (* 483 *)
                  else unary_find base new (incr + 1) fuel'
      | None => None
      end
    | _ => None                                                      (* 482 *)
    end
  end.

(** authAndUpdateRXMsgCtr, 431-508. *)
Definition authAndUpdateRXMsgCtr (id new : list Z) : M bool :=
  run ok <- validateRX id new;                                       (* 434 *)
  if negb (ok : bool) then ret false else
  run ix <- getNextMatchingNodeID 0 (Some id) 8;                     (* 436 *)
  match ix with
  | None => ret false                                                (* 437 *)
  | Some (index, _) =>
    let row := row_addr index in                                     (* 440 *)
    run base <- readBase row;                                        (* 456-459 *)
    match base with
    | None => ret false
    | Some base =>
      match msgcounteradd base 16 with                               (* 461-463 *)
      | Some (true, maxu) =>
        match msgcountercmp maxu new with
        | None => ret false
        | Some r =>
          if r >=? 0 then                                            (* 466 *)
            run cur <- readIncr row;                                 (* 470-472 *)
            match unary_find base new cur 17 with                    (* 478-484 *)
            | None => ret false                                      (* 482, 497 *)
            | Some n =>
              let v := unary2_encode n in                            (* 486 *)
              run _ <- smart_update (row + CNT1 + 7) (u8 v);         (* 488, 491 *)
              run _ <- smart_update (row + CNT0 + 7) (u8 (Z.shiftr v 8)); (* 487, 492 *)
              ret true                                               (* 494 *)
            end
          else
            run ok <- updateRXMessageCount (row + CNT0) new;         (* 501 *)
            if negb (ok : bool) then ret false else
            run ok <- updateRXMessageCount (row + CNT1) new;         (* 502 *)
            if negb (ok : bool) then ret false else
            run _ <- smart_erase (row + CNT1 + 7);                   (* 505 *)
            run _ <- smart_erase (row + CNT0 + 7);                   (* 506 *)
            ret true                                                 (* 507 *)
        end
      | _ => ret false                                               (* 463 *)
      end
    end
  end.
