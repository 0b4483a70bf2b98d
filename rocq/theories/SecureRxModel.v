(** The V0p2 receiver: SimpleSecureFrame32or0BodyRXBase::decode
    (OTRadioLink_SecureableFrameType.cpp 1037-1088) with the EEPROM-backed virtual
    functions of SimpleSecureFrame32or0BodyRXV0p2
    (OTRadioLink_SecureableFrameType_V0p2Impl.cpp 330-508, 531-534). *)
From Verif Require Import Base FrameModel FrameSpec SecureModel EepromModel RxCtrModel.

(** Receiver state: EEPROM, and the number of EEPROM byte operations that can
    still complete before the power fails ([None]: it has failed). *)
Definition RxS : Type := EE * option nat.
(** Pure reads are run with no budget: they perform no EEPROM operation. *)
Definition rx_lookup (s : RxS) (_ : Z) (h : Hdr) : option (Z * list Z) :=  (* V0p2Impl 531-534 *)
  match getNextMatchingNodeID 0 (Some (hid h)) (getIl h) (fst s) 0%nat with
  | (_, Some (r, _)) => r | _ => None end.
Definition rx_last (s : RxS) (id : list Z) : option (list Z) :=            (* V0p2Impl 369-393 *)
  match getLastRXMsgCtr id (fst s) 0%nat with (_, Some (r, _)) => r | _ => None end.
Definition rx_auth (s : RxS) (id c : list Z) : bool * RxS :=               (* V0p2Impl 431-508 *)
  match snd s with
  | None => (false, s)
  | Some f =>
    match authAndUpdateRXMsgCtr id c (fst s) f with
    | (s', Some (ok, f')) => (ok, (s', Some f'))
    | (s', None) => (false, (s', None))
    end
  end.
Definition decodeV0p2 (s : RxS) (d : Dec) (h : Hdr) (ctext ptext : option (list Z)) (plen : Z)
    (fdid : list Z) (ssize : Z) (key : option (list Z)) :=
  decode RxS rx_lookup rx_last rx_auth s d h ctext ptext plen fdid ssize key.

(** One received frame as handled by the callers (OTRadioLink_Messaging): header
    decoded from the frame, then decode().  [RxRej]: decode() returned 0. *)
Record RxFrame := mkRxFrame { fr_buf : list Z; fr_ptext : option (list Z); fr_scratch : Z;
                              fr_key : option (list Z); fr_power : nat }.
Inductive FrOut := FrAcc (id : list Z) | FrRej | FrLost.
(** [None]: undefined behaviour. *)
Definition rx_frame (d : Dec) (s : EE) (e : RxFrame) : option (EE * FrOut) :=
  do (hl, h) <- decodeHeader hdr0 (Some (fr_buf e)) (Zlen (fr_buf e));
  do (r, s', pt, pl, id) <- decodeV0p2 (s, Some (fr_power e)) d h (Some (fr_buf e)) (fr_ptext e) 0
                       (repeat 0 8) (fr_scratch e) (fr_key e);
  Some (fst s', match snd s' with None => FrLost | Some _ => if r =? 0 then FrRej else FrAcc id end).
Fixpoint rx_frames (d : Dec) (s : EE) (l : list RxFrame) : option (list FrOut * EE) :=
  match l with
  | [] => Some ([], s)
  | e :: r => do (s1, o) <- rx_frame d s e; do (os, s2) <- rx_frames d s1 r; Some (o :: os, s2)
  end.
