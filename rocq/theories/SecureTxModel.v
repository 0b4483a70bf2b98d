(** The V0p2 transmitter: SimpleSecureFrame32or0BodyTXBase::encode,
    encodeValveFrame, generateSecureBeacon with the EEPROM-backed ID and message
    counter of SimpleSecureFrame32or0BodyTXV0p2
    (OTRadioLink_SecureableFrameType_V0p2Impl.cpp 247-328, 512-518). *)
From Verif Require Import Base FrameModel SecureModel EepromModel TxCtrModel.

(** Transmitter state: EEPROM, static RAM of getNextTXMsgCtr, the entropy
    available to the next call, and the number of EEPROM byte operations that can
    still complete before the power fails ([None]: it has failed). *)
Record TxS := mkTxS { tx_ee : EE; tx_ram : TxRam; tx_rnd : Rnd; tx_pow : option nat }.
Definition tx_id (s : TxS) : option (list Z) :=                           (* V0p2Impl 512-518; EEPROM 20..27 *)
  Some (map (mem (tx_ee s)) [20; 21; 22; 23; 24; 25; 26; 27]).
Definition tx_next (s : TxS) : option (list Z) * TxS :=                   (* V0p2Impl 247-328 *)
  match tx_pow s with
  | None => (None, s)
  | Some f =>
    match getNextTXMsgCtr (tx_ram s) (tx_rnd s) (tx_ee s) f with
    | (e', Some ((c, ram'), f')) => (c, mkTxS e' ram' (tx_rnd s) (Some f'))
    | (e', None) => (None, mkTxS e' TxRam0 (tx_rnd s) None)
    end
  end.

(** One request to send: a generic body, a valve frame, or a beacon, with the
    caller's buffers, sizes, ID length, scratch size and key. *)
Inductive SendReq :=
| ReqBody (ptext : option (list Z)) (plen : Z) (out : option (list Z)) (outsize ty il ss : Z) (key : option (list Z))
| ReqValve (ptext : option (list Z)) (out : option (list Z)) (outsize il pc ss : Z) (key : option (list Z))
| ReqBeacon (buf : option (list Z)) (il ss : Z) (key : option (list Z)).
Definition send (e : Enc) (s : TxS) (q : SendReq) : option (Z * TxS * option (list Z) * option (list Z)) :=
  match q with
  | ReqBody ptext plen out n ty il ss key => encode TxS tx_id tx_next s e ptext plen out n ty il ss key
  | ReqValve ptext out n il pc ss key => encodeValveFrame TxS tx_id tx_next s e ptext out n il pc ss key
  | ReqBeacon buf il ss key => generateSecureBeacon TxS tx_id tx_next s e buf il ss key
  end.

(** Life of a transmitter: requests (with the entropy and remaining power
    available), and clean restarts between them. *)
Inductive SEv := SSend (r : Rnd) (budget : nat) (q : SendReq) | SRestart.
Inductive SOut := Sent (frame : list Z) | NotSent | PowerLost | SRestarted.
Definition send_step (e : Enc) (st : EE * TxRam) (ev : SEv) : option ((EE * TxRam) * SOut) :=
  match ev with
  | SRestart => Some ((fst st, TxRam0), SRestarted)
  | SSend r f q =>
    do (n, s', _, o) <- send e (mkTxS (fst st) (snd st) r (Some f)) q;
    Some ((tx_ee s', tx_ram s'),
      match tx_pow s' with
      | None => PowerLost
      | Some _ => if n =? 0 then NotSent else
                  match o with Some b => Sent (firstn (Z.to_nat n) b) | None => NotSent end
      end)
  end.
Fixpoint send_life (e : Enc) (st : EE * TxRam) (evs : list SEv) : option (list SOut) :=
  match evs with
  | [] => Some []
  | ev :: r => do (st', o) <- send_step e st ev; do os <- send_life e st' r; Some (o :: os)
  end.
