(** Model of the secure transmit message counter:
    /repo/content/OTRadioLink/utility/OTRadioLink_SecureableFrameType_V0p2Impl.cpp 62-328,
    and of avr-libc's _crc8_ccitt_update (documented C equivalent in util/crc16.h;
    not part of /repo, polynomial stated in OTV0P2BASE_CRC.h 71). *)
From Verif Require Import Base EepromModel.

(** avr-libc _crc8_ccitt_update(inCrc, inData):
      data = inCrc ^ inData;
      for 8 times: if(data & 0x80) { data <<= 1; data ^= 0x07; } else { data <<= 1; }
      return data; *)
Definition crc8_bit (d : Z) : Z :=
  if negb (Z.land d 128 =? 0) then Z.lxor (u8 (Z.shiftl d 1)) 7 else u8 (Z.shiftl d 1).
Definition crc8_update (crc d : Z) : Z :=
  crc8_bit (crc8_bit (crc8_bit (crc8_bit (crc8_bit (crc8_bit (crc8_bit (crc8_bit (Z.lxor crc d)))))))).
(** The loops at 140-141, 159-160, 217-218 (txNVCtrPrefixBytes = 3,
    OTRadioLink_SecureableFrameType.h SimpleSecureFrame32or0BodyTXBase). *)
Definition crc8_3 (a b c : Z) : Z := crc8_update (crc8_update (crc8_update 0 a) b) c.

Definition TXC_START := 104.     (* OTV0P2BASE_EEPROM.h VOP2BASE_EE_START_PERSISTENT_MSG_RESTART_CTR *)
Definition TXC_LEN := 8%nat.     (* VOP2BASE_EE_LEN_PERSISTENT_MSG_RESTART_CTR *)
Definition inv8 (b : Z) : Z := Z.lxor b 255.

Definition Ctr3 := (Z * Z * Z)%type.

(** loadRaw3BytePersistentTXRestartCounterFromEEPROM, 67-75. *)
Definition loadRawTX : M (list Z) :=
  run l <- read_block TXC_START TXC_LEN; ret (map inv8 l).

(** saveRaw3BytePersistentTXRestartCounterToEEPROM, 85-96. *)
Fixpoint save_checked (p : Z) (l : list Z) : M bool :=
  match l with
  | [] => ret true                                                   (* 95 *)
  | x :: r =>
    let b := inv8 x in                                               (* 91 *)
    run _ <- smart_update p b;                                       (* 92 *)
    run v <- ee_read p;
    if negb (b =? v) then ret false                                  (* 93 *)
    else save_checked (p + 1) r
  end.
Definition saveRawTX (l : list Z) : M bool := save_checked TXC_START l.

(** Random bytes available to one call: getSecureRandomByte() as uint8_t.
    [rn] are those used by the reset, [re] those used for the ephemeral part. *)
Record Rnd := mkRnd { rn : Ctr3; re : Ctr3 }.
Definition mask4 (x : Z) : Z := Z.land 15 (Z.lxor x (Z.shiftr x 4)).  (* 136, 287 *)

(** resetRaw3BytePersistentTXRestartCounterInEEPROM, 109-152. *)
Definition reset_noise (r : Ctr3) : Ctr3 :=
  let '(n0, n1, n2) := r in
  let n0 := mask4 (u8 n0) in                                         (* 136 *)
  let n1 := u8 n1 in
  let n2 := u8 n2 in
  (n0, n1, if (0 =? n1) && (0 =? n0) then Z.lor n2 1 else n2).       (* 138 *)
Fixpoint erase_checked (p : Z) (n : nat) : M bool :=
  match n with
  | O => ret true
  | S n' => run _ <- smart_erase p;                                  (* 125 *)
            run v <- ee_read p;
            if negb (255 =? v) then ret false                        (* 126 *)
            else erase_checked (p + 1) n'
  end.
Definition two_copies (c : Ctr3) : list Z :=
  let '(a, b, l) := c in
  let crc := crc8_3 a b l in [a; b; l; crc; a; b; l; crc].           (* 139-148; 217-225 *)
Definition resetTX (allZeros : bool) (r : Ctr3) : M bool :=
  if allZeros then erase_checked TXC_START TXC_LEN                   (* 120-128 *)
  else run _ <- saveRawTX (two_copies (reset_noise r));              (* 131-149 *)
       ret true.                                                     (* 151 *)

(** readOne3BytePersistentTXRestartCounter, 155-174, on bytes base[0..3]. *)
Definition readOne (b0 b1 b2 b3 : Z) : option Ctr3 :=
  if negb (crc8_3 b0 b1 b2 =? b3) then None else                     (* 168 *)
  if (255 =? b0) && (255 =? b1) && (255 =? b2) then None else        (* 170 *)
  Some (b0, b1, b2).                                                 (* 172 *)
(** read3BytePersistentTXRestartCounter, 184-190. *)
Definition read3 (l : list Z) : option Ctr3 :=
  match readOne (znth l 0) (znth l 1) (znth l 2) (znth l 3) with
  | Some c => Some c                                                 (* 187 *)
  | None => readOne (znth l 4) (znth l 5) (znth l 6) (znth l 7)      (* 189 *)
  end.
(** getTXNVCtrPrefix, 196-201. *)
Definition getTXNVCtrPrefix : M (option Ctr3) :=
  run l <- loadRawTX; ret (read3 l).

(** The increment loop 211-215 (and 302-310), unrolled over the 3 bytes:
    new bytes, and true if the top byte overflowed. *)
Definition bump3 (c : Ctr3) : Ctr3 * bool :=
  let '(a, b, l) := c in
  let l := u8 (l + 1) in
  if negb (0 =? l) then (a, b, l, false) else
  let b := u8 (b + 1) in
  if negb (0 =? b) then (a, b, l, false) else
  let a := u8 (a + 1) in
  if negb (0 =? a) then (a, b, l, false) else (a, b, l, true).

(** incrementTXNVCtrPrefix(loadBuf), 207-227: new contents of loadBuf. *)
Definition incrementBuf (l : list Z) : option (list Z) :=
  match read3 l with
  | None => None                                                     (* 210 *)
  | Some c =>
    let (c, ovf) := bump3 c in
    if (ovf : bool) then None                                        (* 214 *)
    else Some (two_copies c)                                         (* 216-226 *)
  end.
(** incrementTXNVCtrPrefix(), 232-240. *)
Definition incrementTXNVCtrPrefix : M bool :=
  run l <- loadRawTX;                                                (* 236 *)
  match incrementBuf l with
  | None => ret false                                                (* 237 *)
  | Some l => saveRawTX l                                            (* 238-239 *)
  end.

(** Static (RAM) state of getNextTXMsgCtr: zero/false at every restart. *)
Record TxRam := mkTxRam { inited : bool; eph : Ctr3 }.
Definition TxRam0 := mkTxRam false (0, 0, 0).                        (* 254, 274 *)

(** getNextTXMsgCtr, 247-328 (buf non-NULL): 6 bytes, or None for false. *)
Definition getNextTXMsgCtr (ram : TxRam) (r : Rnd) : M (option (list Z) * TxRam) :=
  let doInit := negb (inited ram) in                                 (* 255 *)
  run pre <- (if doInit then                                         (* 264-271 *)
                run p <- getTXNVCtrPrefix;
                match p with
                | None => ret None                                   (* 266 *)
                | Some (b0, b1, b2) =>
                  if (0 =? b0) && (0 =? b1) && (0 =? b2) then        (* 267 *)
                    run ok <- resetTX false (rn r);                  (* 268 *)
                    ret (if (ok : bool) then Some false else None)
                  else ret (Some true)                               (* 270 *)
                end
              else ret (Some false));
  match pre with
  | None => ret (None, mkTxRam true (eph ram))                       (* 256 *)
  | Some incr0 =>
    let e := if doInit then                                          (* 281-299 *)
               let '(e0, e1, e2) := re r in (mask4 (u8 e0), u8 e1, u8 e2)
             else eph ram in
    let (e, ovf) := bump3 e in                                       (* 302-310 *)
    let incr := incr0 || ovf in
    let ram := mkTxRam true e in
    run ok <- (if incr then incrementTXNVCtrPrefix else ret true);   (* 318-322 *)
    if negb (ok : bool) then ret (None, ram) else
    run p <- getTXNVCtrPrefix;                                       (* 325 *)
    match p with
    | None => ret (None, ram)
    | Some (b0, b1, b2) =>
      let '(e0, e1, e2) := e in
      ret (Some [b0; b1; b2; e0; e1; e2], ram)                       (* 313, 325-327 *)
    end
  end.

(** ** Life of a node: any sequence of calls, each possibly cut short by a power
    failure after [budget] EEPROM operations (then the node restarts), and of
    clean restarts between calls. *)
Inductive TxEv := TxCall (r : Rnd) (budget : nat) | TxRestart.
Inductive TxOut := Issued (c : list Z) | Refused | Crashed | Restarted.

Definition tx_step (st : EE * TxRam) (e : TxEv) : (EE * TxRam) * TxOut :=
  let (s, ram) := st in
  match e with
  | TxRestart => ((s, TxRam0), Restarted)
  | TxCall r budget =>
    match getNextTXMsgCtr ram r s budget with
    | (s', None) => ((s', TxRam0), Crashed)
    | (s', Some ((Some c, ram'), _)) => ((s', ram'), Issued c)
    | (s', Some ((None, ram'), _)) => ((s', ram'), Refused)
    end
  end.
Fixpoint tx_life (st : EE * TxRam) (evs : list TxEv) : list TxOut :=
  match evs with
  | [] => []
  | e :: r => let (st', o) := tx_step st e in o :: tx_life st' r
  end.
Fixpoint tx_end (st : EE * TxRam) (evs : list TxEv) : EE * TxRam :=
  match evs with
  | [] => st
  | e :: r => tx_end (fst (tx_step st e)) r
  end.
