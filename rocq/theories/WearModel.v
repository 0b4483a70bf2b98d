(** Model of the secure-messaging EEPROM code on worn EEPROM cells: a byte that is erased or written may end
    up holding anything.
    content/OTRadioLink/utility/OTRadioLink_SecureableFrameType_V0p2Impl.cpp lines 77-328, 395-508,
    OTV0P2BASE_EEPROM.cpp 44-165, OTV0P2BASE_Security.cpp 107-137.
    The programs are those of TxCtrModel, RxCtrModel and EepromModel; code that only reads is used from there.
    Power failures are not modelled here, and cells only change when addressed. *)
From Verif Require Import Base CrcModel SecureModel EepromModel TxCtrModel RxCtrModel.

(** Contents, and number of physical operations so far. *)
Definition WS := ((Z -> Z) * nat)%type.
Definition WM (A : Type) := WS -> WS * A.
Definition wret {A} (a : A) : WM A := fun s => (s, a).
Definition wbind {A B} (m : WM A) (k : A -> WM B) : WM B := fun s => let (s', a) := m s in k a s'.
Notation "'wdo' x <- m ; e" := (wbind m (fun x => e)) (at level 200, x pattern, m at level 100, e at level 200).
(** What operation number n leaves in the cell at p that held [old], where a good one would leave [good]. *)
Definition Wear := nat -> Z -> Z -> Z -> Z.
Definition fresh : Wear := fun _ _ _ good => good.

Definition w_op (w : Wear) (p good : Z) : WM unit := fun '(m, t) => ((upd m p (u8 (w t p (m p) good)), S t), tt).
Definition w_read (p : Z) : WM Z := fun s => (s, fst s p).
(** A program that only reads. *)
Definition peek {A} (x : M A) (m : Z -> Z) : option A :=
  match x (mkEE m []) 0%nat with (_, Some (a, _)) => Some a | _ => None end.
Definition w_peek {A} (x : M A) : WM (option A) := fun s => (s, peek x (fst s)).

(** eeprom_smart_erase_byte, eeprom_smart_clear_bits, eeprom_smart_update_byte: OTV0P2BASE_EEPROM.cpp 64-108, 117-165, 44-56. *)
Definition w_erase (w : Wear) (p : Z) : WM unit :=
  wdo old <- w_read p; if negb (255 =? old) then w_op w p 255 else wret tt.
Definition w_clear (w : Wear) (p mask : Z) : WM unit :=
  wdo old <- w_read p; let new := Z.land old mask in if negb (old =? new) then w_op w p new else wret tt.
Definition w_update (w : Wear) (p value : Z) : WM unit :=
  if 255 =? value then w_erase w p else
  wdo old <- w_read p;
  if value =? old then wret tt else
  if value =? Z.land value old then w_clear w p value else w_op w p value.

(** saveRaw3BytePersistentTXRestartCounterToEEPROM, 85-96, and the loop 409-415. *)
Fixpoint w_save (w : Wear) (p : Z) (l : list Z) : WM bool :=
  match l with
  | [] => wret true
  | x :: r =>
    let b := inv8 x in
    wdo _ <- w_update w p b;
    wdo v <- w_read p;
    if negb (b =? v) then wret false else w_save w (p + 1) r
  end.
(** resetRaw3BytePersistentTXRestartCounterInEEPROM(false), 109-152. *)
Definition w_reset (w : Wear) (r : Ctr3) : WM bool :=
  wdo _ <- w_save w TXC_START (two_copies (reset_noise r));            (* 149: result not looked at *)
  wret true.
(** getTXNVCtrPrefix, 196-201; incrementTXNVCtrPrefix, 232-240. *)
Definition w_prefix : WM (option Ctr3) := fun s => (s, match peek getTXNVCtrPrefix (fst s) with Some c => c | None => None end).
Definition w_incr (w : Wear) : WM bool :=
  wdo l <- w_peek loadRawTX;
  match l with
  | None => wret false
  | Some l => match incrementBuf l with None => wret false | Some l => w_save w TXC_START l end
  end.
(** getNextTXMsgCtr, 247-328. *)
Definition w_next (w : Wear) (ram : TxRam) (r : Rnd) : WM (option (list Z) * TxRam) :=
  let doInit := negb (inited ram) in
  wdo pre <- (if doInit then
                wdo p <- w_prefix;
                match p with
                | None => wret None
                | Some (b0, b1, b2) =>
                  if (0 =? b0) && (0 =? b1) && (0 =? b2) then
                    wdo ok <- w_reset w (rn r); wret (if (ok : bool) then Some false else None)
                  else wret (Some true)
                end
              else wret (Some false));
  match pre with
  | None => wret (None, mkTxRam true (eph ram))
  | Some incr0 =>
    let e := if doInit then let '(e0, e1, e2) := re r in (mask4 (u8 e0), u8 e1, u8 e2) else eph ram in
    let (e, ovf) := bump3 e in
    let incr := incr0 || ovf in
    let ram := mkTxRam true e in
    wdo ok <- (if incr then w_incr w else wret true);
    if negb (ok : bool) then wret (None, ram) else
    wdo p <- w_prefix;
    match p with
    | None => wret (None, ram)
    | Some (b0, b1, b2) => let '(e0, e1, e2) := e in wret (Some [b0; b1; b2; e0; e1; e2], ram)
    end
  end.

(** updateRXMessageCount, 399-421. *)
Definition w_updateRX (w : Wear) (loc : Z) (new : list Z) : WM bool :=
  wdo _ <- w_clear w (loc + 6) 127;
  let crc := crc7_run 0 new in
  wdo ok <- w_save w loc new;
  if negb (ok : bool) then wret false else
  wdo _ <- w_update w (loc + 6) (inv8 crc);
  wdo v <- w_read (loc + 6);
  wret (inv8 crc =? v).
(** authAndUpdateRXMsgCtr, 431-508; besides the result, whether it went the way of the unary counter. *)
Definition w_accept (w : Wear) (id new : list Z) : WM (bool * bool) :=
  wdo ok <- w_peek (validateRX id new);                                (* 434 *)
  match ok with
  | Some true =>
    wdo ix <- w_peek (getNextMatchingNodeID 0 (Some id) 8);            (* 436 *)
    match ix with
    | Some (Some (index, _)) =>
      let row := row_addr index in
      wdo base <- w_peek (readBase row);                               (* 456-459 *)
      match base with
      | Some (Some base) =>
        match msgcounteradd base 16 with                               (* 461-463 *)
        | Some (true, maxu) =>
          match msgcountercmp maxu new with
          | None => wret (false, false)
          | Some r =>
            if r >=? 0 then                                            (* 466 *)
              wdo cur <- w_peek (readIncr row);
              match unary_find base new (match cur with Some c => c | None => 0 end) 17 with
              | None => wret (false, true)
              | Some n =>
                let v := unary2_encode n in
                wdo _ <- w_update w (row + CNT1 + 7) (u8 v);           (* 491 *)
                wdo _ <- w_update w (row + CNT0 + 7) (u8 (Z.shiftr v 8)); (* 492 *)
                wret (true, true)                                      (* 494 *)
              end
            else
              wdo ok <- w_updateRX w (row + CNT0) new;                 (* 501 *)
              if negb (ok : bool) then wret (false, false) else
              wdo ok <- w_updateRX w (row + CNT1) new;                 (* 502 *)
              if negb (ok : bool) then wret (false, false) else
              wdo _ <- w_erase w (row + CNT1 + 7);                     (* 505 *)
              wdo _ <- w_erase w (row + CNT0 + 7);                     (* 506 *)
              wret (true, false)                                       (* 507 *)
          end
        | _ => wret (false, false)
        end
      | _ => wret (false, false)
      end
    | _ => wret (false, false)
    end
  | _ => wret (false, false)
  end.

(** setPrimaryBuilding16ByteSecretKey, OTV0P2BASE_Security.cpp 107-126. *)
Fixpoint w_update_bytes (w : Wear) (p : Z) (l : list Z) : WM unit :=
  match l with [] => wret tt | b :: r => wdo _ <- w_update w p b; w_update_bytes w (p + 1) r end.
Fixpoint w_erase_bytes (w : Wear) (p : Z) (n : nat) : WM unit :=
  match n with O => wret tt | S n => wdo _ <- w_erase w p; w_erase_bytes w (p + 1) n end.
Definition w_setKey (w : Wear) (key : option (list Z)) : WM bool :=
  match key with
  | None => wdo _ <- w_erase_bytes w KEY_START KEY_LEN; wret true      (* 110-115 *)
  | Some k => wdo _ <- w_update_bytes w KEY_START k;                   (* 119-121 *)
              wdo ok <- w_peek (check_bytes KEY_START k);              (* 124 *)
              wret (match ok with Some b => b | None => false end)
  end.
