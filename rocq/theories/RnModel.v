(** OTRN2483Link_OTRN2483Link.{h,cpp}: the LoRa link (AVR; RN2483_ALLOW_SLEEP
    undefined, RN2483_ENABLE_ADR defined, as in the header).  The serial port
    is the list of bytes written; what its read would deliver is an input
    (SoftOld models the port itself). *)
From Coq Require Import Ascii String.
From Verif Require Import Base.
Local Close Scope string_scope.

Fixpoint chars (s : string) : list Z :=
  match s with
  | EmptyString => []
  | String c s => Z.of_N (N_of_ascii c) :: chars s
  end.

(** OTRN2483Link.cpp 442-467: the command strings. *)
Definition MAC_START := chars "mac ".
Definition MAC_DEVADDR := chars "devaddr ".
Definition MAC_APPSKEY := chars "appskey ".
Definition MAC_NWKSKEY := chars "nwkskey ".
Definition MAC_ADR := chars "adr on".
Definition MAC_SET_CH := chars "ch ".
Definition MAC_SET_DRRANGE := chars "drrange ".
Definition MAC_JOINABP := chars "join abp".
Definition MAC_STATUS := chars "status".
Definition MAC_SEND := chars "tx uncnf 1 ".
Definition RN_SET := chars "set ".
Definition RN_GET := chars "get ".
Definition RN_END : list Z := [13; 10].

(** OTRN2483Link.cpp 409-417: one hexadecimal digit ('0' = 48, 'A' = 65). *)
Definition rn_digit (v : Z) : Z := if v <=? 9 then u8 (v + 48) else u8 (v + (65 - 10)).

(** OTRN2483Link.cpp 401-426: getHex(); [i] and [o] are the offsets of the
    moving pointers.  [counter] is a uint8_t going down by 2: at most 128
    rounds for an even start.  None = access outside a buffer. *)
Fixpoint rn_hex (fuel : nat) (input output : list Z) (i o counter : Z) : option (list Z) :=
  if counter =? 0 then Some output
  else match fuel with
  | O => None
  | S fuel =>
    do x <- rd input i ;
    do out1 <- wr output o (rn_digit (x / 16)) ;
    do out2 <- wr out1 (o + 1) (rn_digit (Z.land x 15)) ;
    rn_hex fuel input out2 (i + 1) (o + 2) (u8 (counter - 2))
  end.
Definition rn_getHex (input output : list Z) (outputLen : Z) : option (list Z) :=
  rn_hex 128 input output 0 0 outputLen.

(** A C string print: the characters before the first NUL; None if there is
    none in the buffer (the print runs on past its end). *)
Fixpoint cstr (l : list Z) : option (list Z) :=
  match l with
  | [] => None
  | c :: l => if c =? 0 then Some [] else do r <- cstr l ; Some (c :: r)
  end.

(** OTRN2483Link.cpp 152-169: timedBlockingRead() into dataBuf[16]; [resp]
    is what arrives before the port's time-out. *)
Definition rn_read (resp : list Z) : list Z :=
  firstn 16 resp ++ repeat 0 (16 - length (firstn 16 resp)).

(** OTRN2483Link.cpp 101-141: sendRaw().  [junk] is the uninitialised
    outputBuf of buflen * 2 bytes.  getHex() and write() take the size as
    uint8_t.  Results: returned value, bytes sent to the module, text of the
    response printed; None = undefined behaviour. *)
Definition rn_sendRaw (buf : list Z) (buflen : Z) (junk resp : list Z)
  : option (bool * list Z * list Z) :=
  let size := u8 (buflen * 2) in
  do outputBuf <- rn_getHex buf junk size ;
  do hex <- sub outputBuf 0 size ;
  do txt <- cstr (rn_read resp) ;
  Some (true, MAC_START ++ MAC_SEND ++ hex ++ RN_END, txt).

(** OTRN2483Link.cpp 316-339: setAdaptiveDataRate(). *)
Fixpoint rn_ranges (n : nat) (i mn mx : Z) : list Z :=
  match n with
  | O => []
  | S n => MAC_START ++ RN_SET ++ MAC_SET_CH ++ MAC_SET_DRRANGE ++ [i; 32; mn; 32; mx] ++ RN_END
           ++ rn_ranges n (i + 1) mn mx
  end.
Definition rn_adr (minRate maxRate : Z) : list Z :=
  rn_ranges 3 48 (u8 (48 + minRate)) (u8 (48 + maxRate)) ++
  MAC_START ++ RN_SET ++ MAC_ADR ++ RN_END.

(** OTRN2483Link.cpp 39-87: begin(): the bytes after the break (192-196). *)
Definition rn_begin : list Z :=
  chars "U" ++
  MAC_START ++ RN_SET ++ MAC_DEVADDR ++ chars "02011123" ++ RN_END ++
  MAC_START ++ RN_SET ++ MAC_APPSKEY ++ chars "2B7E151628AED2A6ABF7158809CF4F3C" ++ RN_END ++
  MAC_START ++ RN_SET ++ MAC_NWKSKEY ++ chars "2B7E151628AED2A6ABF7158809CF4F3C" ++ RN_END ++
  rn_adr 1 5 ++
  MAC_START ++ MAC_JOINABP ++ RN_END ++
  MAC_START ++ RN_GET ++ MAC_STATUS ++ RN_END.
