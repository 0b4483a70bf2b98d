(** Models of OTV0P2BASE_SensorTMP112.cpp (RoomTemperatureC16_TMP112) and
    OTV0P2BASE_SensorSHT21.h/.cpp (RoomTemperatureC16_SHT21,
    HumiditySensorSHT21, HumiditySensorBase), AVR branches unless said, plus
    the TWI power switch of OTV0P2BASE_PowerManagement.cpp 153-180.

    The bus is an environment: for each transaction the code performs, the
    environment says what the Wire call returned.  What the code puts on the
    bus, and its naps, are recorded as events. *)
From Verif Require Import Base.

(** SensorTemperatureC16Base.h 44: DEFAULT_INVALID_TEMP. *)
Definition INVALID_TEMP : Z := -128 * 16.

(** SensorTemperatureC16Base.h 58. *)
Definition isErrorValue (v : Z) : bool := INVALID_TEMP =? v.

Inductive I2cEvent :=
| IWrite (bytes : list Z)   (* beginTransmission; write...; endTransmission *)
| INap.                     (* 15 ms low-power nap *)

(** What a TMP112 read meets: results of the checked endTransmission calls
    (true = error), the control byte at each poll (None = no byte came), and
    the two temperature bytes (None = requestFrom did not deliver 2). *)
Record TmpEnv := mkTmpEnv
  { te_start_err : bool; te_select_err : bool; te_poll : nat -> option Z;
    te_temp_err : bool; te_data : option (Z * Z); te_end_err : bool }.

(** SensorTMP112.cpp 45-50 constants. *)
Definition TMP_CTRL_B1 : Z := 49.     (* 0x31 *)
Definition TMP_OS : Z := 128.         (* 0x80 *)

(** Result of read(): returned value, new [value] field, TWI powered after,
    events. *)
Record TmpOut := mkTmpOut
  { to_ret : Z; to_value : Z; to_twi : bool; to_ev : list I2cEvent }.

(** SensorTMP112.cpp 88-95: the wait loop, [i] counting 7..1 (the loop ends
    when --i is zero); None = early error return. *)
Fixpoint tmp_wait (env : TmpEnv) (i : nat) (k : nat) (ev : list I2cEvent)
  : option (list I2cEvent) * list I2cEvent :=
  match i with
  | O => (Some ev, ev)
  | S i =>
    match te_poll env k with
    | None => (None, ev)
    | Some b1 => if Z.testbit b1 7 then (Some ev, ev)
                 else tmp_wait env i (S k) (ev ++ [INap])
    end
  end.

(** SensorTMP112.cpp 114: the decode; int is 16 bits on AVR and 0xf000 is
    unsigned, converted back to int. *)
Definition tmp_decode (b1 b2 : Z) : Z :=
  i16 (Z.lor (Z.lor (Z.shiftl b1 4) (Z.shiftr b2 4))
             (if Z.testbit b1 7 then 61440 else 0)).

(** SensorTMP112.cpp 59-132: read().  [twi] = TWI already powered on entry.
    (Entropy capture of 128 omitted.) *)
Definition tmp_read (value : Z) (twi : bool) (env : TmpEnv) : TmpOut :=
  let neededPowerUp := negb twi in
  let fail ev := mkTmpOut INVALID_TEMP value true ev in
  let ev := [IWrite [1; TMP_CTRL_B1]; IWrite [1; Z.lor TMP_CTRL_B1 TMP_OS]] in
  if te_start_err env then fail ev else
  let ev := ev ++ [IWrite [1]] in
  if te_select_err env then fail ev else
  match tmp_wait env 7 0 ev with
  | (None, ev) => fail ev
  | (Some ev, _) =>
    let ev := ev ++ [IWrite [0]] in
    if te_temp_err env then fail ev else
    match te_data env with
    | None => fail ev
    | Some (b1, b2) =>
      if te_end_err env then fail ev else
      let t16 := tmp_decode b1 b2 in
      mkTmpOut t16 t16 (if neededPowerUp then false else true) ev
    end
  end.

(** SensorTMP112.cpp 140-145: isAvailable. *)
Definition tmp_isAvailable (value : Z) : bool := negb (INVALID_TEMP =? value).

(** ** SHT21 *)

(** What a SHT21 read meets: the user register byte, if it arrives before the
    minor cycle is nearly over; and the first two data bytes likewise. *)
Record ShtEnv := mkShtEnv { se_ur : option Z; se_data : option (Z * Z) }.

(** State shared by the two sensors: SHT21.cpp 59 SHT21_initialised and the
    TWI power state. *)
Record ShtBus := mkShtBus { sb_init : bool; sb_twi : bool }.

(** SHT21.cpp 86 = 107: new user register contents. *)
Definition sht_newUR (curUR : Z) : Z := Z.lor (Z.land curUR 56) 3.

(** SHT21.cpp 65-93: SHT21_init, AVR. *)
Definition sht_init_avr (env : ShtEnv) : bool * list I2cEvent :=
  match se_ur env with
  | None => (false, [IWrite [231]])
  | Some ur => (true, [IWrite [231]; IWrite [231; sht_newUR ur]])
  end.

(** SHT21.cpp 97-112: SHT21_init, EFR32 (its read always delivers a byte). *)
Definition sht_init_efr (ur : Z) : list I2cEvent :=
  [IWrite [231]; IWrite [Z.land 231 254; sht_newUR ur]].

(** SHT21.cpp 156-157 = 217, 283 = 335: raw reading with status bits cleared. *)
Definition sht_raw (b1 b2 : Z) : Z := Z.lor (u16 (Z.shiftl b1 8)) (Z.land b2 252).

(** SHT21.cpp 166 = 223: temperature in C/16 (int32 product, 16-bit result). *)
Definition sht_c16 (raw : Z) : Z := i16 (-750 + i16 (Z.shiftr (5623 * raw) 17)).

(** SHT21.cpp 286 = 339: relative humidity, uint8_t. *)
Definition sht_rh (raw : Z) : Z := u8 (-6 + Z.shiftr (125 * raw) 16).

(** SHT21.cpp 129-132 / 248-251: power up and initialise if necessary. *)
Definition sht_prepare (b : ShtBus) (env : ShtEnv) : ShtBus * list I2cEvent :=
  if sb_init b then (mkShtBus true true, [])
  else let (ok, ev) := sht_init_avr env in (mkShtBus ok true, ev).

(** SHT21.cpp 127-176: RoomTemperatureC16_SHT21::read (entropy capture
    omitted).  Returns bus state, value field, returned value, events. *)
Definition sht_read_temp (b : ShtBus) (value : Z) (env : ShtEnv)
  : ShtBus * Z * Z * list I2cEvent :=
  let needed := negb (sb_twi b) in
  let (b1, ev) := sht_prepare b env in
  let ev := ev ++ [INap; IWrite [227]] in
  match se_data env with
  | None => (b1, value, INVALID_TEMP, ev)
  | Some (d1, d2) =>
    let b2 := if needed then mkShtBus (sb_init b1) false else b1 in
    let c16 := sht_c16 (sht_raw d1 d2) in
    (b2, c16, c16, ev)
  end.

(** SHT21.h 42-56: HumiditySensorBase thresholds and state. *)
Definition RH_HIGH : Z := 70.
Definition RH_EPS : Z := 5.
Definition INVALID_RH : Z := 255.
Record Rh := mkRh { rh_value : Z; rh_high : bool }.
Definition rh_initial : Rh := mkRh INVALID_RH true.
(** SHT21.h 65, 73. *)
Definition rh_isValid (v : Z) : bool := v <=? 100.
Definition rh_isRHHigh (s : Rh) : bool := RH_HIGH + RH_EPS <? rh_value s.

(** SHT21.cpp 292-294: publish a result with hysteresis. *)
Definition rh_publish (s : Rh) (result : Z) : Rh :=
  mkRh result
    (if RH_HIGH + RH_EPS <? result then true
     else if result <? RH_HIGH - RH_EPS then false else rh_high s).

(** SHT21.cpp 246-296: HumiditySensorSHT21::read. *)
Definition sht_read_rh (b : ShtBus) (s : Rh) (env : ShtEnv)
  : ShtBus * Rh * Z * list I2cEvent :=
  let needed := negb (sb_twi b) in
  let (b1, ev) := sht_prepare b env in
  let ev := ev ++ [INap; IWrite [229]] in
  match se_data env with
  | None => (b1, s, 255, ev)
  | Some (d1, d2) =>
    let b2 := if needed then mkShtBus (sb_init b1) false else b1 in
    let r := sht_rh (sht_raw d1 d2) in
    (b2, rh_publish s r, r, ev)
  end.
