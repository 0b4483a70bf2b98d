(** Model of OTV0P2BASE_QuickPRNG.cpp (RNG8) and of the mixing of noise
    sources in OTV0P2BASE_Entropy.cpp (getSecureRandomByte,
    addEntropyToPool). *)
From Verif Require Import Base.

(** QuickPRNG.cpp 44-49: the working state, four uint8_t. *)
Record Rng := mkRng { rg_x : Z; rg_a : Z; rg_b : Z; rg_c : Z }.

(** QuickPRNG.cpp 95-101: _resetRNG8. *)
Definition rng_reset : Rng := mkRng 0 0 0 0.

(** QuickPRNG.cpp 79-82 = 87-90: the common update. *)
Definition rng_step (s : Rng) : Rng :=
  let x := u8 (rg_x s + 1) in
  let a := Z.lxor (Z.lxor (rg_a s) (rg_c s)) x in
  let b := u8 (rg_b s + a) in
  let c := Z.lxor (u8 (rg_c s + Z.shiftr b 1)) a in
  mkRng x a b c.

(** QuickPRNG.cpp 85-92: randRNG8. *)
Definition randRNG8 (s : Rng) : Rng * Z := let s' := rng_step s in (s', rg_c s').

(** QuickPRNG.cpp 73-83: seedRNG8. *)
Definition seedRNG8 (s : Rng) (s1 s2 s3 : Z) : Rng :=
  rng_step (mkRng (rg_x s) (Z.lxor (rg_a s) s1) (Z.lxor (rg_b s) s2) (Z.lxor (rg_c s) s3)).

(** avr-libc util/crc16.h _crc_ibutton_update (not in /repo; its documented
    C equivalent): used at Entropy.cpp 105, 107. *)
Definition ibutton_bit (c : Z) : Z :=
  if Z.testbit c 0 then Z.lxor (Z.shiftr c 1) 140 else Z.shiftr c 1.
Definition crc_ibutton (crc data : Z) : Z :=
  ibutton_bit (ibutton_bit (ibutton_bit (ibutton_bit (ibutton_bit (ibutton_bit
  (ibutton_bit (ibutton_bit (Z.lxor crc data)))))))).

(** w1 ^= (w1 << n) on a uint8_t. *)
Definition mixl (w n : Z) : Z := Z.lxor w (u8 (Z.shiftl w n)).
(** w1 ^= (w1 >> n). *)
Definition mixr (w n : Z) : Z := Z.lxor w (Z.shiftr w n).

(** Entropy.cpp 73-109: getSecureRandomByte, as a function of what its noise
    sources return: [jit] = clockJitterEntropyByte(), [adc] =
    noisyADCRead(true), [wdt] = clockJitterWDT(); when [whiten], [rng] =
    randRNG8() and [k] = the second argument-only CRC of line 105 (stack
    addresses and a counter, no data from the noise sources). *)
Definition secure_byte (whiten : bool) (jit adc wdt rng k : Z) : Z :=
  let w := jit in
  let v1 := w in
  let w := mixl w 3 in
  let w := Z.lxor w adc in
  let w := mixl w 4 in
  let v2 := w in
  let w := Z.lxor w wdt in
  let w := mixr w 4 in
  let w := if whiten then
             let w := Z.lxor w rng in
             let w := mixl w 3 in
             Z.lxor w k
           else w in
  Z.lxor w (crc_ibutton v1 v2).

(** Entropy.cpp 112-119: addEntropyToPool; [cyc] = getCPUCycleCount(),
    [sct] = getSubCycleTime(); state = PRNG and count8. *)
Definition addEntropyToPool (s : Rng * Z) (data cyc sct : Z) : Rng * Z :=
  let n := u8 (snd s + 1) in (seedRNG8 (fst s) (Z.lxor data n) cyc sct, n).
