(** Model of the entropy gathering of OTV0P2BASE_Sleep.cpp 240-320 (clockJitterWDT, clockJitterEntropyByte),
    OTV0P2BASE_Entropy.cpp 52-60 (clockJitterRTC), 130-152 (sramCRC, eeCRC), and of avr-libc's
    _crc_ccitt_update (documented C equivalent in util/crc16.h; not part of /repo).
    uint_fast8_t is 8 bits on AVR. *)
From Verif Require Import Base.

(** avr-libc: data ^= lo8(crc); data ^= data << 4;
      return ((((uint16_t)data << 8) | hi8(crc)) ^ (uint8_t)(data >> 4) ^ ((uint16_t)data << 3)); *)
Definition ccitt_data (d : Z) : Z := Z.lxor d (u8 (Z.shiftl d 4)).
Definition crc_ccitt (crc data : Z) : Z :=
  let d := ccitt_data (Z.lxor data (Z.land crc 255)) in
  Z.lxor (Z.lxor (Z.lor (Z.shiftl d 8) (Z.shiftr crc 8)) (Z.shiftr d 4)) (Z.shiftl d 3).

(** sramCRC and eeCRC, Entropy.cpp 134-152, over the bytes of the memory in order. *)
Definition mem_crc (l : list Z) : Z := fold_left crc_ccitt l 65535.

(** What one turn of the loops finds: the watchdog flag, the sub-cycle timer where it is compared and,
    just after, where it is taken for the next comparison. *)
Record Poll := mkPoll { p_fired : bool; p_cmp : Z; p_next : Z }.

Record Jit := mkJit { j_hash : Z; j_result : Z; j_left : Z;
                      j_cW : Z; j_lW : Z; j_cR : Z; j_lR : Z; j_t1 : Z }.
(** A count is used, Sleep.cpp 286-288 and 302-304. *)
Definition harvest (s : Jit) (c : Z) : Jit :=
  let h := crc_ccitt (j_hash s) c in
  mkJit h (u8 (Z.lxor (u8 (Z.shiftl (j_result s) 1)) (u8 h))) (j_left s - 1)
        (j_cW s) (j_lW s) (j_cR s) (j_lR s) (j_t1 s).
Definition set_W s cW lW := mkJit (j_hash s) (j_result s) (j_left s) cW lW (j_cR s) (j_lR s) (j_t1 s).
Definition set_R s cR lR t1 := mkJit (j_hash s) (j_result s) (j_left s) (j_cW s) (j_lW s) cR lR t1.
(** The watchdog half of a turn, 280-296; [inr]: result (break). *)
Definition turn_W (s : Jit) (p : Poll) : Jit + Z :=
  if negb (p_fired p) then inl (set_W s (u8 (j_cW s + 1)) (j_lW s))                 (* 280 *)
  else if negb (j_cW s =? j_lW s) then                                             (* 283 *)
    let s' := harvest s (j_cW s) in
    if j_left s' <=? 0 then inr (j_result s')                                      (* 287 *)
    else inl (set_W s' 0 (j_cW s))                                                 (* 288-293 *)
  else inl (set_W s 0 (j_lW s)).
(** The timer half, 298-311. *)
Definition turn_R (s : Jit) (p : Poll) : Jit + Z :=
  if j_t1 s =? p_cmp p then inl (set_R s (u8 (j_cR s - 1)) (j_lR s) (j_t1 s))       (* 299 *)
  else if negb (j_cR s =? j_lR s) then                                             (* 302 *)
    let s' := harvest s (j_cR s) in
    if j_left s' <=? 0 then inr (j_result s')                                      (* 306 *)
    else inl (set_R s' 0 (j_cR s) (p_next p))
  else inl (set_R s 0 (j_lR s) (p_next p)).
(** The loop 277-312; [None]: still in it when the polls run out. *)
Fixpoint jit_loop (s : Jit) (ps : list Poll) : option Z :=
  match ps with
  | [] => None
  | p :: ps =>
    match turn_W s p with
    | inr r => Some r
    | inl s => match turn_R s p with inr r => Some r | inl s => jit_loop s ps end
    end
  end.
(** Lines 268-270: polls until the timer rolls. *)
Fixpoint jit_start (t0 hash : Z) (ps : list Poll) : option (Z * Z * list Poll) :=
  match ps with
  | [] => None
  | p :: ps => if t0 =? p_cmp p then jit_start t0 ((hash + 1) mod 65536) ps else Some (hash, p_next p, ps)
  end.
(** clockJitterEntropyByte, 262-315. *)
Definition jitter_byte (t0 : Z) (ps : list Poll) : option Z :=
  match jit_start t0 0 ps with
  | None => None
  | Some (hash, t1, ps) => jit_loop (mkJit hash 0 8 0 0 0 0 t1) ps
  end.
(** clockJitterWDT, 244-253: polls of the flag. *)
Fixpoint jitter_wdt (count : Z) (ps : list bool) : option Z :=
  match ps with [] => None | f :: ps => if f : bool then Some count else jitter_wdt (u8 (count + 1)) ps end.
(** clockJitterRTC, Entropy.cpp 52-60, over the readings of the timer one by one. *)
Fixpoint rtc_count (t1 count : Z) (l : list Z) : option Z :=
  match l with [] => None | x :: l => if t1 =? x then rtc_count t1 (u8 (count + 1)) l else Some count end.
Fixpoint rtc_wait (t0 : Z) (l : list Z) : option (list Z) :=
  match l with [] => None | x :: l => if t0 =? x then rtc_wait t0 l else Some l end.
Definition jitter_rtc (l : list Z) : option Z :=
  match l with
  | [] => None
  | t0 :: l => match rtc_wait t0 l with Some (t1 :: l) => rtc_count t1 0 l | _ => None end
  end.
