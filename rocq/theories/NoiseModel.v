(** Model of noisyADCRead, OTV0P2BASE_ADC.cpp 239-316, as a function of what each of its ten conversions gives:
    the polls it takes (the count wraps at 256), and the low and high byte of its result.
    Register set-up and power are not part of it (power: C158). *)
From Verif Require Import Base PrngModel.

Record Conv := mkConv { cv_polls : Z; cv_lo : Z; cv_hi : Z }.
(** One turn of the loop over the inputs, 284-307. *)
Definition noise_turn (st : Z * Z) (c : Conv) : Z * Z :=
  let (count, result) := st in
  let count := u8 (count + cv_polls c) in                                         (* 289 *)
  (count, crc_ibutton (Z.lxor result (cv_hi c)) (Z.lxor (cv_lo c) count)).         (* 301 *)
(** [v]: supply voltage, 247-256; [t]: internal temperature, 265-270; [ins]: the eight inputs. *)
Definition noisy_read (v t : Conv) (ins : list Conv) : Z :=
  let count := u8 (u8 (cv_polls v) + cv_polls t) in
  let result := u8 (Z.lxor (Z.lxor (Z.lxor (Z.shiftl (cv_hi v) 5) (cv_lo t)) (Z.shiftl (cv_hi t) 3)) count) in   (* 278 *)
  Z.lxor (snd (fold_left noise_turn ins (count, result))) (cv_lo v).              (* 314 *)
