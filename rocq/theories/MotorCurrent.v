(** C180: the motor's current limits, by direction, over the noise-reduced read.
    OTRadValve_ValveMotorDirectV1.h 60-95, 97-116; OTRadValve_ValveMotorDRV8850.h 53-104. *)
From Verif Require Import Base AdcModel AdcProps.

(** isCurrentHigh, ValveMotorDirectV1.h 74-95: [samples], [sct] and [conv] as in adc_read. *)
Definition v1_isCurrentHigh (closing : bool) (samples : nat) (sct conv : nat -> Z) : bool := v1_currentHigh closing (adc_read samples sct conv).
(** ValveMotorDRV8850.h 53-54, 65-83: 300 either way. *)
Definition drv_isCurrentHigh (closing : bool) (samples : nat) (sct conv : nat -> Z) : bool := (if closing then 300 else 300) <? adc_read samples sct conv.
(** isOnShaftEncoderMark, ValveMotorDirectV1.h 97-106 and ValveMotorDRV8850.h 86-104: below 120. *)
Definition isOnShaftEncoderMark (samples : nat) (sct conv : nat -> Z) : bool := adc_read samples sct conv <? 120.

(** ** Specification: the limits measured for the REV7 valve (the comments of ValveMotorDirectV1.h 60-69).
    Closing works against the spring and needs up to 600; opening must stop at 450, lest the pin be driven past its end. *)
Definition limit (closing : bool) : Z := if closing then 600 else 450.

(** With the CPU cycle not in its last tick: no direction is stopped by readings that don't exceed its limit, and each is stopped by
    readings that all exceed it; whichever of them the read settles on. *)
Theorem v1_current_limits : forall closing samples sct conv, (0 < samples)%nat -> (forall j, 0 <= conv j <= 1023) -> sct O <= 254 ->
  ((forall j, conv j <= limit closing) -> v1_isCurrentHigh closing samples sct conv = false) /\
  ((forall j, limit closing < conv j) -> v1_isCurrentHigh closing samples sct conv = true) /\
  (v1_isCurrentHigh closing samples sct conv = true -> exists j, (j < samples)%nat /\ limit closing < conv j).
Proof.
  intros closing samples sct conv HS HC HT. destruct (adc_read_spec samples sct conv HS HC) as [_ G]. destruct (G HT) as (n & Hn & E & _).
  unfold v1_isCurrentHigh, v1_currentHigh, limit. rewrite E.
  refine (conj _ (conj _ _)).
  - intros A. specialize (A n). destruct closing; apply Z.ltb_ge; exact A.
  - intros A. specialize (A n). destruct closing; apply Z.ltb_lt; exact A.
  - intros A. exists n. split; [exact Hn|]. destruct closing; apply Z.ltb_lt; exact A.
Qed.
(** Opening is at least as easily stopped as closing, whatever is read and whenever, time-outs included. *)
Theorem v1_opening_careful : forall samples sct conv, v1_isCurrentHigh true samples sct conv = true -> v1_isCurrentHigh false samples sct conv = true.
Proof. intros samples sct conv. unfold v1_isCurrentHigh, v1_currentHigh. intros H. apply Z.ltb_lt in H. apply Z.ltb_lt. lia. Qed.
(** In the last tick of the cycle no reading is taken, and the current is called high in either direction. *)
Theorem v1_current_late_refuted : forall closing samples sct conv, 254 < sct O -> v1_isCurrentHigh closing samples sct conv = true.
Proof.
  intros closing samples sct conv H. unfold v1_isCurrentHigh, adc_read. destruct samples as [|s]; cbn [adc_loop]; [destruct closing; reflexivity|].
  replace (254 <? sct O) with true by (symmetry; apply Z.ltb_lt; exact H). destruct closing; reflexivity.
Qed.
(** The DRV8850 driver: the same limit, 300, in both directions. *)
Theorem drv_current_limits : forall closing samples sct conv, (0 < samples)%nat -> (forall j, 0 <= conv j <= 1023) -> sct O <= 254 ->
  ((forall j, conv j <= 300) -> drv_isCurrentHigh closing samples sct conv = false) /\
  ((forall j, 300 < conv j) -> drv_isCurrentHigh closing samples sct conv = true).
Proof.
  intros closing samples sct conv HS HC HT. destruct (adc_read_spec samples sct conv HS HC) as [_ G]. destruct (G HT) as (n & _ & E & _).
  unfold drv_isCurrentHigh. rewrite E. split; intros A; specialize (A n); destruct closing; first [apply Z.ltb_ge; exact A|apply Z.ltb_lt; exact A].
Qed.
(** The encoder: on the mark only if some conversion is below 120, and whenever all are. *)
Theorem encoder_mark : forall samples sct conv, (0 < samples)%nat -> (forall j, 0 <= conv j <= 1023) -> sct O <= 254 ->
  ((forall j, conv j < 120) -> isOnShaftEncoderMark samples sct conv = true) /\
  ((forall j, 120 <= conv j) -> isOnShaftEncoderMark samples sct conv = false).
Proof.
  intros samples sct conv HS HC HT. destruct (adc_read_spec samples sct conv HS HC) as [_ G]. destruct (G HT) as (n & _ & E & _).
  unfold isOnShaftEncoderMark. rewrite E. split; intros A; specialize (A n); [apply Z.ltb_lt|apply Z.ltb_ge]; exact A.
Qed.
(** A motor drawing 500 is let close and stopped opening; 700 stops both. *)
Example v1_current_met :
  v1_isCurrentHigh true 6 (fun _ => 100) (fun k => 500 + Z.of_nat k mod 3) = false /\ v1_isCurrentHigh false 6 (fun _ => 100) (fun k => 500 + Z.of_nat k mod 3) = true /\
  v1_isCurrentHigh true 6 (fun _ => 100) (fun _ => 700) = true.
Proof. repeat split; reflexivity. Qed.
