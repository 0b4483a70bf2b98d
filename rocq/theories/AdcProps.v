(** Properties of the analogue reads (C150) and what they do to their users. *)
From Verif Require Import Base AdcModel ErrModel TempModel.

Lemma adc_loop_spec sct conv : forall samples k old result,
  (forall j, 0 <= conv j <= 1023) ->
  let r := adc_loop samples k sct conv old result in
  (r = result /\ (samples = O \/ 254 < sct k)) \/
  exists n, (n < samples)%nat /\ r = conv (k + n)%nat /\
    (forall j, (j <= n)%nat -> sct (k + j)%nat <= 254) /\
    ((n + 1 = samples)%nat \/ 254 < sct (k + n + 1)%nat \/ (conv (k + n)%nat = match n with O => old | S m => conv (k + m)%nat end)) /\
    (forall j, (j < n)%nat -> conv (k + j)%nat <> match j with O => old | S m => conv (k + m)%nat end).
Proof.
  intros samples k old result HC. revert k old result. induction samples as [|s IH]; intros k old result; cbn [adc_loop]; cbv zeta.
  - left. split; [reflexivity | left; reflexivity].
  - destruct (254 <? sct k) eqn:E. { left. split; [reflexivity | right; lia]. }
    right. destruct (conv k =? old) eqn:EC.
    + exists O. rewrite Nat.add_0_r. split; [lia|]. split; [reflexivity|]. split; [intros j Hj; replace (k + j)%nat with k by lia; lia|].
      split; [right; right; lia | intros j Hj; lia].
    + specialize (IH (S k) (conv k) (conv k)). cbv zeta in IH. destruct IH as [[Hr Hs] | (n & Hn & Hr & H1 & H2 & H3)].
      * exists O. rewrite Nat.add_0_r. split; [lia|]. split; [exact Hr|]. split; [intros j Hj; replace (k + j)%nat with k by lia; lia|]. split; [|intros j Hj; lia].
        destruct Hs as [-> | Hs]; [left; reflexivity | right; left]. replace (k + 1)%nat with (S k) by lia. exact Hs.
      * exists (S n). replace (k + S n)%nat with (S k + n)%nat by lia. split; [lia|]. split; [exact Hr|]. split.
        { intros [|j] Hj; [rewrite Nat.add_0_r; lia|]. replace (k + S j)%nat with (S k + j)%nat by lia. apply H1. lia. }
        split.
        { destruct H2 as [H2|[H2|H2]]; [left; lia | right; left; exact H2 | right; right].
          destruct n as [|m]; [rewrite !Nat.add_0_r in *; exact H2|]. replace (k + S m)%nat with (S k + m)%nat by lia. exact H2. }
        intros [|j] Hj; [rewrite Nat.add_0_r; lia|]. replace (k + S j)%nat with (S k + j)%nat by lia. specialize (H3 j ltac:(lia)).
        destruct j as [|m]; [rewrite ?Nat.add_0_r in *; exact H3|]. replace (k + S m)%nat with (S k + m)%nat by lia. exact H3.
Qed.

(** A noise-reduced read returns one of at most [samples] conversions: the first
    that repeats the one before it, or the last that the number of samples, or
    the time left in the cycle, allows; and 1024, which no conversion gives,
    exactly if the cycle is already in its last tick. *)
Theorem adc_read_spec : forall samples sct conv, (0 < samples)%nat -> (forall j, 0 <= conv j <= 1023) ->
  let r := adc_read samples sct conv in
  (r = 1024 <-> 254 < sct O) /\
  (sct O <= 254 ->
   exists n, (n < samples)%nat /\ r = conv n /\ (forall j, (j <= n)%nat -> sct j <= 254) /\
     ((n + 1 = samples)%nat \/ 254 < sct (n + 1)%nat \/ (0 < n)%nat /\ conv n = conv (n - 1)%nat) /\
     (forall j, (0 < j < n)%nat -> conv j <> conv (j - 1)%nat)).
Proof.
  intros samples sct conv HS HC. cbv zeta. unfold adc_read.
  pose proof (adc_loop_spec sct conv samples 0 65535 1024 HC) as H. cbv zeta in H. cbn [Nat.add] in H.
  destruct H as [[Hr Hs] | (n & Hn & Hr & H1 & H2 & H3)].
  - assert (254 < sct O) by (destruct Hs as [-> | Hs]; [lia | exact Hs]). split; [split; [intros _; assumption | intros _; exact Hr]|]. lia.
  - specialize (H1 O (Nat.le_0_l n)) as H10. split; [split; [intros E; rewrite E in Hr; specialize (HC n); lia | lia]|].
    intros _. exists n. split; [exact Hn|]. split; [exact Hr|]. split; [exact H1|]. split.
    + destruct H2 as [H2|[H2|H2]]; [left; exact H2 | right; left; exact H2|].
      destruct n as [|m]; [specialize (HC O); lia|]. right; right. split; [lia|]. replace (S m - 1)%nat with m by lia. exact H2.
    + intros [|j] Hj; [lia|]. specialize (H3 (S j) ltac:(lia)). cbv beta iota in H3. replace (S j - 1)%nat with j by lia. exact H3.
Qed.

(** So away from the last tick the result is in the documented range [0,1023]. *)
Theorem adc_read_range_partial : forall samples sct conv, (0 < samples)%nat -> (forall j, 0 <= conv j <= 1023) -> sct O <= 254 ->
  0 <= adc_read samples sct conv <= 1023.
Proof.
  intros samples sct conv HS HC H. destruct (adc_read_spec samples sct conv HS HC) as [_ G]. destruct (G H) as (n & _ & -> & _). apply HC.
Qed.

Example adc_case :
  adc_read 3 (fun _ => 17) (fun k => match k with O => 400 | 1%nat => 402 | _ => 402 end) = 402 /\
  adc_read 3 (fun k => 253 + Z.of_nat k) (fun k => 400 + Z.of_nat k) = 401 /\
  adc_read 3 (fun _ => 255) (fun _ => 7) = 1024.
Proof. split; [|split]; reflexivity. Qed.

(** No user of the reads looks for the time-out value.  In the last tick of the
    cycle: the brightest room is read as pitch dark, *)
Theorem adc_timeout_light_refuted : forall samples conv, (0 < samples)%nat -> (forall j, conv j = 1023) ->
  light_level (adc_read samples (fun _ => 254) conv) = 255 /\ light_level (adc_read samples (fun _ => 255) conv) = 0.
Proof.
  intros samples conv HS HC. assert (HC' : forall j, 0 <= conv j <= 1023) by (intros j; rewrite HC; lia). split.
  - destruct (adc_read_spec samples (fun _ => 254) conv HS HC') as [_ G]. destruct (G ltac:(lia)) as (n & _ & -> & _). rewrite HC. reflexivity.
  - destruct (adc_read_spec samples (fun _ => 255) conv HS HC') as [[_ G] _]. rewrite G by lia. reflexivity.
Qed.
(** the dial at any setting that is not already at the bottom is taken to have
    been turned right down, which switches the heating to frost protection (the
    valve's default end stops), *)
Theorem adc_timeout_dial_refuted : forall r, 32 <= r <= 1023 ->
  pot_read 8 247 (mkPot r (r / 4)) (pot_newRaw false 1024) = (mkPot 1024 0, [CallFrost; CallOccupied]).
Proof.
  intros r H. unfold pot_read, pot_newRaw. cbn [pot_raw pot_value]. change (u8 (Z.shiftr 1024 2)) with 0.
  assert (8 <= r / 4) by (apply Z.div_le_lower_bound; lia).
  replace (0 >? r / 4) with false by (symmetry; rewrite Z.gtb_ltb; lia). replace (0 <? r / 4) with true by lia. cbn [andb orb].
  assert (E : u16 (r - 1024) = r - 1024 + 65536) by (unfold u16; rewrite <- (Z_mod_plus_full (r - 1024) 1 65536); apply Z.mod_small; lia).
  rewrite E. replace (r - 1024 + 65536 >=? 4) with true by lia. replace (65535 =? r) with false by lia. reflexivity.
Qed.
(** or, with the dial wired the other way, right up, which starts a boost; *)
Theorem adc_timeout_dial_up_refuted : forall r, 0 <= r <= 980 ->
  pot_read 8 247 (mkPot r (r / 4)) (pot_newRaw true 1024) = (mkPot 65535 255, [CallBakeStart; CallOccupied]).
Proof.
  intros r H. unfold pot_read. change (pot_newRaw true 1024) with 65535. cbn [pot_raw pot_value]. change (u8 (Z.shiftr 65535 2)) with 255.
  assert (r / 4 <= 245) by (apply Z.div_le_upper_bound; lia).
  replace (255 >? r / 4) with true by (symmetry; rewrite Z.gtb_ltb; lia). replace (255 <? r / 4) with false by lia. cbn [andb orb].
  rewrite u16_id by lia. replace (65535 - r >=? 4) with true by lia. cbn [orb]. replace (65535 =? r) with false by lia. reflexivity.
Qed.
(** a good supply is reported as a very low battery, *)
Theorem adc_timeout_supply_refuted : forall s e, sv_rawInv s <= 1000 ->
  exists s' e', supply_read s e 1024 = Some (s', e', 108) /\ sv_isVeryLow s' = true.
Proof.
  intros s e H. unfold supply_read. replace (1024 <=? sv_rawInv s) with false by lia. cbn [andb].
  change (supply_cV 1024) with (Some 108). cbn [bind]. eexists _, _. split; reflexivity.
Qed.
(** and the motor current as past either limit. *)
Theorem adc_timeout_current_refuted : forall closing, v1_currentHigh closing 1024 = true.
Proof. intros []; reflexivity. Qed.

(** ** The internal thermometer *)
(** Between -128 C and +128 C it is the data sheet's line, about 1/13 C a step,
    increasing, with no overflow; *)
Theorem internal_temp_ok_partial : forall raw, 168 <= raw <= 480 ->
  internal_temp raw = Some ((raw - 324) * 210 / 16) /\ -2048 <= (raw - 324) * 210 / 16 <= 2047.
Proof.
  intros raw H. unfold internal_temp. assert (E : i16 raw = raw) by (apply i16_id; lia). rewrite E. cbv zeta.
  replace ((-32768 <=? (raw - 324) * 210) && ((raw - 324) * 210 <=? 32767)) with true by lia.
  rewrite Z.shiftr_div_pow2 by lia. change (2 ^ 4) with 16. split; [reflexivity|].
  split; [apply Z.div_le_lower_bound; lia | apply Z.lt_succ_r; apply Z.div_lt_upper_bound; lia].
Qed.
(** any other reading, the time-out among them, overflows a 16-bit int. *)
Theorem internal_temp_refuted : forall raw, 0 <= raw <= 1024 -> ~ (168 <= raw <= 480) -> internal_temp raw = None.
Proof.
  intros raw H HN. unfold internal_temp. assert (E : i16 raw = raw) by (apply i16_id; lia). rewrite E. cbv zeta.
  replace ((-32768 <=? (raw - 324) * 210) && ((raw - 324) * 210 <=? 32767)) with false by lia. reflexivity.
Qed.
