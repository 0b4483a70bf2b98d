(** C41, C42: clock persistence and ticking. *)
From Verif Require Import Base EepromModel EepromProofs RtcModel.

(** ** Specification *)
Definition clock_ok (c : Clock) : Prop :=
  0 <= secondsLT c < 60 /\ secondsLT c mod 2 = 0 /\ 0 <= minutesSinceMidnightLT c < 1440 /\ 0 <= daysSince1999LT c < 65536.
(** Byte [b] stands for quarter-hour [q] of the day (0..95): the hour in the top five
    bits; the low three bits are 7, 3, 1, 0 for the four quarters. *)
Definition quarter_bits (k : Z) : Z := if k =? 0 then 7 else if k =? 1 then 3 else if k =? 2 then 1 else 0.
Definition stands_for (b q : Z) : Prop := 0 <= q < 96 /\ b = 8 * (q / 4) + quarter_bits (q mod 4).

Definition restored (m : Z -> Z) (c : Clock) : Clock * bool :=
  match snd (restoreRTC c (mkEE m []) 0%nat) with Some (r, _) => r | None => (c, false) end.
(** Restoring performs no EEPROM operation, so needs no power budget. *)
Lemma restore_runs c s f : restoreRTC c s f = (s, Some (restored (mem s) c, f)).
Proof.
  unfold restored, restoreRTC, ee_read_word, mbind, ee_read, ret. cbn [mem].
  repeat (match goal with |- context [if ?b then _ else _] => destruct b end; cbn [snd]; try reflexivity).
Qed.

Lemma stands_for_byte b q : stands_for b q -> 0 <= b < 192.
Proof. intros [H ->]. unfold quarter_bits. destruct (q mod 4 =? 0), (q mod 4 =? 1), (q mod 4 =? 2); Z.div_mod_to_equations; lia. Qed.

Definition restore_minutes (b : Z) : option Z :=
  if b >=? 192 then None
  else let m := (Z.shiftr b 3) * 60 + 8 in let low := Z.land b 7 in
    if low =? 0 then Some (m + 45) else if low =? 1 then Some (m + 30) else if low =? 3 then Some (m + 15) else if low =? 7 then Some m else None.
Lemma restored_eq m c : restored m c =
  let days := m 8 + 256 * m 9 in
  let c1 := if negb (days =? 65535) then mkClock (secondsLT c) (minutesSinceMidnightLT c) days else c in
  match restore_minutes (m 10) with Some t => (mkClock (secondsLT c) (u16 t) (daysSince1999LT c1), true) | None => (c1, false) end.
Proof.
  unfold restored, restoreRTC, ee_read_word, mbind, ee_read, ret, restore_minutes, RTC_HHMM, RTC_DAY. cbn [mem].
  change (8 + 1) with 9. change (Z.shiftl 24 3) with 192. cbv zeta.
  destruct (negb (m 8 + 256 * m 9 =? 65535));
  (destruct (m 10 >=? 192); [reflexivity|]; destruct (Z.land (m 10) 7 =? 0); [reflexivity|]; destruct (Z.land (m 10) 7 =? 1); [reflexivity|];
   destruct (Z.land (m 10) 7 =? 3); [reflexivity|]; destruct (Z.land (m 10) 7 =? 7); reflexivity).
Qed.

(** Sweeps over the 96 quarters and the 256 byte values. *)
Definition target_check (q : Z) : bool :=
  (rtc_target (15 * q) =? 8 * (q / 4) + quarter_bits (q mod 4)).
Lemma target_sweep : forallb target_check (map Z.of_nat (seq 0 96)) = true.
Proof. vm_compute. reflexivity. Qed.
Lemma rtc_target_stands c : 0 <= c < 1440 -> stands_for (rtc_target c) (c / 15).
Proof.
  intros H. assert (Hq : 0 <= c / 15 < 96) by (Z.div_mod_to_equations; lia). split; [exact Hq|].
  assert (HE : rtc_target c = rtc_target (15 * (c / 15))).
  { unfold rtc_target. replace (15 * (c / 15) / 15) with (c / 15) by (symmetry; rewrite Z.mul_comm; apply Z.div_mul; lia). reflexivity. }
  rewrite HE. pose proof target_sweep as HS. rewrite forallb_forall in HS.
  specialize (HS (c / 15)). assert (HIn : In (c / 15) (map Z.of_nat (seq 0 96))).
  { apply in_map_iff. exists (Z.to_nat (c / 15)). split; [lia|]. apply in_seq. lia. }
  specialize (HS HIn). unfold target_check in HS. lia.
Qed.
Definition decode_check (b : Z) : bool :=
  match restore_minutes b with
  | Some t => existsb (fun q => (b =? 8 * (q / 4) + quarter_bits (q mod 4)) && (t =? 15 * q + 8)) (map Z.of_nat (seq 0 96))
  | None => negb (existsb (fun q => b =? 8 * (q / 4) + quarter_bits (q mod 4)) (map Z.of_nat (seq 0 96)))
  end.
Lemma decode_sweep : forallb decode_check (map Z.of_nat (seq 0 256)) = true.
Proof. vm_compute. reflexivity. Qed.
Lemma in_range z n : 0 <= z < Z.of_nat n -> In z (map Z.of_nat (seq 0 n)).
Proof. intros H. apply in_map_iff. exists (Z.to_nat z). split; [lia|]. apply in_seq. lia. Qed.
Lemma stands_for_inj b q q' : stands_for b q -> stands_for b q' -> q = q'.
Proof.
  intros [H1 H2] [H3 H4]. rewrite H2 in H4. unfold quarter_bits in H4.
  assert (0 <= q mod 4 < 4) by (apply Z.mod_pos_bound; lia). assert (0 <= q' mod 4 < 4) by (apply Z.mod_pos_bound; lia).
  assert (q = 4 * (q / 4) + q mod 4) by (apply Z.div_mod; lia). assert (q' = 4 * (q' / 4) + q' mod 4) by (apply Z.div_mod; lia).
  destruct (q mod 4 =? 0) eqn:?, (q mod 4 =? 1) eqn:?, (q mod 4 =? 2) eqn:?, (q' mod 4 =? 0) eqn:?, (q' mod 4 =? 1) eqn:?, (q' mod 4 =? 2) eqn:?; lia.
Qed.
Lemma restore_minutes_spec b : byte b ->
  match restore_minutes b with
  | Some t => exists q, stands_for b q /\ t = 15 * q + 8
  | None => forall q, ~ stands_for b q
  end.
Proof.
  intros Hb. unfold byte in Hb. pose proof decode_sweep as HS. rewrite forallb_forall in HS. specialize (HS b (in_range b 256 ltac:(lia))).
  unfold decode_check in HS. destruct (restore_minutes b) as [t|].
  - apply existsb_exists in HS. destruct HS as (q & Hq & HE). apply in_map_iff in Hq. destruct Hq as (k & <- & Hk). apply in_seq in Hk.
    exists (Z.of_nat k). split; [split; lia|lia].
  - intros q [Hq HE]. apply Bool.negb_true_iff in HS. enough (existsb (fun q0 => b =? 8 * (q0 / 4) + quarter_bits (q0 mod 4)) (map Z.of_nat (seq 0 96)) = true) by congruence.
    apply existsb_exists. exists q. split; [apply (in_range q 96); lia|lia].
Qed.

(** Effect of persisting, for any power budget. *)
Lemma persist_mem c s f : clock_ok c -> bytes_mem (mem s) ->
  let s' := fst (persistRTC c s f) in
  (forall q, q <> 8 -> q <> 9 -> q <> 10 -> mem s' q = mem s q) /\
  (mem s' 10 = mem s 10 \/ mem s' 10 = rtc_target (minutesSinceMidnightLT c)) /\ byte (mem s' 8) /\ byte (mem s' 9) /\ byte (mem s' 10) /\
  (snd (persistRTC c s f) <> None ->
     mem s' 10 = rtc_target (minutesSinceMidnightLT c) /\
     (mem s 10 <> rtc_target (minutesSinceMidnightLT c) -> mem s' 8 + 256 * mem s' 9 = daysSince1999LT c) /\
     (mem s 10 = rtc_target (minutesSinceMidnightLT c) -> s' = s)) /\
  ((3 <= f)%nat -> snd (persistRTC c s f) <> None).
Proof.
  intros (_ & _ & Hm & Hd) HB. cbv zeta. pose proof (stands_for_byte _ _ (rtc_target_stands _ Hm)) as HT.
  unfold persistRTC. set (t := rtc_target _) in *. clearbody t.
  pose proof (HB 8) as HB8. pose proof (HB 9) as HB9. pose proof (HB 10) as HB10. unfold byte in *.
  assert (HL : Z.land (daysSince1999LT c) 255 + 256 * Z.shiftr (daysSince1999LT c) 8 = daysSince1999LT c).
  { change 255 with (Z.ones 8). rewrite Z.land_ones, Z.shiftr_div_pow2 by lia. change (2 ^ 8) with 256. rewrite Z.add_comm. symmetry. apply Z.div_mod. lia. }
  assert (HL1 : 0 <= Z.land (daysSince1999LT c) 255 < 256) by (change 255 with (Z.ones 8); rewrite Z.land_ones by lia; apply Z.mod_pos_bound; reflexivity).
  assert (HL2 : 0 <= Z.shiftr (daysSince1999LT c) 8 < 256) by (rewrite Z.shiftr_div_pow2 by lia; change (2 ^ 8) with 256; clear HL HL1; Z.div_mod_to_equations; lia).
  assert (HLA : Z.land (mem s 10) t = t -> Z.land (mem s 10) (Z.land (mem s 10) t) = t) by (intros E; rewrite E, E; reflexivity).
  unfold ee_read_word, ee_write_word, ee_write_byte, smart_clear_bits, mbind, ee_read, ret, RTC_HHMM, RTC_DAY. change (8 + 1) with 9.
  destruct (mem s 10 =? t) eqn:E0; cbn [negb].
  { cbn [fst snd mem]. repeat split; auto; try lia; intros; try lia. discriminate. }
  destruct (t =? Z.land (mem s 10) t) eqn:E1; cbn [negb].
  - assert (E1' : Z.land (mem s 10) t = t) by lia. specialize (HLA E1').
    replace (mem s 10 =? Z.land (mem s 10) t) with false by lia. cbn [negb].
    destruct f as [|f]; [cbn; repeat split; auto; try lia; intros; try lia; contradiction|].
    cbn [ee_op mem phys fst snd]. rewrite HLA. cbn [upd].
    change (upd (mem s) 10 t 8) with (mem s 8). change (upd (mem s) 10 t 9) with (mem s 9).
    destruct (mem s 8 + 256 * mem s 9 =? daysSince1999LT c) eqn:E2; cbn [negb].
    + cbn [fst snd mem]. unfold upd. repeat split; cbn [Z.eqb Pos.eqb]; auto; try lia; intros; try lia; try discriminate.
      replace (q =? 10) with false by lia. reflexivity.
    + destruct f as [|[|f]]; cbn [ee_op mem phys fst snd]; unfold upd; repeat split; cbn [Z.eqb Pos.eqb]; auto; try lia; intros; try lia; try discriminate; try contradiction;
        rewrite ?(proj2 (Z.eqb_neq q 10)), ?(proj2 (Z.eqb_neq q 9)), ?(proj2 (Z.eqb_neq q 8)) by assumption; reflexivity.
  - destruct f as [|f]; [cbn; repeat split; auto; try lia; intros; try lia; contradiction|].
    cbn [ee_op mem phys fst snd].
    change (upd (mem s) 10 t 8) with (mem s 8). change (upd (mem s) 10 t 9) with (mem s 9).
    destruct (mem s 8 + 256 * mem s 9 =? daysSince1999LT c) eqn:E2; cbn [negb].
    + cbn [fst snd mem]. unfold upd. repeat split; cbn [Z.eqb Pos.eqb]; auto; try lia; intros; try lia; try discriminate.
      replace (q =? 10) with false by lia. reflexivity.
    + destruct f as [|[|f]]; cbn [ee_op mem phys fst snd]; unfold upd; repeat split; cbn [Z.eqb Pos.eqb]; auto; try lia; intros; try lia; try discriminate; try contradiction;
        rewrite ?(proj2 (Z.eqb_neq q 10)), ?(proj2 (Z.eqb_neq q 9)), ?(proj2 (Z.eqb_neq q 8)) by assumption; reflexivity.
Qed.

(** ** C41 *)
(** Persist (with no power failure: three EEPROM operations suffice), restart with any
    clock, restore: success, the minute restored is in the same quarter of an hour and so
    within 8 minutes, and the seconds are untouched. *)
Theorem C41_restore_after_persist : forall c c' s f,
  clock_ok c -> bytes_mem (mem s) -> (3 <= f)%nat ->
  exists s' f', persistRTC c s f = (s', Some (tt, f')) /\
    let r := restored (mem s') c' in
    snd r = true /\ secondsLT (fst r) = secondsLT c' /\
    minutesSinceMidnightLT (fst r) / 15 = minutesSinceMidnightLT c / 15 /\
    0 <= minutesSinceMidnightLT (fst r) < 1440 /\
    Z.abs (minutesSinceMidnightLT (fst r) - minutesSinceMidnightLT c) <= 8 /\
    (mem s 10 <> mem s' 10 -> daysSince1999LT c <> 65535 -> daysSince1999LT (fst r) = daysSince1999LT c).
Proof.
  intros c c' s f Hc HB Hf. pose proof (persist_mem c s f Hc HB) as (_ & _ & _ & _ & HB10 & HP & HN).
  destruct (persistRTC c s f) as [s' o] eqn:E. cbn [fst snd] in *. specialize (HN Hf). destruct o as [[[] f']|]; [|contradiction].
  exists s', f'. split; [reflexivity|]. destruct (HP ltac:(discriminate)) as (H10 & Hdays & _).
  destruct Hc as (_ & _ & Hm & Hd). pose proof (rtc_target_stands _ Hm) as HS. rewrite <- H10 in HS.
  cbv zeta. rewrite restored_eq. cbv zeta. pose proof (restore_minutes_spec _ HB10) as HR.
  destruct (restore_minutes (mem s' 10)) as [t|]; [|exfalso; exact (HR _ HS)].
  destruct HR as (q & Hq & ->). pose proof (stands_for_inj _ _ _ HS Hq) as <-. cbn [fst snd secondsLT minutesSinceMidnightLT daysSince1999LT].
  assert (Hq96 : 0 <= minutesSinceMidnightLT c / 15 < 96) by apply HS.
  rewrite u16_id by lia. split; [reflexivity|]. split; [reflexivity|].
  split; [clear - Hm; Z.div_mod_to_equations; lia|]. split; [lia|]. split; [clear - Hm; Z.div_mod_to_equations; lia|].
  intros Hne Hnf. rewrite Hdays by congruence. destruct (daysSince1999LT c =? 65535) eqn:E5; [lia|]. reflexivity.
Qed.
(** With the power failing at any point of persisting, a later restore gives either what
    it would have given before, or a time in the quarter hour being persisted; it never
    gives any other time of day. *)
Theorem C41_crash_safe : forall c c' s f,
  clock_ok c -> bytes_mem (mem s) ->
  let s' := fst (persistRTC c s f) in
  let r := restored (mem s') c' in let r0 := restored (mem s) c' in
  (snd r = snd r0 /\ minutesSinceMidnightLT (fst r) = minutesSinceMidnightLT (fst r0)) \/
  (snd r = true /\ minutesSinceMidnightLT (fst r) / 15 = minutesSinceMidnightLT c / 15).
Proof.
  intros c c' s f Hc HB. cbv zeta. pose proof (persist_mem c s f Hc HB) as (_ & H10 & _ & _ & HB10 & _).
  set (s' := fst (persistRTC c s f)) in *. clearbody s'. rewrite !restored_eq. cbv zeta.
  destruct H10 as [H10|H10].
  - left. rewrite H10. destruct (restore_minutes (mem s 10)); cbn [fst snd minutesSinceMidnightLT]; split; auto.
    destruct (negb (mem s' 8 + _ =? 65535)), (negb (mem s 8 + _ =? 65535)); reflexivity.
  - right. destruct Hc as (_ & _ & Hm & _). pose proof (rtc_target_stands _ Hm) as HS. rewrite <- H10 in HS.
    pose proof (restore_minutes_spec _ HB10) as HR. destruct (restore_minutes (mem s' 10)) as [t|]; [|exfalso; exact (HR _ HS)].
    destruct HR as (q & Hq & ->). pose proof (stands_for_inj _ _ _ HS Hq) as <-. cbn [fst snd minutesSinceMidnightLT].
    assert (Hq96 : 0 <= minutesSinceMidnightLT c / 15 < 96) by apply HS. rewrite u16_id by lia.
    split; [reflexivity|]. clear - Hm. Z.div_mod_to_equations. lia.
Qed.
(** Whatever the store contains, restoring yields a valid minute and success if the stored
    byte stands for a quarter hour; otherwise failure, the time of day being left alone. *)
Theorem C41_restore_any_store : forall c m, bytes_mem m ->
  let r := restored m c in
  (snd r = true -> exists q, stands_for (m 10) q /\ minutesSinceMidnightLT (fst r) = 15 * q + 8 /\ 0 <= minutesSinceMidnightLT (fst r) < 1440) /\
  (snd r = false -> (forall q, ~ stands_for (m 10) q) /\ minutesSinceMidnightLT (fst r) = minutesSinceMidnightLT c) /\
  secondsLT (fst r) = secondsLT c.
Proof.
  intros c m HB. cbv zeta. rewrite restored_eq. cbv zeta. pose proof (restore_minutes_spec _ (HB 10)) as HR.
  destruct (restore_minutes (m 10)) as [t|]; cbn [fst snd secondsLT minutesSinceMidnightLT].
  - split; [|split; [discriminate|reflexivity]]. intros _. destruct HR as (q & Hq & ->). exists q.
    assert (0 <= q < 96) by apply Hq. rewrite u16_id by lia. repeat split; try apply Hq; lia.
  - split; [discriminate|]. split; [|destruct (negb _); reflexivity]. intros _. split; [exact HR|destruct (negb _); reflexivity].
Qed.
(** An erased store is such a failure. *)
Theorem C41_erased : forall c m, (forall q, m q = 255) -> restored m c = (c, false).
Proof. intros c m H. rewrite restored_eq, !H. reflexivity. Qed.
(** "Leaving the clock unchanged" fails for the day count: it is restored even when the
    time of day is reported as bad. *)
Theorem C41_error_changes_day_refuted :
  exists c m, bytes_mem m /\ snd (restored m c) = false /\ daysSince1999LT (fst (restored m c)) <> daysSince1999LT c.
Proof.
  exists (mkClock 0 0 7), (fun q => if q =? 10 then 255 else 1). split.
  - intros q. unfold byte. destruct (q =? 10); lia.
  - split; [reflexivity|]. vm_compute. discriminate.
Qed.
(** Wear: going forward within the same hour costs one bit-clearing operation on the
    time byte; persisting again in the same quarter costs nothing. *)
Theorem C41_same_hour_clears_bits : forall c s f q,
  clock_ok c -> bytes_mem (mem s) -> stands_for (mem s 10) q ->
  q / 4 = minutesSinceMidnightLT c / 60 -> q <= minutesSinceMidnightLT c / 15 ->
  forall e, In e (evs (fst (persistRTC c s f))) -> In e (evs s) \/ e = (KWrite, 10) \/ snd e = 8 \/ snd e = 9.
Proof.
  intros c s f q Hc HB Hq Hh Hle. destruct Hc as (_ & _ & Hm & _).
  pose proof (rtc_target_stands _ Hm) as HS.
  assert (HL : Z.land (mem s 10) (rtc_target (minutesSinceMidnightLT c)) = rtc_target (minutesSinceMidnightLT c)).
  { destruct Hq as [Hq1 Hq2]. destruct HS as [HS1 HS2]. rewrite HS2, Hq2.
    assert (Hh2 : q / 4 = minutesSinceMidnightLT c / 15 / 4) by (rewrite Hh; rewrite Z.div_div by lia; reflexivity).
    set (q' := minutesSinceMidnightLT c / 15) in *. clearbody q'. rewrite <- Hh2.
    assert (Hmod : q mod 4 <= q' mod 4) by (clear - Hle Hh2; Z.div_mod_to_equations; lia).
    assert (Hr : 0 <= q mod 4 < 4 /\ 0 <= q' mod 4 < 4 /\ 0 <= q / 4) by (clear - Hq1; Z.div_mod_to_equations; lia).
    set (h := q / 4) in *. set (a := q mod 4) in *. set (b := q' mod 4) in *. clearbody h a b.
    replace (8 * h) with (h * 2 ^ 3) by lia.
    assert (HA : forall x, 0 <= x < 8 -> h * 2 ^ 3 + x = Z.lor (Z.shiftl h 3) x).
    { intros x Hx. rewrite <- Z.shiftl_mul_pow2 by lia. symmetry. apply Z.add_nocarry_lt_pow2 || idtac.
      rewrite <- Z.lxor_lor; [symmetry; apply Z.add_nocarry_lxor|]; apply Z.bits_inj'; intros n Hn; rewrite Z.land_spec, Z.bits_0;
        (destruct (Z_lt_ge_dec n 3) as [Hn3|Hn3]; [rewrite Z.shiftl_spec_low by lia; reflexivity|
         rewrite (Z.bits_above_log2 x n); [apply andb_false_r|lia|];
         destruct (Z.eq_dec x 0) as [->|]; [cbn; lia|apply Z.log2_lt_pow2; [lia|]; apply Z.lt_le_trans with (2 ^ 3); [cbn; lia|apply Z.pow_le_mono_r; lia]]]). }
    rewrite !HA by (unfold quarter_bits; repeat (match goal with |- context [if ?b then _ else _] => destruct b end); lia).
    apply Z.bits_inj'. intros n Hn. rewrite Z.land_spec, !Z.lor_spec.
    destruct (Z_lt_ge_dec n 3) as [Hn3|Hn3].
    - rewrite Z.shiftl_spec_low by lia. cbn [orb].
      assert (Hn012 : n = 0 \/ n = 1 \/ n = 2) by lia.
      assert (Ha : a = 0 \/ a = 1 \/ a = 2 \/ a = 3) by lia. assert (Hb : b = 0 \/ b = 1 \/ b = 2 \/ b = 3) by lia.
      destruct Hn012 as [-> |[-> | ->]]; destruct Ha as [-> |[-> |[-> | ->]]]; destruct Hb as [-> |[-> |[-> | ->]]]; try reflexivity; lia.
    - assert (HX : forall k, Z.testbit (quarter_bits k) n = false).
      { intros k. unfold quarter_bits. repeat (match goal with |- context [if ?b then _ else _] => destruct b end);
          [| | |apply Z.bits_0]; apply Z.bits_above_log2; cbn; lia. }
      rewrite !HX, !orb_false_r. apply andb_diag. }
  unfold persistRTC. set (t := rtc_target _) in *. clearbody t.
  unfold ee_read_word, ee_write_word, ee_write_byte, smart_clear_bits, mbind, ee_read, ret, RTC_HHMM, RTC_DAY.
  destruct (mem s 10 =? t) eqn:E0; cbn [negb]; [cbn; auto|].
  replace (t =? Z.land (mem s 10) t) with true by lia. cbn [negb].
  replace (mem s 10 =? Z.land (mem s 10) t) with false by lia. cbn [negb].
  destruct f as [|f]; cbn [ee_op fst evs]; [auto|].
  destruct (negb _); [|cbn; intros e [<- |He]; auto].
  destruct f as [|[|f]]; cbn [ee_op fst evs In]; intros e He; repeat (destruct He as [<- |He]; [cbn; auto|]); auto.
Qed.
Theorem C41_redundant_persist_free : forall c s f,
  clock_ok c -> bytes_mem (mem s) -> stands_for (mem s 10) (minutesSinceMidnightLT c / 15) -> persistRTC c s f = (s, Some (tt, f)).
Proof.
  intros c s f Hc HB [_ Hq]. destruct Hc as (_ & _ & Hm & _). destruct (rtc_target_stands _ Hm) as [_ HT].
  unfold persistRTC, mbind, ee_read, RTC_HHMM. rewrite HT, <- Hq, Z.eqb_refl. reflexivity.
Qed.

(** ** C42 *)
(** The clock as a count of seconds. *)
Definition total_seconds (c : Clock) : Z := 86400 * daysSince1999LT c + 60 * minutesSinceMidnightLT c + secondsLT c.
Definition HORIZON := 86400 * 65536.
Theorem C42_tick : forall c, clock_ok c -> clock_ok (rtc_tick c) /\ total_seconds (rtc_tick c) = (total_seconds c + 2) mod HORIZON.
Proof.
  intros c (H1 & H2 & H3 & H4). unfold rtc_tick, total_seconds, HORIZON, clock_ok, MAIN_TICK_S.
  assert (HE : secondsLT c <> 59) by (intros E; rewrite E in H2; discriminate).
  rewrite (u8_id (secondsLT c + 2)) by (unfold byte; lia).
  destruct (secondsLT c + 2 >? 59) eqn:E1; cbn [secondsLT minutesSinceMidnightLT daysSince1999LT].
  - rewrite (u16_id (minutesSinceMidnightLT c + 1)) by lia.
    assert (H58 : secondsLT c = 58) by (assert (secondsLT c = 58 \/ secondsLT c = 59) by lia; lia).
    destruct (minutesSinceMidnightLT c + 1 >? 1439) eqn:E2; cbn [secondsLT minutesSinceMidnightLT daysSince1999LT].
    + destruct (Z.eq_dec (daysSince1999LT c) 65535) as [Ed|Ed].
      * rewrite Ed, H58. replace (minutesSinceMidnightLT c) with 1439 by lia. split; [vm_compute; intuition congruence|reflexivity].
      * rewrite (u16_id (daysSince1999LT c + 1)) by lia. split; [repeat split; try lia; reflexivity|]. rewrite Z.mod_small; lia.
    + split; [repeat split; try lia; reflexivity|]. rewrite Z.mod_small; lia.
  - split; [repeat split; try lia; clear - H2; Z.div_mod_to_equations; lia|]. rewrite Z.mod_small; lia.
Qed.
Fixpoint ticks (n : nat) (c : Clock) : Clock := match n with O => c | S k => ticks k (rtc_tick c) end.
Theorem C42_n_ticks : forall n c, clock_ok c ->
  clock_ok (ticks n c) /\ total_seconds (ticks n c) = (total_seconds c + 2 * Z.of_nat n) mod HORIZON.
Proof.
  induction n as [|n IH]; intros c Hc.
  - split; [exact Hc|]. cbn [ticks]. rewrite Z.mod_small; [lia|]. destruct Hc as (H1 & H2 & H3 & H4). unfold total_seconds, HORIZON. lia.
  - destruct (C42_tick c Hc) as [H1 H2]. destruct (IH _ H1) as [H3 H4]. split; [exact H3|]. cbn [ticks]. rewrite H4, H2.
    rewrite Zplus_mod_idemp_l. f_equal. lia.
Qed.
(** A day of ticks. *)
Theorem C42_day : forall c n, clock_ok c -> Z.of_nat n = 43200 ->
  let c' := ticks n c in
  getSecondsLT c' = getSecondsLT c /\ getMinutesSinceMidnightLT c' = getMinutesSinceMidnightLT c /\
  getDaysSince1999LT c' = (getDaysSince1999LT c + 1) mod 65536.
Proof.
  intros c n Hc Hn. cbv zeta. destruct (C42_n_ticks n c Hc) as [HO HT].
  rewrite Hn in HT. set (c' := ticks _ c) in *. clearbody c'.
  unfold getSecondsLT, getMinutesSinceMidnightLT, getDaysSince1999LT. unfold total_seconds, HORIZON in HT.
  destruct Hc as (H1 & _ & H3 & H4). destruct HO as (K1 & _ & K3 & K4).
  destruct (Z.eq_dec (daysSince1999LT c) 65535) as [E|E].
  - rewrite E in *. replace (86400 * 65535 + 60 * minutesSinceMidnightLT c + secondsLT c + 2 * 43200) with
      (60 * minutesSinceMidnightLT c + secondsLT c + 1 * (86400 * 65536)) in HT by lia.
    rewrite Z.mod_add, Z.mod_small in HT by lia. change ((65535 + 1) mod 65536) with 0. lia.
  - rewrite Z.mod_small in HT by lia. rewrite Z.mod_small by lia. lia.
Qed.
(** Setting the clock. *)
Theorem C42_set : forall c s f h mi, clock_ok c -> bytes_mem (mem s) -> (3 <= f)%nat -> byte h -> byte mi ->
  exists s' f' c' ok, setHoursMinutesLT c h mi s f = (s', Some ((c', ok), f')) /\ clock_ok c' /\
    secondsLT c' = secondsLT c /\ daysSince1999LT c' = daysSince1999LT c /\
    (ok = true <-> h <= 23 /\ mi <= 59) /\
    (ok = true -> getHoursLT c' = h /\ getMinutesLT c' = mi) /\ (ok = false -> c' = c /\ s' = s).
Proof.
  intros c s f h mi Hc HB Hf Hh Hmi. unfold byte in *. unfold setHoursMinutesLT. destruct ((h >? 23) || (mi >? 59)) eqn:E.
  - exists s, f, c, false. split; [reflexivity|]. split; [exact Hc|]. repeat split; try lia; try discriminate.
  - rewrite u16_id by lia.
    assert (HC : clock_ok (mkClock (secondsLT c) (60 * h + mi) (daysSince1999LT c))).
    { destruct Hc as (A & B & C & D). unfold clock_ok. cbn [secondsLT minutesSinceMidnightLT daysSince1999LT]. repeat split; auto; lia. }
    assert (HG : getHoursLT (mkClock (secondsLT c) (60 * h + mi) (daysSince1999LT c)) = h /\ getMinutesLT (mkClock (secondsLT c) (60 * h + mi) (daysSince1999LT c)) = mi).
    { unfold getHoursLT, getMinutesLT, getMinutesSinceMidnightLT. cbn [minutesSinceMidnightLT].
      assert ((60 * h + mi) / 60 = h /\ (60 * h + mi) mod 60 = mi) as [-> ->].
      { split; [rewrite Z.mul_comm, Z.div_add_l, (Z.div_small mi) by lia; lia|rewrite Z.add_comm, Z.mul_comm, Z.mod_add, Z.mod_small by lia; lia]. }
      rewrite !u8_id by (unfold byte; lia). auto. }
    destruct (60 * h + mi =? minutesSinceMidnightLT c) eqn:E2; cbn [negb].
    + exists s, f, c, true. split; [reflexivity|]. split; [exact Hc|]. split; [reflexivity|]. split; [reflexivity|]. split; [lia|].
      split; [|discriminate]. intros _. replace c with (mkClock (secondsLT c) (60 * h + mi) (daysSince1999LT c)); [exact HG|].
      replace (60 * h + mi) with (minutesSinceMidnightLT c) by lia. destruct c; reflexivity.
    + destruct (C41_restore_after_persist _ c s f HC HB Hf) as (s' & f' & EP & _).
      exists s', f', (mkClock (secondsLT c) (60 * h + mi) (daysSince1999LT c)), true. unfold mbind. rewrite EP.
      split; [reflexivity|]. split; [exact HC|]. repeat split; try reflexivity; try lia; try discriminate; intros; apply HG.
Qed.
Theorem C42_set_seconds : forall c x, clock_ok c -> byte x ->
  let (c', ok) := setSeconds c x in
  clock_ok c' /\ (ok = true <-> x <= 59) /\ (ok = false -> c' = c) /\
  (ok = true -> x - 1 <= getSecondsLT c' <= x /\ getMinutesSinceMidnightLT c' = getMinutesSinceMidnightLT c).
Proof.
  intros c x Hc Hx. unfold byte in Hx. unfold setSeconds. destruct (x >? 59) eqn:E.
  - repeat split; try apply Hc; try lia; try discriminate.
  - assert (HL : Z.land x (Z.lnot 1) = 2 * (x / 2)).
    { rewrite <- Z.ldiff_land. change 1 with (Z.ones 1). rewrite Z.ldiff_ones_r by lia.
      rewrite Z.shiftl_mul_pow2, Z.shiftr_div_pow2 by lia. change (2 ^ 1) with 2. lia. }
    rewrite HL. destruct Hc as (A & B & C & D). unfold clock_ok, getSecondsLT, getMinutesSinceMidnightLT. cbn [secondsLT minutesSinceMidnightLT daysSince1999LT].
    repeat split; auto; try discriminate; try lia; clear - Hx E; Z.div_mod_to_equations; lia.
Qed.
(** Neighbouring hours and elapsed seconds are computed modulo the day and the minute. *)
Theorem C42_hours_around : forall c, clock_ok c ->
  0 <= getHoursLT c < 24 /\ 0 <= getMinutesLT c < 60 /\
  getPrevHourLT c = (getHoursLT c - 1) mod 24 /\ getNextHourLT c = (getHoursLT c + 1) mod 24.
Proof.
  intros c (_ & _ & H & _). unfold getPrevHourLT, getNextHourLT.
  assert (HH : 0 <= getHoursLT c < 24).
  { unfold getHoursLT, getMinutesSinceMidnightLT. assert (0 <= minutesSinceMidnightLT c / 60 < 24) by (Z.div_mod_to_equations; lia). rewrite u8_id by (unfold byte; lia). lia. }
  assert (HM : 0 <= getMinutesLT c < 60).
  { unfold getMinutesLT, getMinutesSinceMidnightLT. pose proof (Z.mod_pos_bound (minutesSinceMidnightLT c) 60 ltac:(lia)). rewrite u8_id by (unfold byte; lia). lia. }
  split; [exact HH|]. split; [exact HM|]. set (h := getHoursLT c) in *. clearbody h. split.
  - destruct (0 =? h) eqn:E; [replace h with 0 by lia; reflexivity|]. rewrite u8_id by (unfold byte; lia). rewrite Z.mod_small; lia.
  - destruct (h >=? 23) eqn:E; [replace h with 23 by lia; reflexivity|]. rewrite u8_id by (unfold byte; lia). rewrite Z.mod_small; lia.
Qed.
Theorem C42_elapsed : forall start now, 0 <= start < 60 -> 0 <= now < 60 -> getElapsedSecondsLT start now = (now - start) mod 60.
Proof.
  intros a b Ha Hb. unfold getElapsedSecondsLT. destruct (b >=? a) eqn:E; rewrite u8_id by (unfold byte; lia).
  - rewrite Z.mod_small; lia.
  - replace (b - a) with (60 + b - a + (-1) * 60) by lia. rewrite Z.mod_add, Z.mod_small; lia.
Qed.

(** 23:59:58 on day 6000 rolls over; 07:33 persisted over an erased store comes back
    as 07:38. *)
Example C41_C42_nonvacuous :
  clock_ok (mkClock 58 1439 6000) /\ rtc_tick (mkClock 58 1439 6000) = mkClock 0 0 6001 /\
  clock_ok (mkClock 0 453 6000) /\
  restored (mem (fst (persistRTC (mkClock 0 453 6000) (mkEE (fun _ => 255) []) 3%nat))) (mkClock 0 0 0) = (mkClock 0 458 6000, true).
Proof. split; [vm_compute; intuition congruence|]. split; [reflexivity|]. split; [vm_compute; intuition congruence|reflexivity]. Qed.

Print Assumptions C41_restore_after_persist.
Print Assumptions C41_crash_safe.
Print Assumptions C41_same_hour_clears_bits.
Print Assumptions C42_n_ticks.
Print Assumptions C42_set.
