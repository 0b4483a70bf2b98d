(** C188: the clock through any history of ticks, persists and power cuts.
    Composition of RtcModel's functions; the code composed is
    /repo/content/OTRadioLink/utility/OTV0P2BASE_RTC.cpp 98-130 (persistRTC), 142-176
    (restoreRTC) and 331-353 (timer interrupt). *)
From Verif Require Import Base EepromModel EepromProofs RtcModel RtcProps.

(** ** Specification *)
(** Second of the day. *)
Definition tod (c : Clock) : Z := 60 * minutesSinceMidnightLT c + secondsLT c.
(** What can happen to a device.  [Cut f m d]: the power fails, after at most [f] EEPROM
    operations of a persist ([f = 0]: not during one), and the device restarts with its
    clock at day [d], minute [m], second 0 and restores. *)
Inductive Happening := Tick | Persist (f : nat) | Cut (f : nat) (m d : Z).
(** A running device: clock, EEPROM, ticks since the time of day was last persisted or
    restored, ticks in all, cuts in all, and whether every restore succeeded. *)
Record Dev := mkDev { d_clock : Clock; d_ee : EE; d_age : Z; d_ticks : Z; d_cuts : Z; d_good : bool }.
Definition happen (d : Dev) (h : Happening) : Dev :=
  match h with
  | Tick => mkDev (rtc_tick (d_clock d)) (d_ee d) (d_age d + 1) (d_ticks d + 1) (d_cuts d) (d_good d)
  | Persist f => mkDev (d_clock d) (fst (persistRTC (d_clock d) (d_ee d) f)) 0 (d_ticks d) (d_cuts d) (d_good d)
  | Cut f m dy =>
      let s' := fst (persistRTC (d_clock d) (d_ee d) f) in
      let r := restoreRTC (mkClock 0 m dy) s' 0%nat in
      match snd r with
      | Some (c', ok, _) => mkDev c' (fst r) 0 (d_ticks d) (d_cuts d + 1) (d_good d && ok)
      | None => mkDev (mkClock 0 m dy) (fst r) 0 (d_ticks d) (d_cuts d + 1) false
      end
  end.
(** The caller persists at least once in each quarter hour (450 ticks), and lets a persist
    that is not cut short finish (three EEPROM operations at most). *)
Definition allowed (d : Dev) (h : Happening) : Prop :=
  match h with
  | Tick => d_age d < 450
  | Persist f => (3 <= f)%nat
  | Cut _ m dy => 0 <= m < 1440 /\ 0 <= dy < 65536
  end.
Fixpoint all_allowed (d : Dev) (hs : list Happening) : Prop :=
  match hs with [] => True | h :: r => allowed d h /\ all_allowed (happen d h) r end.

(** ** Proof *)
Definition inv (t0 : Z) (d : Dev) : Prop :=
  clock_ok (d_clock d) /\ bytes_mem (mem (d_ee d)) /\ 0 <= d_age d <= 450 /\ d_good d = true /\ 0 <= d_cuts d /\
  (exists q t, stands_for (mem (d_ee d) 10) q /\ 900 * q <= t < 900 * q + 900 /\ tod (d_clock d) = (t + 2 * d_age d) mod 86400) /\
  exists e, tod (d_clock d) = (t0 + 2 * d_ticks d + e) mod 86400 /\ -1320 * d_cuts d <= e <= 480 * d_cuts d.

Lemma tod_range c : clock_ok c -> 0 <= tod c < 86400.
Proof. unfold clock_ok, tod. lia. Qed.
Lemma tod_tick c : clock_ok c -> tod (rtc_tick c) = (tod c + 2) mod 86400.
Proof.
  intros H. destruct (C42_tick c H) as [H1 H2]. pose proof (tod_range _ H1) as HR. unfold total_seconds, HORIZON in H2.
  fold (tod c) in *. unfold tod in *.
  set (d' := daysSince1999LT (rtc_tick c)) in *. set (m' := minutesSinceMidnightLT (rtc_tick c)) in *. set (s' := secondsLT (rtc_tick c)) in *.
  set (d := daysSince1999LT c) in *. set (m := minutesSinceMidnightLT c) in *. set (s := secondsLT c) in *.
  clearbody d' m' s' d m s. clear H H1.
  change (86400 * 65536) with 5662310400 in H2. Z.div_mod_to_equations. lia.
Qed.
Lemma mod_step a b n k : 0 < n -> a = b mod n -> (a + k) mod n = (b + k) mod n.
Proof. intros Hn ->. rewrite Z.add_mod_idemp_l by lia. reflexivity. Qed.
Lemma persist_bytes c s f : clock_ok c -> bytes_mem (mem s) -> bytes_mem (mem (fst (persistRTC c s f))).
Proof.
  intros Hc HB a. pose proof (persist_mem c s f Hc HB) as (Ho & _ & H8 & H9 & H10 & _).
  destruct (Z.eq_dec a 8) as [-> | n8]; [exact H8|]. destruct (Z.eq_dec a 9) as [-> | n9]; [exact H9|].
  destruct (Z.eq_dec a 10) as [-> | n10]; [exact H10|]. rewrite Ho by assumption. apply HB.
Qed.
Lemma tod_quarter c : clock_ok c -> 900 * (minutesSinceMidnightLT c / 15) <= tod c < 900 * (minutesSinceMidnightLT c / 15) + 900.
Proof. unfold clock_ok, tod. intros (H1 & _ & H2 & _). clear - H1 H2. Z.div_mod_to_equations. lia. Qed.

Lemma restore_good m q c0 : bytes_mem m -> stands_for (m 10) q ->
  0 <= daysSince1999LT c0 < 65536 -> secondsLT c0 = 0 ->
  snd (restored m c0) = true /\ clock_ok (fst (restored m c0)) /\ tod (fst (restored m c0)) = 900 * q + 480.
Proof.
  intros HB HS Hd Hs. rewrite restored_eq. cbv zeta. pose proof (restore_minutes_spec _ (HB 10)) as HR.
  destruct (restore_minutes (m 10)) as [t|]; [|exfalso; exact (HR _ HS)]. destruct HR as (q' & Hq' & ->).
  pose proof (stands_for_inj _ _ _ HS Hq') as <-. assert (Hq : 0 <= q < 96) by apply HS. rewrite u16_id by lia.
  cbn [fst snd]. split; [reflexivity|]. unfold clock_ok, tod. cbn [secondsLT minutesSinceMidnightLT daysSince1999LT]. rewrite Hs.
  pose proof (HB 8) as H8. pose proof (HB 9) as H9. unfold byte in *.
  split; [|lia]. split; [lia|]. split; [reflexivity|]. split; [lia|].
  destruct (negb (m 8 + 256 * m 9 =? 65535)); cbn [daysSince1999LT]; lia.
Qed.

Lemma inv_step t0 d h : inv t0 d -> allowed d h -> inv t0 (happen d h).
Proof.
  intros (Hc & HB & Ha & Hg & Hk & (q & t & HS & Ht & Htod) & e & He & Hb) Hal.
  destruct h as [|f|f m dy]; cbn [happen allowed] in *.
  - destruct (C42_tick _ Hc) as [Hc' _]. pose proof (tod_tick _ Hc) as HT.
    unfold inv; cbn [d_clock d_ee d_age d_ticks d_cuts d_good].
    split; [exact Hc'|]. split; [exact HB|]. split; [lia|]. split; [exact Hg|]. split; [exact Hk|]. split.
    + exists q, t. split; [exact HS|]. split; [exact Ht|]. rewrite HT, (mod_step _ _ 86400 2 ltac:(lia) Htod). f_equal. lia.
    + exists e. split; [|exact Hb]. rewrite HT, (mod_step _ _ 86400 2 ltac:(lia) He). f_equal. lia.
  - pose proof (persist_mem _ _ f Hc HB) as (_ & _ & _ & _ & _ & HD & HF). specialize (HF Hal). destruct (HD HF) as [H10 _].
    pose proof (persist_bytes _ _ f Hc HB) as HB'. pose proof (tod_quarter _ Hc) as HQ. pose proof (tod_range _ Hc) as HR.
    assert (HS' : stands_for (mem (fst (persistRTC (d_clock d) (d_ee d) f)) 10) (minutesSinceMidnightLT (d_clock d) / 15)).
    { rewrite H10. apply rtc_target_stands. apply Hc. }
    unfold inv; cbn [d_clock d_ee d_age d_ticks d_cuts d_good].
    split; [exact Hc|]. split; [exact HB'|]. split; [lia|]. split; [exact Hg|]. split; [exact Hk|]. split.
    + exists (minutesSinceMidnightLT (d_clock d) / 15), (tod (d_clock d)). split; [exact HS'|]. split; [exact HQ|].
      rewrite Z.mul_0_r, Z.add_0_r, Z.mod_small by exact HR. reflexivity.
    + exists e. split; [exact He|exact Hb].
  - pose proof (persist_mem _ _ f Hc HB) as (_ & HM & _). pose proof (persist_bytes _ _ f Hc HB) as HB'.
    pose proof (tod_quarter _ Hc) as HQ. pose proof (tod_range _ Hc) as HR.
    set (s' := fst (persistRTC (d_clock d) (d_ee d) f)) in *. clearbody s'. cbv zeta. rewrite restore_runs. cbn [fst snd].
    assert (Hx : exists q', stands_for (mem s' 10) q' /\ exists x, (900 * q' + 480 - tod (d_clock d) - x) mod 86400 = 0 /\ -1320 <= x <= 480).
    { destruct HM as [HM|HM].
      - exists q. rewrite HM. split; [exact HS|]. exists (900 * q + 480 - t - 2 * d_age d). split; [|lia].
        rewrite Htod. clear. Z.div_mod_to_equations. lia.
      - exists (minutesSinceMidnightLT (d_clock d) / 15). rewrite HM. split; [apply rtc_target_stands; apply Hc|].
        exists (900 * (minutesSinceMidnightLT (d_clock d) / 15) + 480 - tod (d_clock d)). split; [|lia].
        match goal with |- ?z mod _ = 0 => replace z with 0 by lia end. reflexivity. }
    destruct Hx as (q' & HS' & x & Hx & Hxb).
    pose proof (restore_good (mem s') q' (mkClock 0 m dy) HB' HS' (proj2 Hal) eq_refl) as (G1 & G2 & G3).
    destruct (restored (mem s') (mkClock 0 m dy)) as [c' ok]. cbn [fst snd] in G1, G2, G3.
    unfold inv; cbn [d_clock d_ee d_age d_ticks d_cuts d_good].
    split; [exact G2|]. split; [exact HB'|]. split; [lia|]. split; [rewrite Hg, G1; reflexivity|]. split; [lia|].
    assert (Hq : 0 <= q' < 96) by apply HS'. split.
    + exists q', (900 * q' + 480). split; [exact HS'|]. split; [lia|]. rewrite G3, Z.mul_0_r, Z.add_0_r, Z.mod_small by lia. reflexivity.
    + exists (e + x). split; [|lia]. rewrite G3. clear - Hx He Hq. Z.div_mod_to_equations. lia.
Qed.

(** ** C188 *)
(** Start with any valid clock, any EEPROM, one finished persist.  After any history of
    ticks, finished persists at least every quarter hour, and power cuts (also in the
    middle of a persist), every restore has succeeded and the time of day is the starting
    time plus the time powered, off by at most 22 minutes slow and 8 minutes fast for each
    cut. *)
Theorem C188_clock_over_cuts : forall c0 s0 f0 hs,
  clock_ok c0 -> bytes_mem (mem s0) -> (3 <= f0)%nat ->
  let d0 := mkDev c0 (fst (persistRTC c0 s0 f0)) 0 0 0 true in
  all_allowed d0 hs ->
  let d := fold_left happen hs d0 in
  d_good d = true /\ clock_ok (d_clock d) /\
  exists e, tod (d_clock d) = (tod c0 + 2 * d_ticks d + e) mod 86400 /\
    - (22 * 60) * d_cuts d <= e <= 8 * 60 * d_cuts d.
Proof.
  intros c0 s0 f0 hs Hc HB Hf. cbv zeta. intros Hal.
  assert (H0 : inv (tod c0) (mkDev c0 (fst (persistRTC c0 s0 f0)) 0 0 0 true)).
  { pose proof (persist_mem _ _ f0 Hc HB) as (_ & _ & _ & _ & _ & HD & HF). specialize (HF Hf). destruct (HD HF) as [H10 _].
    pose proof (persist_bytes _ _ f0 Hc HB) as HB'. pose proof (tod_quarter _ Hc) as HQ. pose proof (tod_range _ Hc) as HR.
    unfold inv; cbn [d_clock d_ee d_age d_ticks d_cuts d_good].
    split; [exact Hc|]. split; [exact HB'|]. split; [lia|]. split; [reflexivity|]. split; [lia|]. split.
    - exists (minutesSinceMidnightLT c0 / 15), (tod c0). split; [rewrite H10; apply rtc_target_stands; apply Hc|]. split; [exact HQ|].
      rewrite Z.mul_0_r, Z.add_0_r, Z.mod_small by exact HR. reflexivity.
    - exists 0. split; [|lia]. rewrite Z.mul_0_r, !Z.add_0_r, Z.mod_small by exact HR. reflexivity. }
  revert Hal H0. generalize (mkDev c0 (fst (persistRTC c0 s0 f0)) 0 0 0 true). induction hs as [|h hs IH]; intros d Hal Hi.
  - cbn [fold_left]. destruct Hi as (H1 & _ & _ & H2 & _ & _ & e & H3 & H4). split; [exact H2|]. split; [exact H1|].
    exists e. split; [exact H3|lia].
  - cbn [fold_left]. destruct Hal as [Ha Hal]. apply IH; [exact Hal|]. apply inv_step; assumption.
Qed.
(** In particular, with no cut the clock is exact. *)
Corollary C188_no_cut_exact : forall c0 s0 f0 hs,
  clock_ok c0 -> bytes_mem (mem s0) -> (3 <= f0)%nat ->
  let d0 := mkDev c0 (fst (persistRTC c0 s0 f0)) 0 0 0 true in
  all_allowed d0 hs ->
  let d := fold_left happen hs d0 in
  d_cuts d = 0 -> tod (d_clock d) = (tod c0 + 2 * d_ticks d) mod 86400.
Proof.
  intros c0 s0 f0 hs Hc HB Hf d0 Hal d Hk. destruct (C188_clock_over_cuts c0 s0 f0 hs Hc HB Hf Hal) as (_ & _ & e & He & Hb).
  fold d0 in He, Hb. fold d in He, Hb. rewrite Hk in Hb. assert (e = 0) as -> by lia. rewrite Z.add_0_r in He. exact He.
Qed.
(** The counts say what they seem to. *)
Lemma C188_counts : forall hs d,
  d_ticks (fold_left happen hs d) = d_ticks d + Zlen (filter (fun h => match h with Tick => true | _ => false end) hs) /\
  d_cuts (fold_left happen hs d) = d_cuts d + Zlen (filter (fun h => match h with Cut _ _ _ => true | _ => false end) hs).
Proof.
  unfold Zlen. induction hs as [|h hs IH]; intros d; cbn [fold_left filter].
  - cbn [length]. lia.
  - destruct (IH (happen d h)) as [-> ->]. destruct h as [|f|f m dy]; cbn [happen].
    + cbn [d_ticks d_cuts length]. lia.
    + cbn [d_ticks d_cuts]. lia.
    + cbv zeta. rewrite restore_runs. cbn [fst snd]. destruct (restored _ _) as [c' ok]. cbn [d_ticks d_cuts length]. lia.
Qed.

(** ** The date *)
(** What persisting can leave in the store, wherever the power fails. *)
Lemma persist_store c s f : clock_ok c -> bytes_mem (mem s) ->
  let s' := fst (persistRTC c s f) in
  let lo := daysSince1999LT c mod 256 in let hi := daysSince1999LT c / 256 in
  (mem s' 10 = mem s 10 /\ mem s' 8 = mem s 8 /\ mem s' 9 = mem s 9) \/
  (mem s' 10 = rtc_target (minutesSinceMidnightLT c) /\
   ((mem s' 8 = mem s 8 /\ mem s' 9 = mem s 9) \/ (mem s' 8 = lo /\ mem s' 9 = mem s 9) \/ (mem s' 8 = lo /\ mem s' 9 = hi))).
Proof.
  intros (_ & _ & Hm & Hd) HB. cbv zeta. unfold persistRTC. set (t := rtc_target _) in *. clearbody t.
  assert (HL : Z.land (daysSince1999LT c) 255 = daysSince1999LT c mod 256) by (change 255 with (Z.ones 8); rewrite Z.land_ones by lia; reflexivity).
  assert (HH : Z.shiftr (daysSince1999LT c) 8 = daysSince1999LT c / 256) by (rewrite Z.shiftr_div_pow2 by lia; reflexivity).
  unfold ee_read_word, ee_write_word, ee_write_byte, smart_clear_bits, mbind, ee_read, ret, RTC_HHMM, RTC_DAY. change (8 + 1) with 9.
  rewrite HL, HH. clear HL HH.
  assert (HLA : Z.land (mem s 10) t = t -> Z.land (mem s 10) (Z.land (mem s 10) t) = t) by (intros E; rewrite E, E; reflexivity).
  destruct (mem s 10 =? t) eqn:E0; cbn [negb]; [left; cbn [fst]; auto|].
  destruct (t =? Z.land (mem s 10) t) eqn:E1; cbn [negb].
  - assert (E1' : Z.land (mem s 10) t = t) by lia. specialize (HLA E1').
    replace (mem s 10 =? Z.land (mem s 10) t) with false by lia. cbn [negb].
    destruct f as [|f]; [left; cbn; auto|]. cbn [ee_op mem phys fst snd]. rewrite HLA.
    change (upd (mem s) 10 t 8) with (mem s 8). change (upd (mem s) 10 t 9) with (mem s 9). right.
    destruct (mem s 8 + 256 * mem s 9 =? daysSince1999LT c) eqn:E2; cbn [negb].
    + cbn [fst snd mem]. unfold upd. cbn [Z.eqb Pos.eqb]. auto.
    + destruct f as [|[|f]]; cbn [ee_op mem phys fst snd]; unfold upd; cbn [Z.eqb Pos.eqb]; auto.
  - destruct f as [|f]; [left; cbn; auto|]. cbn [ee_op mem phys fst snd].
    change (upd (mem s) 10 t 8) with (mem s 8). change (upd (mem s) 10 t 9) with (mem s 9). right.
    destruct (mem s 8 + 256 * mem s 9 =? daysSince1999LT c) eqn:E2; cbn [negb].
    + cbn [fst snd mem]. unfold upd. cbn [Z.eqb Pos.eqb]. auto.
    + destruct f as [|[|f]]; cbn [ee_op mem phys fst snd]; unfold upd; cbn [Z.eqb Pos.eqb]; auto.
Qed.

Definition stored_day (s : EE) : Z := mem s 8 + 256 * mem s 9.
Definition dinv (h t0 : Z) (d : Dev) : Prop :=
  clock_ok (d_clock d) /\ bytes_mem (mem (d_ee d)) /\ 0 <= d_age d <= 450 /\ 0 <= d_ticks d /\ 0 <= d_cuts d /\ mem (d_ee d) 9 = h /\
  (exists q t, stands_for (mem (d_ee d) 10) q /\ 86400 * stored_day (d_ee d) + 900 * q <= t < 86400 * stored_day (d_ee d) + 900 * q + 900 /\
     total_seconds (d_clock d) = t + 2 * d_age d) /\
  exists e, total_seconds (d_clock d) = t0 + 2 * d_ticks d + e /\ - (86400 + 1320) * d_cuts d <= e <= 480 * d_cuts d.

Lemma total_split c : clock_ok c ->
  let q := minutesSinceMidnightLT c / 15 in
  0 <= q < 96 /\ 86400 * daysSince1999LT c + 900 * q <= total_seconds c < 86400 * daysSince1999LT c + 900 * q + 900.
Proof. unfold clock_ok, total_seconds. intros (H1 & _ & H2 & _). cbv zeta. clear - H1 H2. Z.div_mod_to_equations. lia. Qed.

Lemma restore_day m q c0 : bytes_mem m -> stands_for (m 10) q -> m 9 < 255 -> secondsLT c0 = 0 ->
  total_seconds (fst (restored m c0)) = 86400 * (m 8 + 256 * m 9) + 900 * q + 480.
Proof.
  intros HB HS H9 Hs. rewrite restored_eq. cbv zeta. pose proof (restore_minutes_spec _ (HB 10)) as HR.
  destruct (restore_minutes (m 10)) as [t|]; [|exfalso; exact (HR _ HS)]. destruct HR as (q' & Hq' & ->).
  pose proof (stands_for_inj _ _ _ HS Hq') as <-. assert (Hq : 0 <= q < 96) by apply HS. rewrite u16_id by lia.
  pose proof (HB 8) as H8. unfold byte in H8. replace (m 8 + 256 * m 9 =? 65535) with false by lia. cbn [negb fst].
  unfold total_seconds. cbn [secondsLT minutesSinceMidnightLT daysSince1999LT]. rewrite Hs. lia.
Qed.

Lemma dinv_step h t0 d x : 0 <= h < 255 -> dinv h t0 d -> daysSince1999LT (d_clock d) / 256 = h -> allowed d x -> dinv h t0 (happen d x).
Proof.
  intros Hh (Hc & HB & Ha & Hn & Hk & H9 & (q & t & HS & Ht & Htot) & e & He & Hb) Hpage Hal.
  pose proof (total_split _ Hc) as HQ. cbv zeta in HQ. destruct HQ as [HQ1 HQ2].
  assert (Hd : 256 * h <= daysSince1999LT (d_clock d) < 256 * h + 256) by (clear - Hpage; Z.div_mod_to_equations; lia).
  assert (Hq : 0 <= q < 96) by apply HS.
  set (q1 := minutesSinceMidnightLT (d_clock d) / 15) in *.
  assert (HS1 : stands_for (rtc_target (minutesSinceMidnightLT (d_clock d))) q1) by (apply rtc_target_stands; apply Hc).
  destruct x as [|f|f m dy]; cbn [happen allowed] in *.
  - destruct (C42_tick _ Hc) as [Hc' HT].
    assert (HT' : total_seconds (rtc_tick (d_clock d)) = total_seconds (d_clock d) + 2).
    { rewrite HT. apply Z.mod_small. unfold HORIZON. lia. }
    unfold dinv; cbn [d_clock d_ee d_age d_ticks d_cuts d_good].
    split; [exact Hc'|]. split; [exact HB|]. split; [lia|]. split; [lia|]. split; [lia|]. split; [exact H9|]. split.
    + exists q, t. split; [exact HS|]. split; [exact Ht|lia].
    + exists e. split; [lia|exact Hb].
  - pose proof (persist_mem _ _ f Hc HB) as (_ & _ & _ & _ & _ & HD & HF). specialize (HF Hal). destruct (HD HF) as (H10 & Hnew & Hold).
    pose proof (persist_bytes _ _ f Hc HB) as HB'. pose proof (HB' 8) as B8. pose proof (HB' 9) as B9. unfold byte in B8, B9.
    assert (HX : stored_day (fst (persistRTC (d_clock d) (d_ee d) f)) = daysSince1999LT (d_clock d)).
    { destruct (Z.eq_dec (mem (d_ee d) 10) (rtc_target (minutesSinceMidnightLT (d_clock d)))) as [E|E].
      - rewrite (Hold E). rewrite E in HS. pose proof (stands_for_inj _ _ _ HS HS1) as Eq. clear - Eq Ht Htot HQ2 Ha Hq. subst q. lia.
      - exact (Hnew E). }
    set (s' := fst (persistRTC (d_clock d) (d_ee d) f)) in *. clearbody s'.
    unfold dinv; cbn [d_clock d_ee d_age d_ticks d_cuts d_good].
    split; [exact Hc|]. split; [exact HB'|]. split; [lia|]. split; [exact Hn|]. split; [exact Hk|].
    split; [unfold stored_day in HX; clear - HX Hd B8; lia|]. split.
    + exists q1, (total_seconds (d_clock d)). split; [rewrite H10; exact HS1|]. rewrite HX. split; [exact HQ2|lia].
    + exists e. split; [exact He|exact Hb].
  - pose proof (persist_store _ _ f Hc HB) as HM. cbv zeta in HM. pose proof (persist_bytes _ _ f Hc HB) as HB'.
    set (s' := fst (persistRTC (d_clock d) (d_ee d) f)) in *. clearbody s'. cbv zeta. rewrite restore_runs. cbn [fst snd].
    assert (Hlohi : daysSince1999LT (d_clock d) = daysSince1999LT (d_clock d) mod 256 + 256 * h) by (rewrite <- Hpage; clear; Z.div_mod_to_equations; lia).
    assert (Hx : exists q', stands_for (mem s' 10) q' /\ mem s' 9 = h /\
      -(86400 + 1320) <= 86400 * stored_day s' + 900 * q' + 480 - total_seconds (d_clock d) <= 480).
    { unfold stored_day in *. destruct HM as [(M10 & M8 & M9)|(M10 & HM)].
      - exists q. rewrite M10, M8, M9. split; [exact HS|]. split; [exact H9|]. lia.
      - exists q1. rewrite M10. split; [exact HS1|].
        destruct HM as [(M8 & M9)|[(M8 & M9)|(M8 & M9)]]; rewrite M8, M9, ?H9, ?Hpage; (split; [reflexivity|]).
        + rewrite <- H9. clear - Ht Htot HQ1 HQ2 Ha Hq. lia.
        + rewrite <- Hlohi. lia.
        + rewrite <- Hlohi. lia. }
    destruct Hx as (q' & HS' & H9' & Hx).
    pose proof (restore_good (mem s') q' (mkClock 0 m dy) HB' HS' (proj2 Hal) eq_refl) as (G1 & G2 & _).
    pose proof (restore_day (mem s') q' (mkClock 0 m dy) HB' HS' ltac:(lia) eq_refl) as G3.
    destruct (restored (mem s') (mkClock 0 m dy)) as [c' ok]. cbn [fst snd] in G1, G2, G3. fold (stored_day s') in G3.
    unfold dinv; cbn [d_clock d_ee d_age d_ticks d_cuts d_good].
    split; [exact G2|]. split; [exact HB'|]. split; [lia|]. split; [exact Hn|]. split; [lia|]. split; [exact H9'|].
    assert (Hq' : 0 <= q' < 96) by apply HS'. split.
    + exists q', (86400 * stored_day s' + 900 * q' + 480). split; [exact HS'|]. split; [lia|]. lia.
    + exists (e + (86400 * stored_day s' + 900 * q' + 480 - total_seconds (d_clock d))). split; lia.
Qed.

(** While the date stays among the 256 whose number has the same high byte (the starting
    time plus the time powered, with the error below, stays there), the date and time are
    the start plus the time powered, fast by at most 8 minutes for each cut, and slow by at
    most 22 minutes, and a day if it fell in a persist just after midnight, for each cut. *)
Theorem C188_date_over_cuts : forall c0 s0 f0 hs h,
  clock_ok c0 -> bytes_mem (mem s0) -> (3 <= f0)%nat ->
  let s1 := fst (persistRTC c0 s0 f0) in
  mem s1 8 + 256 * mem s1 9 = daysSince1999LT c0 ->
  let d0 := mkDev c0 s1 0 0 0 true in
  all_allowed d0 hs ->
  let d := fold_left happen hs d0 in
  0 <= h < 255 ->
  86400 * (256 * h) <= total_seconds c0 - (86400 + 1320) * d_cuts d ->
  total_seconds c0 + 2 * d_ticks d + 480 * d_cuts d < 86400 * (256 * h + 256) ->
  exists e, total_seconds (d_clock d) = total_seconds c0 + 2 * d_ticks d + e /\
    - (86400 + 22 * 60) * d_cuts d <= e <= 8 * 60 * d_cuts d.
Proof.
  intros c0 s0 f0 hs h Hc HB Hf. cbv zeta. intros Hday Hal Hh Hlo Hhi.
  pose proof (persist_mem _ _ f0 Hc HB) as (_ & _ & _ & _ & _ & HD & HF). specialize (HF Hf). destruct (HD HF) as [H10 _].
  pose proof (persist_bytes _ _ f0 Hc HB) as HB'. pose proof (HB' 8) as B8. unfold byte in B8.
  set (s1 := fst (persistRTC c0 s0 f0)) in *. clearbody s1.
  pose proof (total_split _ Hc) as HQ. cbv zeta in HQ. destruct HQ as [HQ1 HQ2].
  assert (Hnn : forall d, 0 <= Zlen (filter (fun h => match h with Tick => true | _ => false end) d)) by (intros; unfold Zlen; lia).
  assert (Hnc : forall d, 0 <= Zlen (filter (fun h => match h with Cut _ _ _ => true | _ => false end) d)) by (intros; unfold Zlen; lia).
  assert (Hts : total_seconds c0 = 86400 * daysSince1999LT c0 + (60 * minutesSinceMidnightLT c0 + secondsLT c0)) by (unfold total_seconds; lia).
  assert (Htod : 0 <= 60 * minutesSinceMidnightLT c0 + secondsLT c0 < 86400) by (unfold clock_ok in Hc; lia).
  assert (Hd0 : 256 * h <= daysSince1999LT c0 < 256 * h + 256).
  { destruct (C188_counts hs (mkDev c0 s1 0 0 0 true)) as [E1 E2]. rewrite E1, E2 in *. cbn [d_ticks d_cuts] in *.
    specialize (Hnn hs). specialize (Hnc hs). clear - Hlo Hhi Hnn Hnc Hts Htod. lia. }
  assert (H0 : dinv h (total_seconds c0) (mkDev c0 s1 0 0 0 true)).
  { unfold dinv; cbn [d_clock d_ee d_age d_ticks d_cuts d_good]. unfold stored_day. rewrite Hday.
    split; [exact Hc|]. split; [exact HB'|]. split; [lia|]. split; [lia|]. split; [lia|].
    split; [clear - Hday Hd0 B8; lia|]. split.
    - exists (minutesSinceMidnightLT c0 / 15), (total_seconds c0). split; [rewrite H10; apply rtc_target_stands; apply Hc|]. split; [exact HQ2|lia].
    - exists 0. lia. }
  revert Hal H0 Hlo Hhi. generalize (mkDev c0 s1 0 0 0 true). clear - Hh Hnn Hnc. induction hs as [|x hs IH]; intros d Hal Hi Hlo Hhi.
  - cbn [fold_left]. destruct Hi as (_ & _ & _ & _ & _ & _ & _ & e & H3 & H4). exists e. split; [exact H3|lia].
  - destruct Hal as [Ha Hal]. cbn [fold_left] in *. apply IH; [exact Hal| |exact Hlo|exact Hhi].
    apply dinv_step; [exact Hh|exact Hi| |exact Ha].
    destruct (C188_counts (x :: hs) d) as [E1 E2]. cbn [fold_left] in E1, E2. rewrite E1, E2 in *.
    specialize (Hnn (x :: hs)). specialize (Hnc (x :: hs)).
    set (n1 := Zlen _) in *. set (n2 := Zlen (filter (fun h => match h with Cut _ _ _ => true | _ => false end) _)) in *. clearbody n1 n2.
    destruct Hi as (Hc & _ & _ & Hn & Hk & _ & _ & e & He & Hb).
    assert (Hts : total_seconds (d_clock d) = 86400 * daysSince1999LT (d_clock d) + (60 * minutesSinceMidnightLT (d_clock d) + secondsLT (d_clock d))) by (unfold total_seconds; lia).
    assert (Htod : 0 <= 60 * minutesSinceMidnightLT (d_clock d) + secondsLT (d_clock d) < 86400) by (unfold clock_ok in Hc; lia).
    clear - Hlo Hhi Hnn Hnc Hn Hk He Hb Hts Htod Hh. symmetry. apply (Z.div_unique _ _ _ (daysSince1999LT (d_clock d) - 256 * h)); lia.
Qed.

(** The bound on the day is needed: a cut after the time is stored and before the date is,
    just after midnight, loses the day. *)
Example C188_day_lost :
  let c0 := mkClock 58 1439 6000 in
  let d0 := mkDev c0 (fst (persistRTC c0 (mkEE (fun _ => 255) []) 3%nat)) 0 0 0 true in
  let hs := [Tick; Cut 1%nat 0 0] in
  all_allowed d0 hs /\ mem (d_ee d0) 8 + 256 * mem (d_ee d0) 9 = 6000 /\
  d_clock (fold_left happen hs d0) = mkClock 0 8 6000.
Proof. split; [vm_compute; intuition (congruence || lia)|]. split; vm_compute; reflexivity. Qed.

(** Across those 256 days it is not even so protected: a cut while persisting across midnight can leave a day
    that is neither the old nor the new one, its low byte new and its high byte old. *)
Theorem C188_day_torn_refuted : exists c s f,
  clock_ok c /\ bytes_mem (mem s) /\
  mem s 8 + 256 * mem s 9 = 6143 /\ daysSince1999LT c = 6144 /\
  let r := restored (mem (fst (persistRTC c s f))) (mkClock 0 0 0) in
  snd r = true /\ daysSince1999LT (fst r) = 5888.
Proof.
  exists (mkClock 0 0 6144), (mkEE (fun a => if a =? 8 then 255 else if a =? 9 then 23 else if a =? 10 then 184 else 255) []), 2%nat.
  split; [vm_compute; intuition congruence|].
  split; [intros a; unfold byte; cbn [mem]; destruct (a =? 8), (a =? 9), (a =? 10); lia|].
  split; [reflexivity|]. split; [reflexivity|]. cbv zeta. split; vm_compute; reflexivity.
Qed.

(** A history meeting the hypotheses: a tick, a cut in the middle of a persist, a tick. *)
Example C188_nonvacuous :
  let c0 := mkClock 0 453 6000 in
  let d0 := mkDev c0 (fst (persistRTC c0 (mkEE (fun _ => 255) []) 3%nat)) 0 0 0 true in
  let hs := [Tick; Cut 1%nat 0 0; Tick; Persist 3%nat] in
  clock_ok c0 /\ bytes_mem (fun _ => 255) /\ all_allowed d0 hs /\
  d_cuts (fold_left happen hs d0) = 1 /\ tod (d_clock (fold_left happen hs d0)) = 60 * 458 + 2.
Proof.
  split; [vm_compute; intuition congruence|]. split; [intros a; unfold byte; lia|].
  split; [vm_compute; intuition (congruence || lia)|]. split; vm_compute; reflexivity.
Qed.

Print Assumptions C188_clock_over_cuts.
Print Assumptions C188_date_over_cuts.
Print Assumptions C188_day_torn_refuted.
