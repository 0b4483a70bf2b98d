(** Properties of the delays, naps and sub-cycle sleeps (C144-C147). *)
From Verif Require Import Base SleepModel.

(** ** Sleeping to a sub-cycle time (C144) *)

(** What the hardware promises about a sleep, in half microseconds: a nap never
    takes more than one and a half times its nominal time, a low-power slice of
    "a little less than a millisecond" never more than 1.2 ms, and every sleep
    takes some time. *)
Definition sleep_ok (r : Req) (d : Z) : Prop :=
  match r with
  | Nap ms => 0 < ms -> 0 < d <= 3 * (ms * 2000) / 2
  | Low n => 0 < n -> 0 < d <= n * 2400
  end.

Lemma request_fits ticks d : 0 < ticks < 256 -> sleep_ok (sleep_request ticks) d -> 0 < d <= ticks * TICK.
Proof.
  intros HT. unfold sleep_request, TICK_MS_RD, TICK. change (2000 / 256) with 7. rewrite (u16_id (7 * ticks)) by lia.
  destruct (ticks =? 1) eqn:E1; [cbn [sleep_ok]; lia|]. cbv zeta.
  destruct (20 <=? 7 * ticks) eqn:E20.
  - destruct (80 <=? 7 * ticks) eqn:E80; [destruct (333 <=? 7 * ticks) eqn:E333|]; cbn [sleep_ok]; intros H.
    + specialize (H eq_refl). change (3 * (250 * 2000) / 2) with 750000 in H. lia.
    + specialize (H eq_refl). change (3 * (60 * 2000) / 2) with 180000 in H. lia.
    + specialize (H eq_refl). change (3 * (15 * 2000) / 2) with 45000 in H. lia.
  - cbn [sleep_ok]. rewrite u16_id by lia. lia.
Qed.

Lemma subcycle_small T : 0 <= T < 256 * TICK -> subcycle TICK T = T / TICK.
Proof.
  unfold subcycle, TICK. intros H. apply u8_id. red.
  split; [apply Z.div_pos; lia | apply Z.div_lt_upper_bound; lia].
Qed.

Lemma sleep_until_gen dur target : 0 <= target <= 255 -> (forall k r, sleep_ok r (dur k r)) ->
  forall (n : nat) k T, 0 <= T < 256 * TICK -> T / TICK <= target -> (target + 1) * TICK - T <= Z.of_nat n ->
  exists T', sleep_until n dur k T target = Some (true, T') /\ T <= T' /\ T' / TICK = target.
Proof.
  intros HT HD. induction n as [|n IH]; intros k T H0 Hle Hn.
  { exfalso. assert (HX : T < (target + 1) * TICK); [|lia].
    unfold TICK in *. pose proof (Z.div_mod T 15625 ltac:(lia)) as HM. pose proof (Z.mod_pos_bound T 15625 ltac:(lia)). lia. }
  cbn [sleep_until]. cbv zeta. rewrite subcycle_small by exact H0.
  destruct (T / TICK =? target) eqn:E. { exists T. split; [reflexivity|]. lia. }
  replace (target <? T / TICK) with false by lia.
  assert (HP : 0 <= T / TICK) by (apply Z.div_pos; unfold TICK; lia).
  rewrite u8_id by (red; lia).
  pose proof (request_fits (target - T / TICK) _ ltac:(lia) (HD k (sleep_request (target - T / TICK)))) as HF.
  set (d := dur k (sleep_request (target - T / TICK))) in *. clearbody d.
  assert (HB : T + d < (target + 1) * TICK).
  { unfold TICK in *. pose proof (Z.div_mod T 15625 ltac:(lia)) as HM. pose proof (Z.mod_pos_bound T 15625 ltac:(lia)). nia. }
  assert (HL : (T + d) / TICK <= target) by (assert ((T + d) / TICK < target + 1) by (apply Z.div_lt_upper_bound; [reflexivity | unfold TICK in *; lia]); lia).
  destruct (IH (S k) (T + d)) as (T' & E' & HT1 & HT2); [unfold TICK in *; nia | exact HL | lia |].
  exists T'. split; [exact E'|]. split; [lia | exact HT2].
Qed.

(** Asked to sleep to a later tick of the cycle it is in, sleepUntilSubCycleTime
    returns true within that very tick of that very cycle: from any phase of any
    tick, for any sleeps that keep to [sleep_ok], with no tick missed. *)
Theorem sleep_until_hits : forall dur target T, 0 <= target <= 255 -> (forall k r, sleep_ok r (dur k r)) ->
  0 <= T < 256 * TICK -> T / TICK <= target ->
  exists fuel T', sleep_until fuel dur 0 T target = Some (true, T') /\ T <= T' /\ target * TICK <= T' < (target + 1) * TICK.
Proof.
  intros dur target T HT HD H0 Hle.
  assert (HF : exists N, Z.of_nat N = (target + 1) * TICK - T \/ Z.of_nat N = 0 /\ (target + 1) * TICK - T < 0).
  { destruct (Z_lt_le_dec ((target + 1) * TICK - T) 0); [exists O; auto | exists (Z.to_nat ((target + 1) * TICK - T)); left; apply Z2Nat.id; assumption]. }
  destruct HF as (N & HN). destruct (sleep_until_gen dur target HT HD N 0 T H0 Hle ltac:(lia)) as (T' & E & H1 & H2).
  exists N, T'. split; [exact E|]. split; [exact H1|]. unfold TICK in *.
  pose proof (Z.div_mod T' 15625 ltac:(lia)) as HM. pose proof (Z.mod_pos_bound T' 15625 ltac:(lia)). lia.
Qed.

(** A time already passed is reported at once, without sleeping. *)
Theorem sleep_until_passed : forall fuel dur target T, 0 <= T < 256 * TICK -> target < T / TICK -> (0 < fuel)%nat ->
  sleep_until fuel dur 0 T target = Some (false, T).
Proof.
  intros [|f] dur target T H0 Hlt HF; [lia|]. cbn [sleep_until]. cbv zeta. rewrite subcycle_small by exact H0.
  replace (T / TICK =? target) with false by lia. replace (target <? T / TICK) with true by lia. reflexivity.
Qed.

(** Whatever the sleeps do: the answer true is only ever given in the target
    tick (of some cycle), and false only after it. *)
Theorem sleep_until_sound : forall fuel dur k T target b T', sleep_until fuel dur k T target = Some (b, T') ->
  if b then subcycle TICK T' = target else target < subcycle TICK T'.
Proof.
  induction fuel as [|f IH]; intros dur k T target b T'; cbn [sleep_until]; [discriminate|]. cbv zeta.
  destruct (subcycle TICK T =? target) eqn:E.
  - intros H. apply some_inj in H. apply pair_inj in H as [<- <-]. lia.
  - destruct (target <? subcycle TICK T) eqn:E2.
    + intros H. apply some_inj in H. apply pair_inj in H as [<- <-]. lia.
    + intros H. exact (IH _ _ _ _ _ _ H).
Qed.

(** Near the end of the cycle a nap that overruns by 60% is not "significantly
    missed ... false": the call runs on into the next cycle and answers true
    nearly two seconds late. *)
Theorem sleep_until_late_refuted :
  exists dur fuel T', (forall k ms, dur k (Nap ms) <= 16 * (ms * 2000) / 10) /\
    sleep_until fuel dur 0 (207 * TICK) 255 = Some (true, T') /\ T' / TICK = 256 + 255.
Proof.
  exists (fun k r => match r with Nap ms => if Nat.eqb k 0 then 16 * (ms * 2000) / 10 else Z.min (ms * 2000) (16 * (ms * 2000) / 10) | Low n => n * 1280 end), 40%nat.
  eexists. split; [intros k ms; destruct (Nat.eqb k 0); lia|]. split; vm_compute; reflexivity.
Qed.

(** A real run: from the middle of tick 3 to tick 200 with nominal sleeps: the
    call sleeps 5 x 250 ms, then 60 ms, ... and ends in tick 200. *)
Example sleep_until_case :
  let dur := fun (k : nat) r => match r with Nap ms => ms * 2000 | Low n => n * 1280 end in
  (forall k r, sleep_ok r (dur k r)) /\
  exists T', sleep_until 30 dur 0 (3 * TICK + 7000) 200 = Some (true, T') /\ T' / TICK = 200.
Proof.
  cbv zeta. split. { intros k [n|n]; unfold sleep_ok; lia. } eexists. split; vm_compute; reflexivity.
Qed.

(** ** Naps (C145) *)

Definition round_fires (r : list Wake * Wake) : bool := existsb fires (fst r) || fires (snd r).

Lemma nap_loop_spec premature rounds : forall fired k, (fired = true -> premature = true) ->
  nap_loop premature rounds fired k =
  match rounds with
  | [] => None
  | r :: rs => if fired || round_fires r then Some (true, k + 1)
               else if premature then Some (false, k + 1)
               else nap_loop premature rs false (k + 1)
  end.
Proof.
  destruct rounds as [|[pre w] rs]; intros fired k HF; [reflexivity|]. cbn [nap_loop]. cbv zeta. unfold round_fires. cbn [fst snd].
  rewrite orb_assoc. destruct (fired || existsb fires pre || fires w) eqn:E; cbn [orb]; [reflexivity|]. destruct premature; reflexivity.
Qed.

(** nap(t), and nap(t, false): returns after the first sleep by whose end the
    watchdog has fired, answering true, and sleeps on through every other
    interrupt. *)
Theorem nap_full_partial : forall rounds tail,
  match nap false rounds tail with
  | Some (b, k) => b = true /\ exists before r after, rounds = before ++ r :: after /\ k = Zlen before + 1 /\
                   round_fires r = true /\ forallb (fun x => negb (round_fires x)) before = true
  | None => forallb (fun x => negb (round_fires x)) rounds = true
  end.
Proof.
  intros rounds tail. unfold nap.
  assert (G : forall rounds k, match nap_loop false rounds false k with
    | Some (b, k') => b = true /\ exists before r after, rounds = before ++ r :: after /\ k' = k + Zlen before + 1 /\
                   round_fires r = true /\ forallb (fun x => negb (round_fires x)) before = true
    | None => forallb (fun x => negb (round_fires x)) rounds = true end).
  { clear. induction rounds as [|r rs IH]; intros k; [reflexivity|]. rewrite nap_loop_spec by discriminate. cbn [orb].
    destruct (round_fires r) eqn:E.
    - split; [reflexivity|]. exists [], r, rs. change (@Zlen (list Wake * Wake) []) with 0. split; [reflexivity|]. split; [lia|]. split; [exact E | reflexivity].
    - specialize (IH (k + 1)). destruct (nap_loop false rs false (k + 1)) as [[b k']|].
      + destruct IH as (-> & bf & r' & af & -> & -> & H1 & H2). split; [reflexivity|]. exists (r :: bf), r', af. rewrite Zlen_cons.
        split; [reflexivity|]. split; [lia|]. split; [exact H1|]. cbn [forallb]. rewrite E, H2. reflexivity.
      + cbn [forallb]. rewrite E, IH. reflexivity. }
  specialize (G rounds 0). destruct (nap_loop false rounds false 0) as [[b k]|]; [|exact G].
  destruct G as (-> & bf & r & af & H1 & H2 & H3). split; [reflexivity|]. exists bf, r, af. split; [exact H1|]. split; [lia | exact H3].
Qed.

(** With premature wake-ups allowed the first wake of any kind ends it, and the
    answer is whether the watchdog fired. *)
Theorem nap_premature : forall r rounds tail, nap true (r :: rounds) tail = Some (round_fires r, 1).
Proof.
  intros r rounds tail. unfold nap. rewrite nap_loop_spec by reflexivity. cbn [orb]. destruct (round_fires r); reflexivity.
Qed.

(** But the watchdog firing is not enough to end a nap: served while the CPU is
    awake between the test and the sleep instruction (after another interrupt),
    it is lost to the sleep that follows, which lasts until some further
    interrupt, for ever if there is none. *)
Theorem nap_lost_wake_refuted : exists premature rounds tail, In WDT tail /\ nap premature rounds tail = None.
Proof. exists false, [([], OtherInt)], [WDT]. split; [left; reflexivity | reflexivity]. Qed.

(** The same in sleepUntilNewCycle: the seconds it returns are never the old
    ones, and are those of the moment; *)
Theorem new_cycle_sound : forall rounds sec old k s n, new_cycle rounds sec old k = Some (s, n) ->
  s <> old /\ (s = sec /\ n = k \/ exists r, In r rounds /\ s = snd r).
Proof.
  induction rounds as [|[a b] rs IH]; intros sec old k s n; cbn [new_cycle]; destruct (sec =? old) eqn:E; cbn [negb].
  - discriminate.
  - intros H. apply some_inj in H. apply pair_inj in H as [<- <-]. split; [lia | left; split; reflexivity].
  - intros H. destruct (IH _ _ _ _ _ H) as (H1 & [(-> & _) | (r & HI & ->)]).
    + split; [exact H1|]. right. exists (a, b). split; [left; reflexivity | reflexivity].
    + split; [exact H1|]. right. exists r. split; [right; exact HI | reflexivity].
  - intros H. apply some_inj in H. apply pair_inj in H as [<- <-]. split; [lia | left; split; reflexivity].
Qed.
(** a roll of the seconds served between the test and the sleep is slept
    through: the next value seen is two rolls on. *)
Theorem new_cycle_missed_refuted : new_cycle [(42, 44)] 40 40 0 = Some (44, 1).
Proof. reflexivity. Qed.

Example nap_case : nap false [([], OtherInt); ([OtherInt], OtherInt); ([], WDT); ([], OtherInt)] [] = Some (true, 3)
  /\ nap true [([], OtherInt); ([], WDT)] [] = Some (false, 1).
Proof. split; reflexivity. Qed.

(** ** Delays (C146) *)

Lemma x4_loop_spec (m : nat) : forall n c, 0 < n -> n <= Z.of_nat m -> n < 256 -> x4_loop m n c = c + 4 * n.
Proof.
  induction m as [|m IH]; intros n c H0 Hm H; [lia|]. cbn [x4_loop]. cbv zeta. rewrite u8_id by (red; lia).
  destruct (n - 1 =? 0) eqn:E; [lia|]. rewrite IH by lia. lia.
Qed.

Lemma x4cycles_spec n : x4cycles n = 4 * (if u8 n =? 0 then 256 else u8 n).
Proof.
  unfold x4cycles. pose proof (u8_byte n) as HB. red in HB. destruct (u8 n =? 0) eqn:E.
  - replace (u8 n) with 0 by lia. vm_compute. reflexivity.
  - rewrite x4_loop_spec by lia. lia.
Qed.

(** AVR at 1 MHz: a delay of 4 to 1023 us that is a compile-time constant takes
    exactly that many cycles (as does 0 to 3), any other argument in that range
    is rounded down to a multiple of 4. *)
Theorem spin_exact_partial : forall us, 0 <= us <= 1023 -> spin_1MHz true us = us.
Proof.
  intros us H. unfold spin_1MHz. cbn [andb]. destruct (us =? 0) eqn:E0; [lia|].
  rewrite !Z.testbit_odd. rewrite Z.shiftr_0_r. rewrite Z.shiftr_div_pow2 by lia. change (2 ^ 1) with 2.
  assert (HD : us = 4 * (us / 4) + 2 * (if Z.odd (us / 2) then 1 else 0) + (if Z.odd us then 1 else 0)).
  { pose proof (Z.div_mod us 2 ltac:(lia)) as A. pose proof (Z.div_mod (us / 2) 2 ltac:(lia)) as B.
    rewrite (Zmod_odd us) in A. rewrite (Zmod_odd (us / 2)) in B. rewrite Z.div_div in B by lia. change (2 * 2) with 4 in B. lia. }
  rewrite x4cycles_spec. rewrite u8_id by (red; split; [apply Z.div_pos; lia | apply Z.div_lt_upper_bound; lia]).
  destruct (4 <=? us) eqn:E4.
  - assert (1 <= us / 4) by (apply Z.div_le_lower_bound; lia). replace (us / 4 =? 0) with false by lia.
    destruct (Z.odd us), (Z.odd (us / 2)); lia.
  - assert (us / 4 = 0) by (apply Z.div_small; lia). destruct (Z.odd us), (Z.odd (us / 2)); lia.
Qed.
Theorem spin_var : forall us, 4 <= us <= 1023 -> spin_1MHz false us = us - us mod 4.
Proof.
  intros us H. unfold spin_1MHz. cbn [andb]. rewrite x4cycles_spec. rewrite u8_id by (red; split; [apply Z.div_pos; lia | apply Z.div_lt_upper_bound; lia]).
  assert (1 <= us / 4) by (apply Z.div_le_lower_bound; lia). replace (us / 4 =? 0) with false by lia. replace (4 <=? us) with true by lia.
  pose proof (Z.div_mod us 4 ltac:(lia)). lia.
Qed.
(** delay_ms(ms) takes 996 us a millisecond (before the overheads). *)
Theorem delay_ms_exact : forall ms, delay_ms_1MHz ms = 996 * ms.
Proof. intros ms. unfold delay_ms_1MHz. rewrite spin_exact_partial by lia. lia. Qed.
(** One microsecond past 1027 the 8-bit loop count has gone round: 1028 us is 4. *)
Theorem spin_wrap_refuted : spin_1MHz true 1028 = 4.
Proof. vm_compute. reflexivity. Qed.

(** AVR at 16 MHz: exact unless the time is a multiple of 64 us, *)
Theorem spin16_exact : forall b us, 0 < us < 16384 -> us mod 64 <> 0 -> spin_16MHz b us = 16 * us.
Proof.
  intros b us H HM. unfold spin_16MHz. replace (us =? 0) with false by lia. rewrite andb_false_r. rewrite !x4cycles_spec.
  change (if u8 0 =? 0 then 256 else u8 0) with 256. pose proof (Z.mod_pos_bound us 64 ltac:(lia)) as HB.
  rewrite (u8_id (us mod 64 * 4)) by (red; lia). replace (us mod 64 * 4 =? 0) with false by lia.
  rewrite u8_id by (red; split; [apply Z.div_pos; lia | apply Z.div_lt_upper_bound; lia]).
  pose proof (Z.div_mod us 64 ltac:(lia)). lia.
Qed.
(** and then 64 us too long: asked for 64 us it takes 128. *)
Theorem spin16_multiple_refuted : forall b us, 0 < us < 16384 -> us mod 64 = 0 -> spin_16MHz b us = 16 * (us + 64).
Proof.
  intros b us H HM. unfold spin_16MHz. replace (us =? 0) with false by lia. rewrite andb_false_r, HM. rewrite !x4cycles_spec.
  change (if u8 0 =? 0 then 256 else u8 0) with 256. change (if u8 (0 * 4) =? 0 then 256 else u8 (0 * 4)) with 256.
  rewrite u8_id by (red; split; [apply Z.div_pos; lia | apply Z.div_lt_upper_bound; lia]).
  pose proof (Z.div_mod us 64 ltac:(lia)). lia.
Qed.

(** ARM: the loop counts that _delay_x4cycles passes on are wrong for every
    argument: asked for 1 to 255 loops it makes 2^32 of them. *)
Theorem arm_x4_refuted : forall n, 0 < n < 256 -> arm_x4cycles n = 4 * 2 ^ 32.
Proof. intros n H. unfold arm_x4cycles. replace (n =? 0) with false by lia. reflexivity. Qed.
(** ARM busy-spin delays are short by the rounding of the loop time: 16 cycles
    for every 19 asked, for any time up to 2^30 us; *)
Theorem arm_spin_short : forall us, 0 < us < 2 ^ 30 -> arm_spin us = 16 * us.
Proof.
  intros us H. unfold arm_spin, ARM_LOOP_NS, arm_x4long. change (1000 / (1000000000 / (19000000 / 4))) with 4.
  rewrite Z.mod_small by lia. replace (us * 4 =? 0) with false by lia. lia.
Qed.
(** a delay of 0 us takes 2^32 loops (15 minutes); *)
Theorem arm_spin_zero_refuted : arm_spin 0 = 4 * 2 ^ 32 /\ 4 * 2 ^ 32 > 900 * 19000000.
Proof. split; [reflexivity | lia]. Qed.
(** and delay_ms takes less than half of the time asked for. *)
Theorem arm_delay_ms_refuted : forall ms, 0 < ms < 256 -> 2 * arm_delay_ms ms < 19000 * ms.
Proof. intros ms H. unfold arm_delay_ms. change (arm_spin (1000000 / (ARM_LOOP_NS * 9))) with 8464. lia. Qed.

(** Low-power slices: one millisecond asked of sleepLowPowerLessThanMs takes
    0.64 ms in its loop, within the 1.2 ms of [sleep_ok]; *)
Theorem low_slice_short : low_slice = 1280.
Proof. reflexivity. Qed.
(** but _sleepLowPowerMs, "good for values up to at least 1000", wraps round
    from 3 ms on: it then sleeps less long than for 2 ms. *)
Theorem low_ms_refuted : low_loops_ms 1 = 6 /\ low_loops_ms 2 = 14 /\ low_loops_ms 3 = 5 /\
  exists ms, 3 <= ms <= 1000 /\ low_loops_ms ms = 65534.
Proof. split; [reflexivity|]. split; [reflexivity|]. split; [reflexivity|]. exists 21. split; [lia | reflexivity]. Qed.

(** ** Sub-cycle arithmetic (C147) *)

(** msRemainingThisBasicCycle never promises more time than is left of the
    cycle, and never under-states it by more than an eighth and two ticks. *)
Theorem ms_remaining_safe_partial : forall T, 0 <= T < 256 * TICK ->
  let left := 256 * TICK - T in 2000 * ms_remaining T <= left /\ 8 * left <= 9 * (2000 * ms_remaining T) + 16 * TICK.
Proof.
  intros T H. cbv zeta. unfold ms_remaining. rewrite subcycle_small by exact H. change TICK_MS_RD with 7.
  assert (HP : 0 <= T / TICK < 256) by (split; [apply Z.div_pos; unfold TICK in *; lia | apply Z.div_lt_upper_bound; unfold TICK in *; lia]).
  rewrite u16_id by lia. pose proof (Z.div_mod T TICK ltac:(unfold TICK; lia)) as HD. pose proof (Z.mod_pos_bound T TICK ltac:(unfold TICK; lia)). unfold TICK in *. lia.
Qed.
(** The EFR32's emulated sub-cycle, "every 2/256 seconds", counts whole
    milliseconds, and is over one part in ten fast: a 2 s cycle lasts at most
    1.792 s by any core clock up to 600 MHz. *)
Theorem emulated_fast_refuted : forall hz, 0 < hz <= 600000000 -> 256 * emulated_ticks hz * 1000 <= 1792 * hz.
Proof.
  intros hz H. unfold emulated_ticks, systick_ticks. change (2000 / 256) with 7. rewrite Z.mod_small by lia.
  pose proof (Z.mul_div_le (hz * 7) 1000 ltac:(lia)). lia.
Qed.
Example emulated_case : emulated_ticks 19000000 = 133000 /\ 19000000 * 2 / 256 = 148437.
Proof. split; reflexivity. Qed.
