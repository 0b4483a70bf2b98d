(** Properties of the oscillator tests and calibration (C148, C149). *)
From Verif Require Import Base SleepModel SleepProps.

(** ** Is the slow clock running? (C148) *)

Lemma osc_loop_spec initial read : forall n i,
  osc_loop n i initial read = true <->
  exists k, (i <= k < i + n)%nat /\ read k <> initial /\ read k <> u8 (initial + 1).
Proof.
  induction n as [|n IH]; intros i; cbn [osc_loop]; cbv zeta.
  - split; [discriminate|]. intros (k & H & _). lia.
  - destruct (negb (read i =? initial) && negb (read i =? u8 (initial + 1))) eqn:E.
    + split; [intros _|reflexivity]. exists i. lia.
    + rewrite IH. split; intros (k & Hk & H1 & H2).
      * exists k. lia.
      * destruct (Nat.eq_dec k i) as [-> | Hne]; [lia|]. exists k. lia.
Qed.

(** The test passes exactly if one of 254 readings differs from the first and
    from its successor; a stopped counter never passes. *)
Theorem osc_passes : forall initial read, check_osc initial read = true <->
  exists k, (k < 254)%nat /\ read k <> initial /\ read k <> u8 (initial + 1).
Proof.
  intros initial read. unfold check_osc. rewrite osc_loop_spec. split; intros (k & H & H1); exists k; (split; [lia | exact H1]).
Qed.
Theorem osc_stopped : forall initial, check_osc initial (fun _ => initial) = false.
Proof.
  intros initial. destruct (check_osc initial (fun _ => initial)) eqn:E; [|reflexivity].
  apply osc_passes in E as (k & _ & H & _). contradiction.
Qed.

(** Time of the i-th reading, after i naps of the given lengths. *)
Fixpoint at_read (T0 : Z) (naps : nat -> Z) (i : nat) : Z :=
  match i with O => T0 | S j => at_read T0 naps j + naps j end.

Lemma at_read_lower T0 naps lo : (forall i, lo <= naps i) -> forall n, T0 + Z.of_nat n * lo <= at_read T0 naps n.
Proof. intros H. induction n as [|n IH]; cbn [at_read]; [lia|]. specialize (H n). lia. Qed.

Lemma first_above p hi T0 naps : 0 < p -> 0 <= T0 -> (forall i, 0 <= naps i <= hi) -> forall n,
  2 <= at_read T0 naps n / p - T0 / p ->
  exists k, (k <= n)%nat /\ 2 <= at_read T0 naps k / p - T0 / p /\ at_read T0 naps k <= (T0 / p + 2) * p - 1 + hi.
Proof.
  intros Hp H0 HN. induction n as [|n IH]; intros H; [cbn [at_read] in H; lia|].
  destruct (Z_lt_le_dec (at_read T0 naps n / p - T0 / p) 2) as [L|G].
  - exists (S n). split; [lia|]. split; [exact H|]. cbn [at_read] in *.
    assert (at_read T0 naps n < (T0 / p + 2) * p).
    { pose proof (Z.div_mod (at_read T0 naps n) p ltac:(lia)) as HD. pose proof (Z.mod_pos_bound (at_read T0 naps n) p Hp). nia. }
    pose proof (HN n). lia.
  - destruct (IH G) as (k & Hk & H1 & H2). exists k. split; [lia|]. auto.
Qed.

(** A counter that runs, at whatever rate (one count per [p] units of time), is
    found to run if the 253 naps of at least [lo] take two counts and none of
    them takes 253. *)
Theorem osc_running : forall p lo hi T0 naps, 0 < p -> 0 <= T0 -> (forall i, 0 <= lo <= naps i /\ naps i <= hi) ->
  2 * p <= 253 * lo -> hi <= 253 * p ->
  check_osc (subcycle p T0) (fun i => subcycle p (at_read T0 naps i)) = true.
Proof.
  intros p lo hi T0 naps Hp H0 HN Hlo Hhi. apply osc_passes.
  assert (HB : 2 <= at_read T0 naps 253 / p - T0 / p).
  { pose proof (at_read_lower T0 naps lo (fun i => proj2 (proj1 (HN i))) 253) as HL. change (Z.of_nat 253) with 253 in HL.
    assert ((T0 + 2 * p) / p <= at_read T0 naps 253 / p) by (apply Z.div_le_mono; lia). rewrite Z.div_add in H by lia. lia. }
  destruct (first_above p hi T0 naps Hp H0 ltac:(intros i; specialize (HN i); lia) 253 HB) as (k & Hk & H1 & H2).
  exists k. split; [lia|].
  assert (H3 : at_read T0 naps k / p - T0 / p < 256).
  { assert (at_read T0 naps k / p < T0 / p + 256); [|lia]. apply Z.div_lt_upper_bound; [exact Hp|]. lia. }
  unfold subcycle, u8. set (a := at_read T0 naps k / p) in *. set (b := T0 / p) in *. clearbody a b.
  clear - H1 H3. pose proof (Z.div_mod a 256 ltac:(lia)). pose proof (Z.div_mod b 256 ltac:(lia)).
  pose proof (Z.mod_pos_bound a 256 ltac:(lia)). pose proof (Z.mod_pos_bound b 256 ltac:(lia)).
  rewrite Zplus_mod_idemp_l. pose proof (Z.div_mod (b + 1) 256 ltac:(lia)). pose proof (Z.mod_pos_bound (b + 1) 256 ltac:(lia)).
  split; nia.
Qed.

(** The crystal at its proper rate, with naps of 10 ms to 40 ms. *)
Example osc_running_case : forall T0 naps, 0 <= T0 -> (forall i, 20000 <= naps i <= 80000) ->
  check_osc (subcycle TICK T0) (fun i => subcycle TICK (at_read T0 naps i)) = true.
Proof.
  intros T0 naps H0 HN. apply (osc_running TICK 20000 80000 T0 naps); [reflexivity | exact H0 | | unfold TICK; lia | unfold TICK; lia].
  intros i. specialize (HN i). lia.
Qed.

(** But a nap that is a whole multiple of the cycle makes a running counter look
    stopped. *)
Theorem osc_aliased_refuted : forall T0, 0 <= T0 ->
  check_osc (subcycle TICK T0) (fun i => subcycle TICK (at_read T0 (fun _ => 256 * TICK) i)) = false.
Proof.
  intros T0 H0. set (rd := fun i => subcycle TICK (at_read T0 (fun _ => 256 * TICK) i)).
  destruct (check_osc (subcycle TICK T0) rd) eqn:E; [|reflexivity]. apply osc_passes in E as (k & _ & H & _). exfalso. apply H. unfold rd.
  assert (G : forall k, at_read T0 (fun _ => 256 * TICK) k = T0 + Z.of_nat k * 256 * TICK).
  { clear. induction k as [|k IH]; cbn [at_read]; [lia|]. rewrite IH. lia. }
  rewrite G. unfold subcycle, u8. rewrite Z.div_add by (unfold TICK; lia). rewrite Z.mod_add by lia. reflexivity.
Qed.

(** ** The extended test (C148) *)

Lemma osc_ext_spec cycles : forall n i k, 0 <= i -> i + Z.of_nat n >= 32 -> i <= 31 ->
  osc_ext_loop n i k cycles = true <-> exists j, (j < 32 - Z.to_nat i)%nat /\ 118 < u8 (cycles (k + j)%nat) < 126.
Proof.
  induction n as [|n IH]; intros i k H0 Hn Hi; [lia|]. cbn [osc_ext_loop]. cbv zeta.
  change (122 + 4) with 126. change (122 - 4) with 118.
  destruct ((u8 (cycles k) <? 126) && (118 <? u8 (cycles k))) eqn:E.
  - split; [intros _|reflexivity]. exists O. rewrite Nat.add_0_r. lia.
  - destruct (30 <? i) eqn:E30.
    + split; [discriminate|]. intros (j & Hj & H). assert (j = O) by lia. subst j. rewrite Nat.add_0_r in H. lia.
    + rewrite u8_id by (red; lia). rewrite IH by lia. split; intros (j & Hj & H).
      * exists (S j). split; [lia|]. rewrite Nat.add_succ_r. exact H.
      * destruct j as [|j]; [rewrite Nat.add_0_r in H; lia|]. exists j. split; [lia|]. rewrite Nat.add_succ_r in H. exact H.
Qed.

(** The extended test passes exactly if the slow clock runs and one of at most
    32 measured ticks gives a count of 119 to 125 modulo 256, *)
Theorem osc_ext_passes : forall initial read cycles,
  check_osc_ext initial read cycles = true <->
  check_osc initial read = true /\ exists j, (j < 32)%nat /\ 118 < u8 (cycles j) < 126.
Proof.
  intros initial read cycles. unfold check_osc_ext. destruct (check_osc initial read).
  - rewrite osc_ext_spec by (cbn; lia). change (32 - Z.to_nat 0)%nat with 32%nat. split; [intros H; split; [reflexivity | exact H] | intros [_ H]; exact H].
  - split; [discriminate | intros [H _]; discriminate].
Qed.
(** that is, at the proper crystal rate, for a CPU clock within about 2.5% of
    1 MHz (a count is 64 CPU cycles); *)
Theorem osc_ext_good : forall initial read cycles, check_osc initial read = true ->
  119 <= cycles O <= 125 -> check_osc_ext initial read cycles = true.
Proof.
  intros initial read cycles H HC. apply osc_ext_passes. split; [exact H|]. exists O. split; [lia|]. rewrite u8_id by (red; lia). lia.
Qed.
(** a clock wrong by a factor of three is waved through, as the counter is 8 bits. *)
Theorem osc_ext_alias_refuted : forall initial read, check_osc initial read = true ->
  check_osc_ext initial read (fun _ => 378) = true.
Proof. intros initial read H. apply osc_ext_passes. split; [exact H|]. exists O. split; [lia|]. change (u8 378) with 122. lia. Qed.

(** ** Calibrating the internal oscillator (C149) *)

Lemma cal_loop_inv loops : forall n k v b v' k', cal_loop n k v loops = (b, v', k') -> byte v ->
  byte v' /\ (k <= k' <= k + n)%nat /\
  (b = true -> v' <> 128 /\ v' <> 255 /\ exists j, S j = k' /\ u8 (loops j v') = 200) /\
  (128 <= v -> 128 <= v') /\ Z.abs (v' - v) <= Z.of_nat n \/ v < 128.
Proof.
  induction n as [|n IH]; intros k v b v' k'; cbn [cal_loop]; cbv zeta.
  - intros H HB. apply pair_inj in H as [H <-]. apply pair_inj in H as [<- <-]. left. repeat split; try lia; try exact HB; try discriminate.
    all: red in HB; lia.
  - change CAL_TARGET with 200. destruct ((v =? 128) || (v =? 255)) eqn:EL.
    + intros H HB. apply pair_inj in H as [H <-]. apply pair_inj in H as [<- <-]. left. red in HB. split; [red; lia|]. split; [lia|]. split; [discriminate|]. split; lia.
    + destruct (Z_lt_le_dec v 128) as [L|G]; [intros; right; exact L|].
      destruct (200 <? u8 (loops k v)) eqn:E1; [|destruct (u8 (loops k v) <? 200) eqn:E2].
      * intros H HB. red in HB. rewrite u8_id in H by (red; lia). apply IH in H; [|red; lia]. destruct H as [(A & B & C & D & F)|H]; [left | right; lia].
        split; [exact A|]. split; [lia|]. split; [exact C|]. split; lia.
      * intros H HB. red in HB. rewrite u8_id in H by (red; lia). apply IH in H; [|red; lia]. destruct H as [(A & B & C & D & F)|H]; [left | right; lia].
        split; [exact A|]. split; [lia|]. split; [exact C|]. split; lia.
      * intros H HB. apply pair_inj in H as [H <-]. apply pair_inj in H as [<- <-]. left. red in HB. split; [red; lia|]. split; [lia|]. split; [intros _|split; lia].
        split; [lia|]. split; [lia|]. exists k. split; [reflexivity | lia].
Qed.

(** Whatever the clocks do, from any setting of the upper range (128 to 255): at
    most 128 measurements are made, OSCCAL stays in that range, and success is
    only reported when the last measurement, taken with the very setting left
    behind, gave the target count of 200 and the setting is not at a limit. *)
Theorem cal_sound : forall initial read loops v b v' n, 128 <= v <= 255 ->
  calibrate initial read v loops = (b, v', n) ->
  128 <= v' <= 255 /\ (n <= 128)%nat /\
  (b = true -> check_osc initial read = true /\ 128 < v' < 255 /\ exists j, S j = n /\ u8 (loops j v') = 200).
Proof.
  intros initial read loops v b v' n Hv. unfold calibrate. destruct (check_osc initial read).
  - intros H. apply cal_loop_inv in H; [|red; lia]. destruct H as [(A & B & C & D & F)|H]; [|lia]. red in A. split; [lia|]. split; [lia|].
    intros Hb. destruct (C Hb) as (C1 & C2 & C3). split; [reflexivity|]. split; [lia | exact C3].
  - intros H. apply pair_inj in H as [H <-]. apply pair_inj in H as [<- <-]. split; [lia|]. split; [lia|]. discriminate.
Qed.

(** Without the slow clock nothing is touched. *)
Theorem cal_no_clock : forall initial read loops v, check_osc initial read = false ->
  calibrate initial read v loops = (false, v, O).
Proof. intros initial read loops v H. unfold calibrate. rewrite H. reflexivity. Qed.

(** If a higher setting makes the clock run faster (each step by at least one
    loop) and the setting [w], inside the limits, is the right one, then it is
    found from any starting point inside the limits. *)
Theorem cal_finds : forall initial read f v w, check_osc initial read = true ->
  128 < v < 255 -> 128 < w < 255 -> f w = 200 ->
  (forall a b, 128 < a -> a < b -> b < 255 -> f a < f b) -> (forall a, 128 < a < 255 -> byte (f a)) ->
  exists n, calibrate initial read v (fun _ => f) = (true, w, n).
Proof.
  intros initial read f v w HO Hv Hw Hf HM HB. unfold calibrate. rewrite HO.
  assert (G : forall n k v, 128 < v < 255 -> Z.abs (v - w) < Z.of_nat n -> exists n', cal_loop n k v (fun _ => f) = (true, w, n')).
  { clear v Hv HO. induction n as [|n IH]; intros k v Hv Hd; [lia|]. cbn [cal_loop]. cbv zeta. change CAL_TARGET with 200.
    replace ((v =? 128) || (v =? 255)) with false by lia. rewrite (u8_id (f v)) by (apply HB; exact Hv).
    destruct (Z.lt_trichotomy v w) as [L|[E|L]].
    - specialize (HM v w ltac:(lia) L ltac:(lia)). replace (200 <? f v) with false by lia. replace (f v <? 200) with true by lia. rewrite u8_id by (red; lia). apply IH; lia.
    - subst v. replace (200 <? f w) with false by lia. replace (f w <? 200) with false by lia. eexists. reflexivity.
    - specialize (HM w v ltac:(lia) L ltac:(lia)). replace (200 <? f v) with true by lia. rewrite u8_id by (red; lia). apply IH; lia. }
  apply G; [exact Hv | lia].
Qed.
Example cal_case : calibrate 7 (fun i => 7 + Z.of_nat i) 158 (fun _ v => v + 1) = (true, 199, 42%nat)
  /\ forall a, 128 < a < 255 -> byte (a + 1).
Proof. split; [vm_compute; reflexivity | intros a H; red; lia]. Qed.

(** Where the calibration fails although it need not: *)
(** when no setting gives the exact count, it steps to and fro between the two
    nearest and reports failure; *)
Theorem cal_between_refuted : exists f, (forall a b, a < b -> f a < f b) /\ f 150 = 199 /\ f 151 = 201 /\
  calibrate 7 (fun i => 7 + Z.of_nat i) 150 (fun _ => f) = (false, 150, 128%nat).
Proof.
  exists (fun v => 2 * v - 101). split; [intros; lia|]. split; [reflexivity|]. split; [reflexivity|]. vm_compute. reflexivity.
Qed.
(** a clock that is right at either limit is reported as failed; *)
Theorem cal_limit_refuted : forall initial read loops v, check_osc initial read = true -> v = 128 \/ v = 255 ->
  calibrate initial read v loops = (false, v, 1%nat).
Proof. intros initial read loops v H [-> | ->]; unfold calibrate; rewrite H; reflexivity. Qed.
(** a clock running at 2.28 times its proper rate is reported as calibrated. *)
Theorem cal_alias_refuted : calibrate 7 (fun i => 7 + Z.of_nat i) 150 (fun _ _ => 456) = (true, 150, 1%nat).
Proof. vm_compute. reflexivity. Qed.
