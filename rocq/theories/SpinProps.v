(** Properties of spinSCTTicks (C152). *)
From Verif Require Import Base AdcModel.

(** A counter that is polled often enough to see each tick of the cycle, and
    that does tick. *)
Definition ticking (sct : nat -> Z) : Prop := forall k, 0 <= sct k < 255 ->
  (sct (S k) = sct k \/ sct (S k) = sct k + 1) /\ exists n, sct (k + n)%nat <> sct k.

Lemma next_tick sct j : ticking sct -> 0 <= sct j < 255 ->
  exists m, sct (j + S m)%nat = sct j + 1 /\ forall i, (i <= m)%nat -> sct (j + i)%nat = sct j.
Proof.
  intros HT Hj. destruct (HT j Hj) as [_ [n Hn]].
  assert (G : forall n, (exists m, sct (j + S m)%nat = sct j + 1 /\ forall i, (i <= m)%nat -> sct (j + i)%nat = sct j) \/ forall i, (i <= n)%nat -> sct (j + i)%nat = sct j).
  { clear n Hn. induction n as [|n IH].
    - right. intros i Hi. replace (j + i)%nat with j by lia. reflexivity.
    - destruct IH as [IH|IH]; [left; exact IH|]. assert (E : sct (j + n)%nat = sct j) by (apply IH; lia).
      destruct (HT (j + n)%nat ltac:(lia)) as [[H1|H1] _].
      + right. intros i Hi. destruct (Nat.eq_dec i (S n)) as [-> | Hne]; [rewrite Nat.add_succ_r, H1; exact E | apply IH; lia].
      + left. exists n. split; [rewrite Nat.add_succ_r, H1, E; reflexivity | exact IH]. }
  destruct (G n) as [G1|G1]; [exact G1|]. exfalso. apply Hn. apply G1. lia.
Qed.

Lemma spin_min_skip sct minRun ticks cur : forall m f j, (forall i, (i < m)%nat -> sct (j + i)%nat = cur) ->
  spin_min (m + f) sct j cur minRun ticks = spin_min f sct (j + m) cur minRun ticks.
Proof.
  induction m as [|m IH]; intros f j H; [rewrite Nat.add_0_r; reflexivity|]. cbn [Nat.add spin_min]. cbv zeta.
  assert (E : sct j = cur) by (specialize (H O ltac:(lia)); rewrite Nat.add_0_r in H; exact H). rewrite E, Z.eqb_refl. cbn [negb].
  rewrite IH by (intros i Hi; specialize (H (S i) ltac:(lia)); rewrite <- H; f_equal; lia). f_equal. lia.
Qed.

Lemma spin_min_run sct minRun : ticking sct -> minRun <= 254 -> forall (d : nat) j ticks, 0 <= sct j -> Z.of_nat (S d) = minRun - sct j ->
  exists f k, spin_min f sct (S j) (sct j) minRun ticks = Some (k, minRun, ticks + Z.of_nat (S d)) /\ (j < k)%nat /\ sct k = minRun /\
    (forall i, (j <= i < k)%nat -> sct j <= sct i < minRun).
Proof.
  intros HT HM. induction d as [|d IH]; intros j ticks H0 Hd.
  all: destruct (next_tick sct j HT ltac:(lia)) as (m & Hm & Hc).
  all: assert (HS : forall i, (i < m)%nat -> sct (S j + i)%nat = sct j) by (intros i Hi; specialize (Hc (S i) ltac:(lia)); rewrite <- Hc; f_equal; lia).
  - exists (m + 1)%nat, (j + S m)%nat. rewrite spin_min_skip by exact HS. replace (S j + m)%nat with (j + S m)%nat by lia. cbn [spin_min]. cbv zeta. rewrite Hm.
    replace (sct j + 1 =? sct j) with false by lia. cbn [negb]. replace (minRun <=? sct j + 1) with true by lia.
    replace (sct j + 1) with minRun by lia. replace (ticks + Z.of_nat 1) with (ticks + 1) by lia. split; [reflexivity|]. split; [lia|]. split; [lia|].
    intros i Hi. replace i with (j + (i - j))%nat by lia. rewrite Hc by lia. lia.
  - destruct (IH (j + S m)%nat (ticks + 1) ltac:(lia) ltac:(lia)) as (f & k & E & Hk & Hs & Hr). exists (m + S f)%nat, k. rewrite spin_min_skip by exact HS.
    replace (S j + m)%nat with (j + S m)%nat by lia. cbn [spin_min]. cbv zeta. rewrite Hm in *. replace (sct j + 1 =? sct j) with false by lia. cbn [negb].
    replace (minRun <=? sct j + 1) with false by lia. rewrite E. replace (ticks + 1 + Z.of_nat (S d)) with (ticks + Z.of_nat (S (S d))) by lia. split; [reflexivity|]. split; [lia|]. split; [exact Hs|].
    intros i Hi. destruct (Nat.lt_ge_cases i (j + S m)) as [L|G]; [|specialize (Hr i ltac:(lia)); lia]. replace i with (j + (i - j))%nat by lia. rewrite Hc by lia. lia.
Qed.

(** The second loop: what it ends with, from reading j on. *)
Definition max_end (sct : nat -> Z) (hi : nat -> bool) (j : nat) (stop base : Z) (k : nat) (ticks : Z) (high : bool) : Prop :=
  (j < k)%nat /\ (forall i, (j <= i < k)%nat -> sct j <= sct i < stop) /\ (forall i, (j < i < k)%nat -> hi i = false) /\
  if high then hi k = true /\ ticks = base + (sct (k - 1)%nat - sct j) else sct k = stop /\ hi k = false /\ ticks = base + (stop - sct j).

Lemma spin_max_skip sct hi maxRun ticks cur : forall m f j, (forall i, (i < m)%nat -> sct (j + i)%nat = cur) ->
  (exists n, (n < m)%nat /\ hi (j + n)%nat = true /\ (forall i, (i < n)%nat -> hi (j + i)%nat = false) /\
     spin_max (m + f) sct hi j cur maxRun ticks = Some ((j + n)%nat, ticks, true)) \/
  ((forall i, (i < m)%nat -> hi (j + i)%nat = false) /\ spin_max (m + f) sct hi j cur maxRun ticks = spin_max f sct hi (j + m) cur maxRun ticks).
Proof.
  induction m as [|m IH]; intros f j H. { right. split; [intros; lia|]. rewrite Nat.add_0_r. reflexivity. }
  cbn [Nat.add spin_max]. cbv zeta. assert (E : sct j = cur) by (specialize (H O ltac:(lia)); rewrite Nat.add_0_r in H; exact H).
  destruct (hi j) eqn:EH. { left. exists O. rewrite Nat.add_0_r. split; [lia|]. split; [exact EH|]. split; [intros; lia | reflexivity]. }
  rewrite E, Z.eqb_refl. cbn [negb].
  destruct (IH f (S j)) as [(n & Hn & H1 & H2 & H3)|[H1 H2]]; [intros i Hi; specialize (H (S i) ltac:(lia)); rewrite <- H; f_equal; lia| |].
  - left. exists (S n). replace (j + S n)%nat with (S j + n)%nat by lia. split; [lia|]. split; [exact H1|]. split; [|exact H3].
    intros [|i] Hi; [rewrite Nat.add_0_r; exact EH|]. replace (j + S i)%nat with (S j + i)%nat by lia. apply H2. lia.
  - right. split; [|rewrite H2; f_equal; lia]. intros [|i] Hi; [rewrite Nat.add_0_r; exact EH|]. replace (j + S i)%nat with (S j + i)%nat by lia. apply H1. lia.
Qed.

Lemma spin_max_run sct hi stop : ticking sct -> stop <= 254 -> forall (d : nat) j base, 0 <= sct j -> Z.of_nat (S d) = stop - sct j ->
  exists f k ticks high, spin_max f sct hi (S j) (sct j) stop base = Some (k, ticks, high) /\ max_end sct hi j stop base k ticks high.
Proof.
  intros HT HM. induction d as [|d IH]; intros j base H0 Hd.
  all: destruct (next_tick sct j HT ltac:(lia)) as (m & Hm & Hc).
  all: assert (HS : forall i, (i < m)%nat -> sct (S j + i)%nat = sct j) by (intros i Hi; specialize (Hc (S i) ltac:(lia)); rewrite <- Hc; f_equal; lia).
  all: assert (HB : forall i, (j <= i < j + S m)%nat -> sct i = sct j) by (intros i Hi; replace i with (j + (i - j))%nat by lia; apply Hc; lia).
  - exists (m + 1)%nat. destruct (spin_max_skip sct hi stop base (sct j) m 1 (S j) HS) as [(n & Hn & H1 & H2 & E)|[H1 E]]; rewrite E.
    + eexists _, _, _. split; [reflexivity|]. split; [lia|]. split; [intros i Hi; rewrite (HB i) by lia; lia|].
      split; [intros i Hi; replace i with (S j + (i - S j))%nat by lia; apply H2; lia|]. split; [exact H1|]. rewrite (HB (S j + n - 1)%nat) by lia. lia.
    + replace (S j + m)%nat with (j + S m)%nat by lia. cbn [spin_max]. cbv zeta. destruct (hi (j + S m)%nat) eqn:EH.
      * eexists _, _, _. split; [reflexivity|]. split; [lia|]. split; [intros i Hi; rewrite (HB i) by lia; lia|].
        split; [intros i Hi; replace i with (S j + (i - S j))%nat by lia; apply H1; lia|]. split; [exact EH|]. rewrite (HB (j + S m - 1)%nat) by lia. lia.
      * rewrite Hm. replace (sct j + 1 =? sct j) with false by lia. cbn [negb]. replace (stop <=? sct j + 1) with true by lia.
        eexists _, _, _. split; [reflexivity|]. split; [lia|]. split; [intros i Hi; rewrite (HB i) by lia; lia|].
        split; [intros i Hi; replace i with (S j + (i - S j))%nat by lia; apply H1; lia|]. split; [lia|]. split; [exact EH | lia].
  - destruct (IH (j + S m)%nat (base + 1) ltac:(lia) ltac:(lia)) as (f & k & ticks & high & E0 & (Hk & Hr & Hh & He)).
    exists (m + S f)%nat. destruct (spin_max_skip sct hi stop base (sct j) m (S f) (S j) HS) as [(n & Hn & H1 & H2 & E)|[H1 E]]; rewrite E.
    + eexists _, _, _. split; [reflexivity|]. split; [lia|]. split; [intros i Hi; rewrite (HB i) by lia; lia|].
      split; [intros i Hi; replace i with (S j + (i - S j))%nat by lia; apply H2; lia|]. split; [exact H1|]. rewrite (HB (S j + n - 1)%nat) by lia. lia.
    + replace (S j + m)%nat with (j + S m)%nat by lia. cbn [spin_max]. cbv zeta. destruct (hi (j + S m)%nat) eqn:EH.
      * eexists _, _, _. split; [reflexivity|]. split; [lia|]. split; [intros i Hi; rewrite (HB i) by lia; lia|].
        split; [intros i Hi; replace i with (S j + (i - S j))%nat by lia; apply H1; lia|]. split; [exact EH|]. rewrite (HB (j + S m - 1)%nat) by lia. lia.
      * rewrite Hm in *. replace (sct j + 1 =? sct j) with false by lia. cbn [negb]. replace (stop <=? sct j + 1) with false by lia.
        eexists _, _, _. split; [exact E0|]. split; [lia|]. split.
        { intros i Hi. destruct (Nat.lt_ge_cases i (j + S m)) as [L|G]; [rewrite (HB i) by lia; lia | specialize (Hr i ltac:(lia)); lia]. }
        split.
        { intros i Hi. destruct (Nat.lt_trichotomy i (j + S m)) as [L|[-> |G]]; [replace i with (S j + (i - S j))%nat by lia; apply H1; lia | exact EH | apply Hh; lia]. }
        destruct high; [destruct He as [He1 He2]; split; [exact He1 | lia] | destruct He as [He1 [He2 He3]]; split; [exact He1|]; split; [exact He2 | lia]].
Qed.

Lemma spin_min_mono sct minRun x : forall f f' k cur ticks, spin_min f sct k cur minRun ticks = Some x -> (f <= f')%nat -> spin_min f' sct k cur minRun ticks = Some x.
Proof.
  induction f as [|f IH]; intros [|f'] k cur ticks E H; cbn [spin_min] in *; [discriminate | discriminate | lia|]. cbv zeta in *.
  destruct (negb (sct k =? cur)); [destruct (minRun <=? sct k); [exact E|]|]; apply IH; [exact E | lia | exact E | lia].
Qed.
Lemma spin_max_mono sct hi maxRun x : forall f f' k cur ticks, spin_max f sct hi k cur maxRun ticks = Some x -> (f <= f')%nat -> spin_max f' sct hi k cur maxRun ticks = Some x.
Proof.
  induction f as [|f IH]; intros [|f'] k cur ticks E H; cbn [spin_max] in *; [discriminate | discriminate | lia|]. cbv zeta in *.
  destruct (hi k); [exact E|]. destruct (negb (sct k =? cur)); [destruct (maxRun <=? sct k); [exact E|]|]; apply IH; [exact E | lia | exact E | lia].
Qed.

(** Asked to run for [maxT] ticks and at least [minT] (1 or more), with a
    counter of which no tick is missed: if the minimum does not fit before tick
    230 of the cycle nothing is done and true is returned.  Otherwise it returns
    at tick start + maxT, or 230 if that is sooner, having reported each tick
    run (none if the motor is to be off), and answers false; or earlier, at a
    high current seen after the minimum time, which it reports as an end stop,
    once, answering true. *)
Theorem spin_runs : forall sct hi maxT minT dir, ticking sct -> 0 <= sct O < 256 -> 1 <= minT <= maxT -> maxT < 256 ->
  exists fuel r, spin fuel sct hi maxT minT dir = Some r /\
  if sct O + minT <=? 230 then
    let stop := Z.min (sct O + maxT) 230 in
    sp_ret r = sp_end r /\
    sp_ticks r = (if dir =? 0 then 0 else (if sp_end r then sct (sp_k r - 1)%nat else sct (sp_k r)) - sct O) /\
    (if sp_end r then hi (sp_k r) = true /\ sct O + minT <= sct (sp_k r - 1)%nat < stop else sct (sp_k r) = stop) /\
    (forall j, (j < sp_k r)%nat -> sct O <= sct j < stop) /\
    (forall j, (j < sp_k r)%nat -> (0 < j)%nat -> sct O + minT <= sct (j - 1)%nat -> hi j = false)
  else r = mkSpinR true 0 false O.
Proof.
  intros sct hi maxT minT dir HT HS Hm HM. unfold spin. cbv zeta. change SPIN_LIMIT with 230.
  destruct (sct O + minT <=? 230) eqn:EF.
  - rewrite (u8_id (230 - sct O)) by (red; lia). replace (230 <=? sct O) with false by lia. replace (230 - sct O <? minT) with false by lia. cbn [orb].
    rewrite (u8_id (sct O + minT)) by (red; lia). rewrite (u8_id (sct O + _)) by (red; lia).
    replace (sct O + Z.min maxT (230 - sct O)) with (Z.min (sct O + maxT) 230) by lia. set (stop := Z.min (sct O + maxT) 230).
    assert (HD : exists d, Z.of_nat (S d) = minT) by (exists (Z.to_nat (minT - 1)); lia). destruct HD as (d & Hd).
    destruct (spin_min_run sct (sct O + minT) HT ltac:(lia) d O 0 ltac:(lia) ltac:(lia)) as (f1 & k1 & E1 & Hk1 & Hs1 & Hr1).
    destruct (sct O + minT <? stop) eqn:EP.
    + assert (HD2 : exists d2, Z.of_nat (S d2) = stop - sct k1) by (exists (Z.to_nat (stop - sct k1 - 1)); lia). destruct HD2 as (d2 & Hd2).
      destruct (spin_max_run sct hi stop HT ltac:(lia) d2 k1 (0 + Z.of_nat (S d)) ltac:(lia) Hd2) as (f2 & k2 & ticks & high & E2 & (Hk2 & Hr2 & Hh2 & He2)).
      exists (f1 + f2)%nat. rewrite (spin_min_mono _ _ _ f1 (f1 + f2) _ _ _ E1) by lia. cbn [bind]. rewrite Hs1 in E2.
      rewrite (spin_max_mono _ _ _ _ f2 (f1 + f2) _ _ _ E2) by lia. cbn [bind]. eexists. split; [reflexivity|]. cbn [sp_ret sp_ticks sp_end sp_k].
      assert (HJ : forall j, (j < k2)%nat -> sct O <= sct j < stop).
      { intros j Hj. destruct (Nat.lt_ge_cases j k1) as [L|G]; [specialize (Hr1 j ltac:(lia)); lia | specialize (Hr2 j ltac:(lia)); lia]. }
      assert (HH : forall j, (j < k2)%nat -> (0 < j)%nat -> sct O + minT <= sct (j - 1)%nat -> hi j = false).
      { intros j Hj H0 HG. apply Hh2. split; [|exact Hj]. destruct (Nat.lt_ge_cases k1 j) as [L|G]; [exact L|]. specialize (Hr1 (j - 1)%nat ltac:(lia)). lia. }
      split; [reflexivity|]. destruct high.
      * destruct He2 as [He1 He2]. split; [destruct (dir =? 0); [reflexivity | lia]|]. split; [split; [exact He1|]; specialize (Hr2 (k2 - 1)%nat ltac:(lia)); lia|]. split; [exact HJ | exact HH].
      * destruct He2 as [He1 [He2 He3]]. split; [destruct (dir =? 0); [reflexivity | lia]|]. split; [exact He1|]. split; [exact HJ | exact HH].
    + exists f1. rewrite E1. cbn [bind]. eexists. split; [reflexivity|]. cbn [sp_ret sp_ticks sp_end sp_k].
      assert (HJ : forall j, (j < k1)%nat -> sct O <= sct j < stop) by (intros j Hj; specialize (Hr1 j ltac:(lia)); lia).
      split; [reflexivity|]. split; [destruct (dir =? 0); [reflexivity | lia]|]. split; [lia|]. split; [exact HJ|].
      intros j Hj H0 HG. exfalso. specialize (HJ (j - 1)%nat ltac:(lia)). lia.
  - exists O. eexists. split; [|reflexivity]. destruct (230 <=? sct O) eqn:E; [reflexivity|]. rewrite u8_id by (red; lia). replace (230 - sct O <? minT) with true by lia. reflexivity.
Qed.

(** A real case: from tick 100, 10 ticks asked, two polls a tick; and the same
    with a high current from tick 106 on. *)
Definition slow_clock (k : nat) : Z := Z.min 255 (100 + Z.of_nat (Nat.div2 k)).
Example spin_case : ticking slow_clock /\
  spin 50 slow_clock (fun _ => false) 10 4 2 = Some (mkSpinR false 10 false 20) /\
  spin 50 slow_clock (fun k => Nat.leb 12 k) 10 4 2 = Some (mkSpinR true 5 true 12).
Proof.
  split; [|split; reflexivity]. intros k Hk. unfold slow_clock in *. split.
  - destruct (Nat.Even_or_Odd k) as [[a ->]|[a ->]].
    + left. rewrite Nat.div2_succ_double, Nat.div2_double. reflexivity.
    + right. replace (2 * a + 1)%nat with (S (2 * a)) in * by lia. replace (S (S (2 * a))) with (2 * S a)%nat by lia. rewrite Nat.div2_double. rewrite Nat.div2_succ_double in *. lia.
  - exists 2%nat. replace (k + 2)%nat with (S (S k)) by lia. cbn [Nat.div2]. lia.
Qed.

(** With no minimum (as when letting the bridge settle) it waits one tick too
    many, and past the limit: asked for one tick at tick 229 it returns at 231. *)
Theorem spin_no_minimum_refuted : exists sct, ticking sct /\ sct O = 229 /\
  exists r, spin 20 sct (fun _ => false) 1 0 0 = Some r /\ sct (sp_k r) = 231.
Proof.
  exists (fun k => Z.min 255 (229 + Z.of_nat k)). split; [|split; [reflexivity|]].
  - intros k Hk. split; [right; lia|]. exists 1%nat. lia.
  - eexists. split; reflexivity.
Qed.
(** If the counter is not polled for a tenth of a cycle the run does not stop at
    the limit but in the next cycle: here 231 ticks later than asked. *)
Theorem spin_missed_refuted : exists sct r, (forall k, byte (sct k)) /\ sct O = 200 /\
  spin 600 sct (fun _ => false) 20 4 1 = Some r /\ sct (sp_k r) = 220 /\ 231 <= sp_ticks r.
Proof.
  exists (fun k => u8 (if Nat.ltb k 15 then 200 + Z.of_nat k else 245 + Z.of_nat k)). eexists. split; [intros k; apply u8_byte|]. split; [reflexivity|].
  split; [vm_compute; reflexivity|]. split; [reflexivity|]. cbn [sp_ticks]. lia.
Qed.
