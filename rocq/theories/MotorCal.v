(** C43 (position from dead reckoning) and C64 (calibration parameters). *)
From Verif Require Import Base MotorModel.

Lemma reconcile_zero fuel c tfo rev : c_scto c = 0 -> 0 <= rev -> reconcile fuel c tfo rev = Some (tfo, rev).
Proof.
  intros S R. destruct fuel; cbn [reconcile]; rewrite S; replace (rev >=? 0) with true by lia; reflexivity.
Qed.

Lemma reconcile_pos c : 0 < c_scto c -> 0 <= c_sotc c -> forall fuel tfo rev,
  0 <= tfo -> 0 <= rev <= Z.of_nat fuel ->
  reconcile fuel c tfo rev = Some (Z.max 0 (tfo - rev / c_scto c * c_sotc c), rev mod c_scto c).
Proof.
  intros S1 S2. induction fuel as [|fuel IH]; intros tfo rev T R; cbn [reconcile].
  - replace (rev >=? c_scto c) with false by lia.
    rewrite Z.div_small, Z.mod_small by lia. f_equal. f_equal. lia.
  - destruct (rev >=? c_scto c) eqn:G.
    + replace (c_scto c =? 0) with false by lia. rewrite IH.
      * replace (rev mod c_scto c) with ((rev - c_scto c) mod c_scto c)
          by (replace rev with (rev - c_scto c + 1 * c_scto c) at 2 by lia; rewrite Z.mod_add by lia; reflexivity).
        replace (rev / c_scto c) with ((rev - c_scto c) / c_scto c + 1)
          by (replace rev with (rev - c_scto c + 1 * c_scto c) at 2 by lia; rewrite Z.div_add by lia; reflexivity).
        assert (0 <= (rev - c_scto c) / c_scto c) by (apply Z.div_pos; lia).
        f_equal. f_equal. destruct (tfo >? c_sotc c) eqn:X; nia.
      * destruct (tfo >? c_sotc c) eqn:X; lia.
      * lia.
    + rewrite Z.div_small, Z.mod_small by lia. f_equal. f_equal. lia.
Qed.

(** ** Specification: net ticks from open, and the percentage open they stand for. *)
Definition net (c : calp) (tfo rev : Z) : Z :=
  if c_scto c =? 0 then tfo else Z.max 0 (tfo - rev / c_scto c * c_sotc c).

Definition cal_range (c : calp) : Prop :=
  0 <= c_tfotc c <= 65535 /\ 0 <= c_sotc c <= 255 /\ 0 <= c_scto c <= 255.
Definition u16r (z : Z) : Prop := 0 <= z <= 65535.

Lemma reconcile_net c tfo rev : cal_range c -> u16r tfo -> u16r rev ->
  exists r, reconcile (Z.to_nat rev) c tfo rev = Some (net c tfo rev, r) /\ u16r r /\
    (c_scto c = 0 \/ r < c_scto c) /\ u16r (net c tfo rev) /\ net c tfo rev <= tfo.
Proof.
  intros (C1 & C2 & C3) T R. unfold net, u16r in *. destruct (c_scto c =? 0) eqn:Z0.
  - rewrite reconcile_zero by lia. exists rev. split; [reflexivity|]. lia.
  - rewrite reconcile_pos by lia. exists (rev mod c_scto c).
    pose proof (Z.mod_pos_bound rev (c_scto c) ltac:(lia)).
    assert (0 <= rev / c_scto c) by (apply Z.div_pos; lia).
    assert (rev mod c_scto c <= rev) by (apply Z.mod_le; lia).
    split; [reflexivity|]. nia.
Qed.

Lemma position_range c t : 0 <= c_tfotc c -> 0 <= t -> 0 <= position c t <= 100.
Proof.
  intros. unfold position. destruct (t =? 0) eqn:?; [lia|]. destruct (t >=? c_tfotc c) eqn:?; [lia|].
  assert (0 <= (c_tfotc c - t) * 100 / c_tfotc c <= 100).
  { split; [apply Z.div_pos; lia|]. apply Z.div_le_upper_bound; lia. }
  unfold u8. rewrite Z.mod_small; lia.
Qed.

Lemma position_val c t : 0 < t < c_tfotc c -> position c t = (c_tfotc c - t) * 100 / c_tfotc c.
Proof.
  intros. unfold position. replace (t =? 0) with false by lia. replace (t >=? c_tfotc c) with false by lia.
  assert (0 <= (c_tfotc c - t) * 100 / c_tfotc c <= 100).
  { split; [apply Z.div_pos; lia|]. apply Z.div_le_upper_bound; lia. }
  unfold u8. rewrite Z.mod_small; lia.
Qed.

Lemma position_mono c t1 t2 : 0 <= c_tfotc c -> 0 <= t1 <= t2 -> position c t2 <= position c t1.
Proof.
  intros C T. pose proof (position_range c t1 C ltac:(lia)). pose proof (position_range c t2 C ltac:(lia)).
  destruct (Z.eq_dec t1 0) as [-> |]; [unfold position at 2; cbn; lia|].
  destruct (Z.lt_ge_cases t2 (c_tfotc c)).
  - rewrite !position_val by lia. apply Z.div_le_mono; lia.
  - unfold position at 1. replace (t2 =? 0) with false by lia. replace (t2 >=? c_tfotc c) with true by lia. lia.
Qed.

(** C43.  For all calibrations and tick counts the computation terminates; the position is 0..100%;
    it is 100 when no ticks from open remain, otherwise 0 at or past the calibrated travel, and in
    between the percentage of the travel remaining, rounded down. *)
Theorem motor_position c tfo rev : cal_range c -> u16r tfo -> u16r rev ->
  exists r pc, computePosition c tfo rev = Some (net c tfo rev, r, pc) /\
    u16r (net c tfo rev) /\ u16r r /\ 0 <= pc <= 100 /\
    (net c tfo rev = 0 -> pc = 100) /\
    (0 < net c tfo rev -> c_tfotc c <= net c tfo rev -> pc = 0) /\
    (0 < net c tfo rev < c_tfotc c ->
       c_tfotc c * pc <= 100 * (c_tfotc c - net c tfo rev) < c_tfotc c * (pc + 1)).
Proof.
  intros C T R. destruct (reconcile_net c tfo rev C T R) as (r & E & R' & _ & N & _).
  unfold computePosition. rewrite E. cbn [bind]. exists r, (position c (net c tfo rev)).
  destruct C as (C1 & _). unfold u16r in *.
  split; [reflexivity|]. split; [exact N|]. split; [exact R'|]. split; [apply position_range; lia|]. split.
  { intros ->. reflexivity. }
  split.
  { intros H1 H2. unfold position. replace (net c tfo rev =? 0) with false by lia.
    replace (net c tfo rev >=? c_tfotc c) with true by lia. reflexivity. }
  intros H. rewrite position_val by lia. Z.div_mod_to_equations. nia.
Qed.

(** More closing ticks never read as more open, more opening ticks never as more closed. *)
Theorem motor_position_monotone c tfo1 rev1 tfo2 rev2 t1 r1 pc1 t2 r2 pc2 :
  cal_range c -> u16r tfo1 -> u16r rev1 -> u16r tfo2 -> u16r rev2 ->
  tfo1 <= tfo2 -> rev2 <= rev1 ->
  computePosition c tfo1 rev1 = Some (t1, r1, pc1) -> computePosition c tfo2 rev2 = Some (t2, r2, pc2) ->
  pc2 <= pc1.
Proof.
  intros C T1 R1 T2 R2 HT HR. unfold computePosition.
  destruct (reconcile_net c tfo1 rev1 C T1 R1) as (x1 & -> & _ & _ & N1 & _).
  destruct (reconcile_net c tfo2 rev2 C T2 R2) as (x2 & -> & _ & _ & N2 & _).
  cbn [bind]. intros H1 H2. apply some_pair_inj in H1, H2. destruct H1 as [_ <-], H2 as [_ <-].
  destruct C as (C1 & C2 & C3). unfold u16r in *. apply position_mono; [lia|].
  split; [lia|]. unfold net. destruct (c_scto c =? 0) eqn:E; [lia|].
  assert (rev2 / c_scto c <= rev1 / c_scto c) by (apply Z.div_le_mono; lia).
  nia.
Qed.

(** An estimate made while between the end stops is never reported as fully open or closed. *)
Theorem motor_intermediate s : cal_range (m_cp s) -> u16r (m_tfo s) -> u16r (m_rev s) -> m_recal s = false ->
  exists s', recompute true s = Some s' /\ 1 <= m_cur s' <= 99 /\ m_state s' = m_state s /\ m_tgt s' = m_tgt s.
Proof.
  intros C T R N. unfold recompute. rewrite N. cbn [andb negb].
  destruct (motor_position _ _ _ C T R) as (r & pc & -> & _ & _ & B & _). cbn [bind].
  eexists. split; [reflexivity|]. cbn. split; [|auto].
  destruct (pc <? 1) eqn:?; [lia|]. destruct (pc >? 99) eqn:?; lia.
Qed.

Example motor_position_example :
  computePosition (CP 1500 1400 3 23 21) 800 100 = Some (708, 16, 52).
Proof. vm_compute. reflexivity. Qed.

(** ** Calibration *)

Lemma halve_spec dr : 1 <= dr -> forall fuel a b, 0 <= a -> 0 <= b -> Z.max a b < 2 ^ Z.of_nat fuel ->
  exists k : Z, 0 <= k /\ halve fuel a b dr = Some (a / 2 ^ k, b / 2 ^ k) /\
    Z.max (a / 2 ^ k) (b / 2 ^ k) <= dr /\
    (0 < k -> dr < Z.max (a / 2 ^ (k - 1)) (b / 2 ^ (k - 1))).
Proof.
  intros D. induction fuel as [|fuel IH]; intros a b A B F.
  - change (2 ^ Z.of_nat 0) with 1 in F. exists 0. split; [lia|]. cbn [halve].
    replace (Z.max a b >? dr) with false by lia. change (2 ^ 0) with 1. rewrite !Z.div_1_r.
    split; [reflexivity|]. lia.
  - cbn [halve]. destruct (Z.max a b >? dr) eqn:G.
    + rewrite !Z.shiftr_div_pow2 by lia. change (2 ^ 1) with 2.
      assert (F2 : 2 ^ Z.of_nat (S fuel) = 2 * 2 ^ Z.of_nat fuel)
        by (rewrite Nat2Z.inj_succ, Z.pow_succ_r by lia; reflexivity).
      assert (P : 0 < 2 ^ Z.of_nat fuel) by (apply Z.pow_pos_nonneg; lia).
      destruct (IH (a / 2) (b / 2)) as (k & K & -> & M & L).
      { apply Z.div_pos; lia. } { apply Z.div_pos; lia. }
      { apply Z.max_lub_lt; apply Z.div_lt_upper_bound; lia. }
      exists (k + 1). split; [lia|].
      assert (X : forall x, x / 2 ^ (k + 1) = x / 2 / 2 ^ k).
      { intros x. rewrite Z.add_comm, Z.pow_add_r by lia. change (2 ^ 1) with 2.
        rewrite Z.div_div; [reflexivity|lia|]. apply Z.pow_pos_nonneg; lia. }
      rewrite !X. split; [reflexivity|]. split; [exact M|]. intros _.
      replace (k + 1 - 1) with k by lia. destruct (Z.eq_dec k 0) as [-> |NZ].
      * change (2 ^ 0) with 1. rewrite !Z.div_1_r. lia.
      * specialize (L ltac:(lia)).
        assert (Y : forall x, x / 2 ^ k = x / 2 / 2 ^ (k - 1)).
        { intros x. replace k with (1 + (k - 1)) at 1 by lia. rewrite Z.pow_add_r by lia. change (2 ^ 1) with 2.
          rewrite Z.div_div; [reflexivity|lia|]. apply Z.pow_pos_nonneg; lia. }
        rewrite !Y. exact L.
    + exists 0. split; [lia|]. change (2 ^ 0) with 1. rewrite !Z.div_1_r. split; [reflexivity|]. lia.
Qed.

(** C64.  Calibration from any measured travel times terminates, records them, and reports success
    exactly when proportional running is then possible.  On success: the precision claimed is 1..15%;
    one minimum-length pulse in either direction moves the valve by less than (precision+1)%; and a
    block of opening ticks is exchanged for closing ticks with an error of less than one opening tick
    under (less than one closing tick over). *)
Theorem motor_calibration oc co dr : u16r oc -> u16r co -> byte dr ->
  exists c ok, updateAndCompute oc co dr = Some (c, ok) /\
    c_tfotc c = oc /\ c_tfcto c = co /\ cal_range c /\
    ok = negb (cannotRunProportional c) /\ 1 <= c_prec c <= 100 /\
    (ok = true ->
       c_prec c <= 15 /\ 0 < dr /\
       8 <= c_sotc c <= dr /\ 8 <= c_scto c <= dr /\
       100 * dr < (c_prec c + 1) * oc /\ 100 * dr < (c_prec c + 1) * co /\
       c_sotc c * co < (c_scto c + 1) * oc /\ c_scto c * oc < (c_sotc c + 1) * co).
Proof.
  unfold u16r, byte. intros OC CO DR. unfold updateAndCompute.
  assert (BAD : forall s1 s2, 0 <= s1 <= 255 -> 0 <= s2 <= 255 ->
    exists c ok, Some (CP oc co bad_precision s1 s2, false) = Some (c, ok) /\
    c_tfotc c = oc /\ c_tfcto c = co /\ cal_range c /\
    ok = negb (cannotRunProportional c) /\ 1 <= c_prec c <= 100 /\
    (ok = true ->
       c_prec c <= 15 /\ 0 < dr /\
       8 <= c_sotc c <= dr /\ 8 <= c_scto c <= dr /\
       100 * dr < (c_prec c + 1) * oc /\ 100 * dr < (c_prec c + 1) * co /\
       c_sotc c * co < (c_scto c + 1) * oc /\ c_scto c * oc < (c_sotc c + 1) * co)).
  { intros s1 s2 S1 S2. exists (CP oc co bad_precision s1 s2), false.
    split; [reflexivity|]. split; [reflexivity|]. split; [reflexivity|]. split; [unfold cal_range; cbn; lia|].
    split; [reflexivity|]. split; [unfold bad_precision; cbn; lia|]. discriminate. }
  destruct (dr =? 0) eqn:D0; [apply BAD; lia|].
  destruct (Z.min oc co =? 0) eqn:M0; [apply BAD; lia|].
  destruct ((Z.shiftr oc 1 >? co) || (Z.shiftr co 1 >? oc)) eqn:U; [apply BAD; lia|]. clear U.
  assert (LT16 : Z.max oc co < 2 ^ Z.of_nat 16) by (change (2 ^ Z.of_nat 16) with 65536; lia).
  destruct (halve_spec dr ltac:(lia) 16 oc co ltac:(lia) ltac:(lia) LT16) as (k & K & -> & MX & _).
  cbn [bind]. set (a := oc / 2 ^ k) in *. set (b := co / 2 ^ k) in *.
  assert (P : 0 < 2 ^ k) by (apply Z.pow_pos_nonneg; lia).
  assert (A : 0 <= a) by (apply Z.div_pos; lia). assert (B : 0 <= b) by (apply Z.div_pos; lia).
  rewrite (u8_id a), (u8_id b) by (unfold byte; lia).
  destruct (Z.min a b <? 8) eqn:S8; [apply BAD; lia|].
  set (m := Z.min oc co) in *. set (q := 128 * dr / m).
  assert (Q : 0 <= q) by (apply Z.div_pos; lia).
  rewrite (u8_id (if q <? 1 then 1 else if q >? 100 then 100 else q))
    by (unfold byte; destruct (q <? 1) eqn:?; [lia|]; destruct (q >? 100) eqn:?; lia).
  set (prec := if q <? 1 then 1 else if q >? 100 then 100 else q).
  assert (PR : 1 <= prec <= 100) by (unfold prec; destruct (q <? 1) eqn:?; [lia|]; destruct (q >? 100) eqn:?; lia).
  eexists _, _. split; [reflexivity|]. cbn [c_tfotc c_tfcto c_prec c_sotc c_scto].
  split; [reflexivity|]. split; [reflexivity|]. split; [unfold cal_range; cbn; lia|]. split; [reflexivity|].
  split; [exact PR|]. intros OK. unfold max_usable_precision in OK.
  assert (P15 : prec <= 15) by lia.
  assert (QP : q <= prec) by (unfold prec in *; destruct (q <? 1) eqn:?; [lia|]; destruct (q >? 100) eqn:?; lia).
  assert (QM : 128 * dr < (q + 1) * m).
  { pose proof (Z.mul_succ_div_gt (128 * dr) m ltac:(lia)) as X. fold q in X. lia. }
  assert (HM : 100 * dr < (prec + 1) * m) by nia.
  split; [exact P15|]. split; [lia|]. split; [lia|]. split; [lia|].
  split; [nia|]. split; [nia|].
  pose proof (Z.mul_div_le oc (2 ^ k) P) as E1. pose proof (Z.mul_succ_div_gt oc (2 ^ k) P) as E2.
  pose proof (Z.mul_div_le co (2 ^ k) P) as E3. pose proof (Z.mul_succ_div_gt co (2 ^ k) P) as E4.
  fold a in E1, E2. fold b in E3, E4. split.
  - pose proof (Z.mul_le_mono_nonneg_l (2 ^ k * a) oc (b + 1) ltac:(lia) E1) as F1.
    pose proof (Z.mul_lt_mono_pos_l a co (2 ^ k * Z.succ b) ltac:(lia)) as F2.
    apply F2 in E4. replace ((b + 1) * oc) with (oc * (b + 1)) by ring.
    replace (a * (2 ^ k * Z.succ b)) with ((b + 1) * (2 ^ k * a)) in E4 by ring. lia.
  - pose proof (Z.mul_le_mono_nonneg_l (2 ^ k * b) co (a + 1) ltac:(lia) E3) as F1.
    pose proof (Z.mul_lt_mono_pos_l b oc (2 ^ k * Z.succ a) ltac:(lia)) as F2.
    apply F2 in E2.
    replace (b * (2 ^ k * Z.succ a)) with ((a + 1) * (2 ^ k * b)) in E2 by ring. lia.
Qed.

(** Completeness: any reasonably balanced valve (neither direction more than twice the other) whose
    travel takes more than 8 minimum pulses is accepted for proportional running, for any pulse of at
    least 31 ticks. *)
Theorem motor_calibration_accepts oc co dr :
  u16r oc -> u16r co -> 31 <= dr <= 255 ->
  oc <= 2 * co + 1 -> co <= 2 * oc + 1 -> 8 * dr < oc -> 8 * dr < co ->
  exists c, updateAndCompute oc co dr = Some (c, true).
Proof.
  unfold u16r. intros OC CO DR U1 U2 T1 T2. unfold updateAndCompute.
  replace (dr =? 0) with false by lia. replace (Z.min oc co =? 0) with false by lia.
  rewrite !Z.shiftr_div_pow2 by lia. change (2 ^ 1) with 2.
  replace ((oc / 2 >? co) || (co / 2 >? oc)) with false
    by (clear - U1 U2 OC CO; assert (oc / 2 <= co) by (Z.div_mod_to_equations; lia);
        assert (co / 2 <= oc) by (Z.div_mod_to_equations; lia); lia).
  assert (LT16 : Z.max oc co < 2 ^ Z.of_nat 16) by (change (2 ^ Z.of_nat 16) with 65536; lia).
  destruct (halve_spec dr ltac:(lia) 16 oc co ltac:(lia) ltac:(lia) LT16) as (k & K & -> & MX & LO).
  cbn [bind].
  destruct (Z.eq_dec k 0) as [-> |NZ]; [change (2 ^ 0) with 1 in MX; rewrite !Z.div_1_r in MX; lia|].
  specialize (LO ltac:(lia)).
  assert (Pk : 2 ^ k = 2 ^ (k - 1) * 2).
  { replace k with (k - 1 + 1) at 1 by lia. rewrite Z.pow_add_r by lia. reflexivity. }
  assert (P : 0 < 2 ^ (k - 1)) by (apply Z.pow_pos_nonneg; lia).
  set (w := 2 ^ (k - 1)) in *. rewrite Pk in *. rewrite <- !Z.div_div in * by lia.
  set (a := oc / w) in *. set (b := co / w) in *.
  assert (HALF : forall x y, x <= 2 * y + 1 -> x / w / 2 <= y / w).
  { intros x y H. pose proof (Z.mul_div_le x w P) as X1. pose proof (Z.mul_succ_div_gt y w P) as X2.
    assert (x / w < 2 * (y / w + 1)).
    { apply (Z.mul_lt_mono_pos_l w); [exact P|].
      replace (w * (2 * (y / w + 1))) with (2 * (w * Z.succ (y / w))) by ring. lia. }
    clear - H0. apply Z.lt_succ_r. apply Z.div_lt_upper_bound; lia. }
  pose proof (HALF oc co U1) as U3. pose proof (HALF co oc U2) as U4. fold a b in U3, U4. clear HALF.
  assert (LOW : forall x y : Z, dr < x -> x / 2 <= y -> 8 <= y / 2 /\ 8 <= x / 2).
  { intros x y X Y. split; Z.div_mod_to_equations; lia. }
  assert (S8 : 8 <= Z.min (a / 2) (b / 2)).
  { destruct (Z.max_spec a b) as [[_ E] | [_ E]]; rewrite E in LO.
    - destruct (LOW b a LO U4). lia.
    - destruct (LOW a b LO U3). lia. }
  rewrite (u8_id (a / 2)), (u8_id (b / 2)) by (unfold byte; lia).
  replace (Z.min (a / 2) (b / 2) <? 8) with false by lia.
  set (m := Z.min oc co) in *. assert (M : 8 * dr < m) by lia.
  assert (Q : 128 * dr / m < 16) by (apply Z.div_lt_upper_bound; lia).
  assert (Q0 : 0 <= 128 * dr / m) by (apply Z.div_pos; lia).
  set (q := 128 * dr / m) in *.
  eexists. f_equal. f_equal.
  replace (u8 (if q <? 1 then 1 else if q >? 100 then 100 else q) >? max_usable_precision) with false; [reflexivity|].
  unfold max_usable_precision. destruct (q <? 1) eqn:?; [reflexivity|]. replace (q >? 100) with false by lia.
  rewrite u8_id by (unfold byte; lia). lia.
Qed.

Example motor_calibration_example :
  exists c, updateAndCompute 1601 1105 35 = Some (c, true) /\ c_prec c = 4 /\ c_sotc c = 25 /\ c_scto c = 17.
Proof. eexists. split; [vm_compute; reflexivity|]. auto. Qed.
