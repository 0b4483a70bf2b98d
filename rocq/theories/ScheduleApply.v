(** C36, C37: schedule application and valve mode. *)
From Verif Require Import Base ScheduleModel ScheduleProps.

(** ** Specification *)
(** Minute [mm] is a scheduled boundary: a programme starts, or one ends and none is on. *)
Definition boundary (p : list Z) (onTime mm : Z) : Prop :=
  exists w b, nth_error p w = Some b /\ b <= 239 /\
    ((6 * b - 36) mod 1440 = mm \/ (6 * b + onTime) mod 1440 = mm /\ ~ scheduled p onTime mm).

Lemma sched_start p ot w b : nth_error p w = Some b -> b <= 239 -> 0 <= ot -> scheduled p ot ((6 * b - 36) mod 1440).
Proof.
  intros H1 H2 Ho. exists w, b. repeat split; auto. unfold in_window.
  rewrite Zminus_mod_idemp_l, Z.sub_diag. change (0 mod 1440) with 0. lia.
Qed.

Lemma nth_byte p w b : programmes_ok p -> nth_error p w = Some b -> byte b.
Proof. intros [HF _] E. apply (proj1 (Forall_forall _ _) HF b (nth_error_In _ _ E)). Qed.

(** The loop over schedules when some schedule is on: only starts count. *)
Lemma apply_loop_on p ot mm : programmes_ok p -> byte ot -> 0 <= mm < 1440 -> isAnyScheduleOnWARMNow p ot mm = true ->
  forall n w v, (w + n <= length p)%nat ->
  apply_loop p ot mm n (Z.of_nat w) v = v /\
    (forall k b, (w <= k < w + n)%nat -> nth_error p k = Some b -> b <= 239 -> (6 * b - 36) mod 1440 <> mm) \/
  apply_loop p ot mm n (Z.of_nat w) v = mkVMode true (bakeCountdownM v) (vm_value v) /\
    (exists k b, (w <= k < w + n)%nat /\ nth_error p k = Some b /\ b <= 239 /\ (6 * b - 36) mod 1440 = mm).
Proof.
  intros Hp Ho Hmm Hon. induction n as [|n IH]; intros w v Hw; cbn [apply_loop].
  - left. split; [reflexivity|]. intros k b Hk. lia.
  - replace (Z.of_nat w + 1) with (Z.of_nat (S w)) by lia.
    destruct (nth_error p w) as [b|] eqn:E; [|apply nth_error_None in E; lia].
    pose proof (nth_byte p w b Hp E) as Hb.
    assert (HA : apply_one p ot mm v (Z.of_nat w) =
              if (b <=? 239) && (mm =? (6 * b - 36) mod 1440) then mkVMode true (bakeCountdownM v) (vm_value v) else v).
    { unfold apply_one. rewrite Hon. cbn [negb andb]. rewrite (on_val p w b E Hb). destruct (b <=? 239).
      - destruct (mm =? _); reflexivity.
      - replace (mm =? 65535) with false by lia. reflexivity. }
    rewrite HA. destruct ((b <=? 239) && (mm =? (6 * b - 36) mod 1440)) eqn:EB.
    + right. destruct (IH (S w) (mkVMode true (bakeCountdownM v) (vm_value v)) ltac:(lia)) as [[-> _]|[-> _]];
        (split; [reflexivity|]); exists w, b; (repeat split; [lia|lia|exact E|lia|lia]).
    + destruct (IH (S w) v ltac:(lia)) as [[-> H]|[-> (k & b' & H & H2)]].
      * left. split; [reflexivity|]. intros k b' Hk Hkb Hle. destruct (Nat.eq_dec k w) as [->|]; [|apply (H k b'); auto; lia].
        rewrite E in Hkb. injection Hkb as <-. lia.
      * right. split; [reflexivity|]. exists k, b'. split; [lia|exact H2].
Qed.
(** ... and when none is on: only ends count. *)
Lemma apply_loop_off p ot mm : programmes_ok p -> byte ot -> 0 <= mm < 1440 -> isAnyScheduleOnWARMNow p ot mm = false ->
  forall n w v, (w + n <= length p)%nat ->
  apply_loop p ot mm n (Z.of_nat w) v = v /\
    (forall k b, (w <= k < w + n)%nat -> nth_error p k = Some b -> b <= 239 -> (6 * b + ot) mod 1440 <> mm) \/
  apply_loop p ot mm n (Z.of_nat w) v = mkVMode false 0 (vm_value v) /\
    (exists k b, (w <= k < w + n)%nat /\ nth_error p k = Some b /\ b <= 239 /\ (6 * b + ot) mod 1440 = mm).
Proof.
  intros Hp Ho Hmm Hon. induction n as [|n IH]; intros w v Hw; cbn [apply_loop].
  - left. split; [reflexivity|]. intros k b Hk. lia.
  - replace (Z.of_nat w + 1) with (Z.of_nat (S w)) by lia.
    destruct (nth_error p w) as [b|] eqn:E; [|apply nth_error_None in E; lia].
    pose proof (nth_byte p w b Hp E) as Hb.
    assert (HA : apply_one p ot mm v (Z.of_nat w) =
              if (b <=? 239) && (mm =? (6 * b + ot) mod 1440) then mkVMode false 0 (vm_value v) else v).
    { unfold apply_one. rewrite Hon. cbn [negb andb]. rewrite (on_val p w b E Hb), (off_val p w b ot E Hb Ho). destruct (b <=? 239) eqn:Eb.
      - cbn [andb]. destruct (mm =? _) eqn:E1; [reflexivity|]. destruct (mm =? (6 * b - 36) mod 1440) eqn:E2; [|reflexivity].
        exfalso. enough (isAnyScheduleOnWARMNow p ot mm = true) by congruence. apply C35_window; auto.
        replace mm with ((6 * b - 36) mod 1440) by lia. apply (sched_start p ot w b); auto; unfold byte in *; lia.
      - replace (mm =? 65535) with false by lia. reflexivity. }
    rewrite HA. destruct ((b <=? 239) && (mm =? (6 * b + ot) mod 1440)) eqn:EB.
    + right. destruct (IH (S w) (mkVMode false 0 (vm_value v)) ltac:(lia)) as [[-> _]|[-> _]];
        (split; [reflexivity|]); exists w, b; (repeat split; [lia|lia|exact E|lia|lia]).
    + destruct (IH (S w) v ltac:(lia)) as [[-> H]|[-> (k & b' & H & H2)]].
      * left. split; [reflexivity|]. intros k b' Hk Hkb Hle. destruct (Nat.eq_dec k w) as [->|]; [|apply (H k b'); auto; lia].
        rewrite E in Hkb. injection Hkb as <-. lia.
      * right. split; [reflexivity|]. exists k, b'. split; [lia|exact H2].
Qed.

(** ** C36 *)
(** What applying the schedule does at one minute: nothing away from boundaries; at
    a boundary it selects WARM (keeping any bake) or FROST (ending any bake) as scheduled. *)
Theorem C36_apply : forall p onTime v mm,
  programmes_ok p -> byte onTime -> 0 <= mm < 1440 ->
  (~ boundary p onTime mm -> applyUserSchedule p onTime v mm = v) /\
  (boundary p onTime mm -> scheduled p onTime mm ->
     inWarmMode (applyUserSchedule p onTime v mm) = true /\
     bakeCountdownM (applyUserSchedule p onTime v mm) = bakeCountdownM v) /\
  (boundary p onTime mm -> ~ scheduled p onTime mm ->
     inWarmMode (applyUserSchedule p onTime v mm) = false /\
     inBakeMode (applyUserSchedule p onTime v mm) = false).
Proof.
  intros p ot v mm Hp Ho Hmm. unfold applyUserSchedule, maxSchedules, Zlen. rewrite Nat2Z.id.
  destruct (isAnyScheduleOnWARMNow p ot mm) eqn:Eon.
  - pose proof (proj1 (C35_window p ot mm Hp Ho Hmm) Eon) as HS.
    pose proof (apply_loop_on p ot mm Hp Ho Hmm Eon (length p) 0 v ltac:(lia)) as HAL. change (Z.of_nat 0) with 0 in HAL.
    destruct HAL as [[-> H]|[-> H]].
    + split; [reflexivity|]. split; [|contradiction].
      intros (w & b & H1 & H2 & [H3|[_ H3]]) _; [|contradiction]. exfalso. apply (H w b); auto.
      assert ((w < length p)%nat) by (apply nth_error_Some; congruence). lia.
    + split; [|split; [intros _ _; split; reflexivity|contradiction]].
      intros HB. exfalso. apply HB. destruct H as (k & b & _ & H1 & H2 & H3). exists k, b. auto.
  - assert (HS : ~ scheduled p ot mm) by (intros HS; apply C35_window in HS; auto; congruence).
    pose proof (apply_loop_off p ot mm Hp Ho Hmm Eon (length p) 0 v ltac:(lia)) as HAL. change (Z.of_nat 0) with 0 in HAL.
    destruct HAL as [[-> H]|[-> H]].
    + split; [reflexivity|]. split; [contradiction|].
      intros (w & b & H1 & H2 & [H3|[H3 _]]) _; exfalso.
      * apply HS. rewrite <- H3. apply (sched_start p ot w b); auto. unfold byte in Ho; lia.
      * apply (H w b); auto. assert ((w < length p)%nat) by (apply nth_error_Some; congruence). lia.
    + split; [|split; [contradiction|intros _ _; split; reflexivity]].
      intros HB. exfalso. apply HB. destruct H as (k & b & _ & H1 & H2 & H3). exists k, b. auto.
Qed.

(** Away from boundaries the programme says the same as the minute before. *)
Lemma sched_steady p ot mm : programmes_ok p -> byte ot -> 0 <= mm < 1440 ->
  ~ boundary p ot ((mm + 1) mod 1440) -> (scheduled p ot ((mm + 1) mod 1440) <-> scheduled p ot mm).
Proof.
  intros Hp Ho Hmm HB. unfold byte in Ho. split.
  - intros (w & b & H1 & H2 & H3). exists w, b. repeat split; auto. unfold in_window in *.
    destruct (Z_lt_ge_dec ((mm - (6 * b - 36)) mod 1440) (36 + ot)); [assumption|]. exfalso. apply HB.
    exists w, b. split; [exact H1|]. split; [exact H2|]. left.
    rewrite Zminus_mod_idemp_l in H3. clear - H3 g Ho. Z.div_mod_to_equations. lia.
  - intros (w & b & H1 & H2 & H3). unfold in_window in H3.
    destruct (Z_lt_ge_dec (((mm + 1) mod 1440 - (6 * b - 36)) mod 1440) (36 + ot)) as [Hlt|Hge]; [exists w, b; auto|].
    destruct (isAnyScheduleOnWARMNow p ot ((mm + 1) mod 1440)) eqn:E; [apply C35_window in E; [exact E|exact Hp|exact Ho|apply Z.mod_pos_bound; lia]|].
    exfalso. apply HB. exists w, b. split; [exact H1|]. split; [exact H2|]. right. split.
    + rewrite Zminus_mod_idemp_l in Hge. clear - H3 Hge Ho. Z.div_mod_to_equations. lia.
    + intros HS. apply C35_window in HS; [congruence|auto|unfold byte; lia|apply Z.mod_pos_bound; lia].
Qed.

Definition clock (mm0 : Z) (k : nat) : Z := (mm0 + Z.of_nat k) mod 1440.
(** Operations that are not a choice of mode: the minute read and cancelling a bake. *)
Definition hands_off (o : vop) : Prop := o = VRead \/ o = VCancel \/ o = VReset.

Lemma hands_off_warm ops : forall v, Forall hands_off ops -> isWarmMode (vrun v ops) = isWarmMode v.
Proof.
  induction ops as [|o ops IH]; intros v HF; [reflexivity|]. inversion HF; subst. unfold vrun in *. cbn [fold_left].
  rewrite IH by assumption. destruct H1 as [-> | [-> | ->]]; reflexivity.
Qed.
Lemma sched_run_app p l1 : forall mm0 v l2, 0 <= mm0 < 1440 ->
  sched_run p mm0 v (l1 ++ l2) = sched_run p (clock mm0 (length l1)) (sched_run p mm0 v l1) l2.
Proof.
  induction l1 as [|m l1 IH]; intros mm0 v l2 Hm; cbn [app sched_run length].
  - f_equal. unfold clock. rewrite Z.add_0_r, Z.mod_small; lia.
  - unfold MINS_PER_DAY. rewrite IH by (apply Z.mod_pos_bound; lia). f_equal. unfold clock. rewrite Zplus_mod_idemp_l. f_equal. lia.
Qed.

(** From a boundary on, with the user not choosing a mode since, the mode is WARM exactly
    when some schedule is on, whatever happened before. *)
Theorem C36_follows : forall p onTime mm0 v before m after,
  programmes_ok p -> byte onTime -> 0 <= mm0 < 1440 ->
  boundary p onTime (clock mm0 (length before)) ->
  snd m = onTime -> Forall (fun m => snd m = onTime /\ Forall hands_off (fst m)) after ->
  (inWarmMode (sched_run p mm0 v (before ++ m :: after)) = true <->
   scheduled p onTime (clock mm0 (length before + length after))).
Proof.
  intros p ot mm0 v before m after Hp Ho Hmm HB Hm HF.
  rewrite sched_run_app by exact Hmm. set (v0 := sched_run p mm0 v before). clearbody v0.
  remember (clock mm0 (length before)) as c0 eqn:Ec.
  assert (Hc0 : 0 <= c0 < 1440) by (subst c0; apply Z.mod_pos_bound; lia).
  replace (clock mm0 (length before + length after)) with (clock c0 (length after))
    by (subst c0; unfold clock; rewrite Zplus_mod_idemp_l; f_equal; lia).
  clear Ec. cbn [sched_run].
  assert (HW : inWarmMode (minute_step p c0 v0 m) = true <-> scheduled p ot c0).
  { unfold minute_step. rewrite Hm. destruct (C36_apply p ot (vrun v0 (fst m)) c0 Hp Ho Hc0) as (_ & H1 & H2).
    destruct (isAnyScheduleOnWARMNow p ot c0) eqn:E.
    - pose proof (proj1 (C35_window p ot c0 Hp Ho Hc0) E). destruct (H1 HB H) as [-> _]. tauto.
    - assert (HS : ~ scheduled p ot c0) by (intros HS; apply C35_window in HS; auto; congruence).
      destruct (H2 HB HS) as [-> _]. split; [discriminate|contradiction]. }
  set (v1 := minute_step p c0 v0 m) in *. clearbody v1. clear HB Hm m v0 before v.
  revert c0 v1 Hc0 HW. induction after as [|m after IH]; intros c0 v1 Hc0 HW; cbn [sched_run length].
  - unfold clock. rewrite Z.add_0_r, Z.mod_small by lia. exact HW.
  - inversion HF as [|? ? [Hm1 Hm2] HF']; subst x l. specialize (IH HF' ((c0 + 1) mod 1440) (minute_step p ((c0 + 1) mod 1440) v1 m)).
    unfold MINS_PER_DAY at 1. cbn [sched_run] in IH.
    replace (clock c0 (S (length after))) with (clock ((c0 + 1) mod 1440) (length after))
      by (unfold clock; rewrite Zplus_mod_idemp_l; f_equal; lia).
    assert (Hc1 : 0 <= (c0 + 1) mod 1440 < 1440) by (apply Z.mod_pos_bound; lia).
    unfold MINS_PER_DAY. apply IH; [exact Hc1|].
    unfold minute_step. rewrite Hm1. set (v2 := vrun v1 (fst m)).
    assert (Hv2 : inWarmMode v2 = inWarmMode v1) by (apply hands_off_warm; exact Hm2).
    destruct (C36_apply p ot v2 _ Hp Ho Hc1) as (H0 & H1 & H2).
    assert (HD : boundary p ot ((c0 + 1) mod 1440) \/ ~ boundary p ot ((c0 + 1) mod 1440)).
    { destruct (isAnyScheduleOnWARMNow p ot ((c0 + 1) mod 1440)) eqn:E.
      - unfold applyUserSchedule in *. destruct (apply_loop_on p ot _ Hp Ho Hc1 E (length p) 0 v2 ltac:(lia)) as [[_ H]|[_ H]].
        + right. intros (w & b & HA & HB & [HC|[_ HC]]); [|apply HC; apply C35_window; auto].
          apply (H w b); auto. assert ((w < length p)%nat) by (apply nth_error_Some; congruence). lia.
        + left. destruct H as (k & b & _ & HA & HB & HC). exists k, b. auto.
      - assert (HS : ~ scheduled p ot ((c0 + 1) mod 1440)) by (intros HS; apply C35_window in HS; auto; congruence).
        destruct (apply_loop_off p ot _ Hp Ho Hc1 E (length p) 0 v2 ltac:(lia)) as [[_ H]|[_ H]].
        + right. intros (w & b & HA & HB & [HC|[HC _]]).
          * apply HS. rewrite <- HC. apply (sched_start p ot w b); auto. unfold byte in Ho; lia.
          * apply (H w b); auto. assert ((w < length p)%nat) by (apply nth_error_Some; congruence). lia.
        + left. destruct H as (k & b & _ & HA & HB & HC). exists k, b. auto. }
    destruct HD as [HB|HB].
    + destruct (isAnyScheduleOnWARMNow p ot ((c0 + 1) mod 1440)) eqn:E.
      * pose proof (proj1 (C35_window p ot _ Hp Ho Hc1) E) as HS. destruct (H1 HB HS) as [-> _]. tauto.
      * assert (HS : ~ scheduled p ot ((c0 + 1) mod 1440)) by (intros HS; apply C35_window in HS; auto; congruence).
        destruct (H2 HB HS) as [-> _]. split; [discriminate|contradiction].
    + rewrite (H0 HB), Hv2, HW. symmetry. apply sched_steady; auto.
Qed.

(** A programme that is set reaches a boundary within a day, from any minute. *)
Theorem C36_boundary_daily : forall p onTime mm0,
  programmes_ok p -> byte onTime -> isAnySimpleScheduleSet p = true ->
  exists d, (d < 1440)%nat /\ boundary p onTime (clock mm0 d).
Proof.
  intros p ot mm0 Hp Ho H.
  assert (HE : exists w b, nth_error p w = Some b /\ b <= 239).
  { apply (C35_any_set p ot Hp Ho) in H. destruct H as (mm & Hmm & H). apply C35_window in H; auto.
    destruct H as (w & b & H1 & H2 & _). exists w, b. auto. }
  destruct HE as (w & b & H1 & H2). exists (Z.to_nat ((6 * b - 36 - mm0) mod 1440)).
  pose proof (Z.mod_pos_bound (6 * b - 36 - mm0) 1440 ltac:(lia)). split; [lia|].
  exists w, b. split; [exact H1|]. split; [exact H2|]. left. unfold clock. rewrite Z2Nat.id by lia.
  rewrite Zplus_mod_idemp_r. f_equal. lia.
Qed.

(** A user's choice lasts exactly until the next boundary: with no boundary in the
    minutes considered, only the user's operations act. *)
Theorem C36_override_kept : forall p onTime l mm0 v,
  programmes_ok p -> byte onTime -> 0 <= mm0 < 1440 ->
  (forall k, (k < length l)%nat -> ~ boundary p onTime (clock mm0 k)) ->
  Forall (fun m => snd m = onTime) l ->
  sched_run p mm0 v l = vrun v (concat (map fst l)).
Proof.
  intros p ot l. induction l as [|m l IH]; intros mm0 v Hp Ho Hmm HB HF; [reflexivity|].
  inversion HF; subst. cbn [sched_run map concat]. unfold vrun. rewrite fold_left_app. fold (vrun v (fst m)).
  unfold minute_step. rewrite (proj1 (C36_apply p (snd m) (vrun v (fst m)) mm0 Hp Ho Hmm)).
  - apply IH; auto; [apply Z.mod_pos_bound; unfold MINS_PER_DAY; lia|]. intros k Hk. specialize (HB (S k) ltac:(simpl; lia)).
    unfold MINS_PER_DAY, clock in *. rewrite Zplus_mod_idemp_l. replace (mm0 + 1 + Z.of_nat k) with (mm0 + Z.of_nat (S k)) by lia. exact HB.
  - specialize (HB 0%nat ltac:(simpl; lia)). unfold clock in HB. rewrite Z.add_0_r, Z.mod_small in HB by lia. exact HB.
Qed.

(** Two overlapping programmes, 07:18 and 08:00, starting at 06:30 in BAKE mode: FROST
    chosen at 07:00 lasts till the second programme starts; the valve goes to FROST at
    09:00, the later end. *)
Definition idle_min (ot : Z) : list vop * Z := ([VRead], ot).
Example C36_nonvacuous :
  let st k := sched_run [73; 80] 390 (startBake VMode0)
       (repeat (idle_min 60) 30 ++ [([VWarm false], 60)] ++ repeat (idle_min 60) k) in
  programmes_ok [73; 80] /\ boundary [73; 80] 60 (clock 390 12) /\
  inWarmMode (st 0%nat) = false /\ inWarmMode (st 23%nat) = false /\ inWarmMode (st 24%nat) = true /\
  inWarmMode (st 119%nat) = true /\ inWarmMode (st 120%nat) = false.
Proof.
  cbv zeta. split.
  - split; [|vm_compute; discriminate]. apply Forall_cons; [unfold byte; lia|apply Forall_cons; [unfold byte; lia|constructor]].
  - split; [|vm_compute; auto 10]. exists 0%nat, 73. split; [reflexivity|]. split; [lia|]. left. reflexivity.
Qed.

(** With an on-time that depends on the dial (SimpleValveSchedule::onTime, learned 60,
    comfort 120) the claim fails: turning the dial from comfort to eco after the
    shortened end has passed makes the valve miss its off boundary, and it stays WARM
    (here for three more hours) though no schedule is on. *)
Theorem C36_variable_on_time_refuted :
  let comfort := learned_onTime 60 120 false true false in
  let eco := learned_onTime 60 120 true false false in
  let l := repeat (idle_min comfort) 120 ++ repeat (idle_min eco) 180 in
  programmes_ok [100; 255] /\ inWarmMode (sched_run [100; 255] 564 VMode0 l) = true /\
  clock 564 300 = 864 /\ ~ scheduled [100; 255] eco 863 /\ ~ scheduled [100; 255] comfort 863.
Proof.
  cbv zeta. assert (HP : programmes_ok [100; 255]).
  { split; [|vm_compute; discriminate]. apply Forall_cons; [unfold byte; lia|apply Forall_cons; [unfold byte; lia|constructor]]. }
  split; [exact HP|]. split; [vm_compute; reflexivity|]. split; [reflexivity|].
  split; intros HS; apply C35_window in HS; auto; try lia; try (vm_compute in HS; discriminate); vm_compute; split; congruence.
Qed.

(** ** C37 *)
Definition starts_bake (o : vop) : Prop := o = VStartBake \/ o = VSet 2.
Definition ends_bake (o : vop) : Prop := o = VCancel \/ o = VReset \/ o = VWarm false \/ o = VSet 0.
Definition is_read (o : vop) : bool := match o with VRead => true | _ => false end.
Definition reads (l : list vop) : Z := Zlen (filter is_read l).

Lemma vstep_other v o : 0 <= bakeCountdownM v <= 255 -> ~ starts_bake o -> ~ ends_bake o ->
  (isWarmMode v = true -> isWarmMode (vstep v o) = true) /\
  bakeCountdownM (vstep v o) = (if is_read o then Z.max 0 (bakeCountdownM v - 1) else bakeCountdownM v).
Proof.
  intros Hb Hs He. unfold starts_bake, ends_bake in *. destruct o as [n| |b| | |]; cbn [vstep is_read]; try tauto.
  - unfold vmode_set, VMODE_FROST, VMODE_WARM, VMODE_BAKE.
    destruct (n =? 0) eqn:E0; [exfalso; apply He; do 3 right; f_equal; lia|].
    destruct (n =? 1); [auto|]. destruct (n =? 2) eqn:E2; [exfalso; apply Hs; right; f_equal; lia|]. auto.
  - unfold vmode_read, safeDecIfNZWeak. cbn. split; [auto|]. destruct (bakeCountdownM v) as [|q|q] eqn:E; try lia.
    + rewrite u8_id; unfold byte; lia.
  - destruct b; [|exfalso; apply He; auto]. auto.
Qed.
Lemma vstep_bound v o : 0 <= bakeCountdownM v <= 31 -> 0 <= bakeCountdownM (vstep v o) <= 31.
Proof.
  intros H. destruct o as [n| |b| | |]; cbn [vstep].
  - unfold vmode_set. destruct (n =? _); [cbn; lia|]. destruct (n =? _); [cbn; lia|]. destruct (n =? _); [cbn; unfold DEFAULT_BAKE_MAX_M; lia|]. exact H.
  - unfold vmode_read, safeDecIfNZWeak. cbn. destruct (bakeCountdownM v) as [|q|q] eqn:E; try lia. rewrite u8_id; unfold byte; lia.
  - destruct b; cbn; lia.
  - cbn; lia.
  - cbn; unfold DEFAULT_BAKE_MAX_M; lia.
  - cbn; lia.
Qed.
Lemma vrun_other l : forall v, 0 <= bakeCountdownM v <= 255 ->
  (forall o, In o l -> ~ starts_bake o /\ ~ ends_bake o) -> isWarmMode v = true ->
  isWarmMode (vrun v l) = true /\ bakeCountdownM (vrun v l) = Z.max 0 (bakeCountdownM v - reads l).
Proof.
  induction l as [|o l IH]; intros v Hb Ho Hw.
  - split; [exact Hw|]. unfold reads. cbn. change (Zlen (@nil vop)) with 0. lia.
  - destruct (Ho o (or_introl eq_refl)) as [H1 H2]. destruct (vstep_other v o Hb H1 H2) as [H3 H4].
    unfold vrun. cbn [fold_left]. fold (vrun (vstep v o) l).
    assert (0 <= reads l) by apply Zlen_nonneg.
    destruct (IH (vstep v o)) as [H5 H6].
    + rewrite H4. destruct (is_read o); lia.
    + intros o' Hin. apply Ho. right. exact Hin.
    + apply H3, Hw.
    + split; [exact H5|]. rewrite H6, H4. unfold reads in *. cbn [filter]. destruct (is_read o); [rewrite Zlen_cons|]; lia.
Qed.

(** A bake lasts for exactly 31 minute reads from its last start, if not ended. *)
Theorem C37_bake_times_out : forall v o l,
  starts_bake o -> (forall o', In o' l -> ~ starts_bake o' /\ ~ ends_bake o') ->
  (inBakeMode (vrun v (o :: l)) = true <-> reads l < 31).
Proof.
  intros v o l Hs Hl. unfold vrun. cbn [fold_left]. fold (vrun (vstep v o) l).
  assert (H0 : isWarmMode (vstep v o) = true /\ bakeCountdownM (vstep v o) = 31).
  { destruct Hs as [-> | ->]; split; reflexivity. }
  destruct H0 as [H1 H2]. destruct (vrun_other l (vstep v o) ltac:(lia) Hl H1) as [H3 H4].
  unfold inBakeMode. rewrite H3, H4, H2. cbn [andb]. lia.
Qed.
(** After a timeout the valve is left in WARM mode. *)
Theorem C37_timeout_to_warm : forall v o l,
  starts_bake o -> (forall o', In o' l -> ~ starts_bake o' /\ ~ ends_bake o') -> 31 <= reads l ->
  vmode__get (vrun v (o :: l)) = 1.
Proof.
  intros v o l Hs Hl Hr. unfold vrun. cbn [fold_left]. fold (vrun (vstep v o) l).
  assert (H0 : isWarmMode (vstep v o) = true /\ bakeCountdownM (vstep v o) = 31).
  { destruct Hs as [-> | ->]; split; reflexivity. }
  destruct H0 as [H1 H2]. destruct (vrun_other l (vstep v o) ltac:(lia) Hl H1) as [H3 H4].
  unfold vmode__get. rewrite H3, H4, H2. replace (Z.max 0 (31 - reads l)) with 0 by lia. reflexivity.
Qed.
(** The mode is BAKE only because of a start within the last 31 reads, not ended since. *)
Theorem C37_bake_only_if_started : forall l,
  inBakeMode (vrun VMode0 l) = true ->
  exists l1 o l2, l = l1 ++ o :: l2 /\ starts_bake o /\ (forall o', In o' l2 -> ~ ends_bake o') /\ reads l2 < 31.
Proof.
  intros l H.
  assert (HI : forall n l, length l = n -> 0 < bakeCountdownM (vrun VMode0 l) ->
     exists l1 o l2, l = l1 ++ o :: l2 /\ starts_bake o /\ (forall o', In o' l2 -> ~ ends_bake o') /\
       bakeCountdownM (vrun VMode0 l) = 31 - reads l2 /\ 0 <= bakeCountdownM (vrun VMode0 l) <= 31).
  { clear l H. induction n as [|n IH]; intros l Hl Hb.
    - destruct l; [cbn in Hb; lia|discriminate].
    - destruct (exists_last (l := l)) as (l' & o & ->); [intros ->; discriminate|].
      rewrite app_length in Hl. cbn in Hl. unfold vrun in *. rewrite fold_left_app in *. cbn [fold_left] in *.
      assert (HB : forall l v, 0 <= bakeCountdownM v <= 31 -> 0 <= bakeCountdownM (fold_left vstep l v) <= 31).
      { induction l as [|x l IHl]; intros v Hv; [exact Hv|]. cbn [fold_left]. apply IHl, vstep_bound, Hv. }
      pose proof (HB l' VMode0 ltac:(cbn; lia)) as Hbd. pose proof (vstep_bound _ o Hbd) as Hbd'.
      set (v := fold_left vstep l' VMode0) in *.
      assert (HC : starts_bake o \/ ends_bake o \/ ~ starts_bake o /\ ~ ends_bake o).
      { unfold starts_bake, ends_bake. destruct o as [k| |b| | |]; try (right; right; split; intros HX; repeat (destruct HX as [HX|HX]); discriminate); auto 10.
        - destruct (Z.eq_dec k 2) as [->|]; [auto|]. destruct (Z.eq_dec k 0) as [->|]; [auto 10|].
          right. right. split; intros HX; repeat (destruct HX as [HX|HX]); try discriminate; congruence.
        - destruct b; [|auto 10]. right; right; split; intros HX; repeat (destruct HX as [HX|HX]); discriminate. }
      destruct HC as [HC|[HC|[HC1 HC2]]].
      + exists l', o, []. split; [reflexivity|]. split; [exact HC|]. split; [intros ? []|]. split; [|exact Hbd'].
        destruct HC as [-> | ->]; reflexivity.
      + exfalso. destruct HC as [-> | [-> | [-> | ->]]]; cbn in Hb; lia.
      + destruct (vstep_other v o ltac:(lia) HC1 HC2) as [_ H4]. rewrite H4 in *.
        destruct (IH l' ltac:(lia)) as (l1 & o1 & l2 & -> & Hs & He & Hc & _); [fold v; destruct (is_read o); lia|].
        fold v in Hc. exists l1, o1, (l2 ++ [o]). split; [rewrite <- app_assoc; reflexivity|]. split; [exact Hs|].
        split; [intros o' Hin; apply in_app_or in Hin; destruct Hin as [Hin|[<-|[]]]; auto|].
        split; [|destruct (is_read o); lia]. unfold reads in *. rewrite filter_app, Zlen_app. cbn [filter].
        destruct (is_read o); autorewrite with zlen; lia. }
  unfold inBakeMode in H.
  assert (HP : 0 < bakeCountdownM (vrun VMode0 l)).
  { assert (HB : forall l v, 0 <= bakeCountdownM v <= 31 -> 0 <= bakeCountdownM (fold_left vstep l v) <= 31).
    { induction l0 as [|x l0 IHl]; intros v Hv; [exact Hv|]. cbn [fold_left]. apply IHl, vstep_bound, Hv. }
    pose proof (HB l VMode0 ltac:(cbn; lia)). unfold vrun in *. lia. }
  destruct (HI (length l) l eq_refl HP) as (l1 & o & l2 & E & Hs & He & Hc & Hr).
  exists l1, o, l2. repeat split; auto. lia.
Qed.
(** Ending operations act at once; choosing FROST leaves WARM mode too. *)
Theorem C37_ends_at_once : forall v o, ends_bake o ->
  inBakeMode (vstep v o) = false /\ ((o = VWarm false \/ o = VSet 0) -> inWarmMode (vstep v o) = false).
Proof.
  intros v o H. unfold inBakeMode. destruct H as [-> | [-> | [-> | ->]]]; cbn; rewrite ?andb_false_r; cbn;
    split; auto; intros [H|H]; discriminate.
Qed.
(** The mode is always one of the three, and reading it reports the mode in force. *)
Theorem C37_three_modes : forall l,
  let v := vrun VMode0 l in
  (vmode_get v = 0 \/ vmode_get v = 1 \/ vmode_get v = 2) /\
  (let (v', x) := vmode_read v in
   vmode_get v' = x /\ (x = 0 \/ x = 1 \/ x = 2) /\ (x = 0 <-> inWarmMode v' = false) /\ (x = 2 <-> inBakeMode v' = true)).
Proof.
  intros l. cbv zeta. split.
  - assert (H : forall l v, 0 <= vm_value v <= 2 -> 0 <= vm_value (fold_left vstep l v) <= 2).
    { clear l. induction l as [|o l IH]; intros v Hv; [exact Hv|]. cbn [fold_left]. apply IH. destruct o as [n| |b| | |]; cbn [vstep].
      - unfold vmode_set, VMODE_FROST, VMODE_WARM, VMODE_BAKE. destruct (n =? 0) eqn:E; [cbn; lia|].
        destruct (n =? 1) eqn:E1; [cbn; lia|]. destruct (n =? 2) eqn:E2; [cbn; lia|exact Hv].
      - unfold vmode_read, vmode__get. cbn. destruct (isWarmMode v); cbn; [|unfold VMODE_FROST; lia].
        unfold VMODE_BAKE, VMODE_WARM. destruct (negb _); lia.
      - destruct b; exact Hv.
      - exact Hv.
      - exact Hv.
      - exact Hv. }
    pose proof (H l VMode0 ltac:(cbn; lia)). unfold vmode_get, vrun. lia.
  - set (v := vrun VMode0 l). unfold vmode_read, vmode__get, vmode_get, inWarmMode, inBakeMode, VMODE_FROST, VMODE_BAKE, VMODE_WARM. cbn.
    destruct (isWarmMode v); cbn; [destruct (safeDecIfNZWeak (bakeCountdownM v)); cbn|];
      (split; [reflexivity|]); (split; [auto|]); (split; [|]); (split; intros; first [discriminate|reflexivity|lia]).
Qed.
Theorem C37_invalid_refused : forall v n, n < 0 \/ 2 < n -> vmode_set v n = (v, false).
Proof.
  intros v n H. unfold vmode_set, VMODE_FROST, VMODE_WARM, VMODE_BAKE.
  replace (n =? 0) with false by lia. replace (n =? 1) with false by lia. replace (n =? 2) with false by lia. reflexivity.
Qed.
(** Selecting WARM during a bake is reported as WARM but does not end the bake: the next
    minute's read reports BAKE again. *)
Theorem C37_set_warm_keeps_bake_refuted :
  exists v, let v1 := fst (vmode_set v 1) in vmode_get v1 = 1 /\ inBakeMode v1 = true /\ snd (vmode_read v1) = 2.
Proof. exists (startBake VMode0). vm_compute. auto. Qed.
Example C37_nonvacuous :
  inBakeMode (vrun VMode0 (VStartBake :: repeat VRead 10 ++ [VSet 1; VWarm true] ++ repeat VRead 20)) = true /\
  inBakeMode (vrun VMode0 (VStartBake :: repeat VRead 31)) = false.
Proof. vm_compute. auto. Qed.

Print Assumptions C35_set.
Print Assumptions C36_follows.
Print Assumptions C36_override_kept.
Print Assumptions C37_bake_times_out.
Print Assumptions C37_bake_only_if_started.
Print Assumptions C37_three_modes.
