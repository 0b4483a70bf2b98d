(** C35, C36, C37: schedule windows, schedule application, valve mode. *)
From Verif Require Import Base ScheduleModel.

(** ** Specification *)
(** Minute [mm] lies in the circular window of [d] minutes starting at [s]. *)
Definition in_window (s d mm : Z) : Prop := (mm - s) mod 1440 < d.
(** Minute [mm] of the day is in the warm window of one of the programmes: a programme
    byte up to 239 counts units of 6 minutes, the window starts 36 minutes earlier and
    lasts 36 minutes plus the on-time. *)
Definition scheduled (p : list Z) (onTime mm : Z) : Prop :=
  exists w b, nth_error p w = Some b /\ b <= 239 /\ in_window (6 * b - 36) (36 + onTime) mm.
Definition programmes_ok (p : list Z) : Prop := Forall byte p /\ Zlen p <= 255.

Lemma on_time_val b : 0 <= b <= 239 -> computeScheduleOnTimeFromProgrammeByte b = (6 * b - 36) mod 1440.
Proof.
  intros H. unfold computeScheduleOnTimeFromProgrammeByte, computeTimeFromPrgrammeByte, GRANULARITY, MINS_PER_DAY.
  change PREWARM_MINS with 36. rewrite !(u16_id (6 * b)) by lia.
  destruct (36 >? 6 * b) eqn:E.
  - rewrite (u16_id (6 * b + 1440)), u16_id by lia. Z.div_mod_to_equations. lia.
  - rewrite u16_id by lia. Z.div_mod_to_equations. lia.
Qed.

Lemma programme_nth p w b : nth_error p w = Some b -> programme p (Z.of_nat w) = b.
Proof. intros H. unfold programme. rewrite Nat2Z.id. apply nth_error_nth, H. Qed.

Lemma on_val p w b : nth_error p w = Some b -> byte b ->
  getSimpleScheduleOn p (Z.of_nat w) = if b <=? 239 then (6 * b - 36) mod 1440 else 65535.
Proof.
  intros H Hb. unfold byte in Hb. unfold getSimpleScheduleOn, maxSchedules. rewrite (programme_nth _ _ _ H).
  assert (Hl : (w < length p)%nat) by (apply nth_error_Some; congruence).
  replace (Z.of_nat w >=? Zlen p) with false by (unfold Zlen; lia).
  change MAX_COMPRESSED with 239. destruct (b >? 239) eqn:E.
  - replace (b <=? 239) with false by lia. reflexivity.
  - replace (b <=? 239) with true by lia. apply on_time_val. lia.
Qed.
Lemma off_val p w b ot : nth_error p w = Some b -> byte b -> byte ot ->
  getSimpleScheduleOff p ot (Z.of_nat w) = if b <=? 239 then (6 * b + ot) mod 1440 else 65535.
Proof.
  intros H Hb Ho. unfold byte in *. unfold getSimpleScheduleOff. rewrite (on_val p w b) by (auto; unfold byte; lia).
  destruct (b <=? 239) eqn:E; [|reflexivity]. change PREWARM_MINS with 36. unfold NONE16, MINS_PER_DAY.
  assert (HS : 0 <= (6 * b - 36) mod 1440 < 1440) by (apply Z.mod_pos_bound; lia).
  replace ((6 * b - 36) mod 1440 =? 65535) with false by lia.
  rewrite (u16_id ((6 * b - 36) mod 1440 + 36 + ot)) by lia.
  destruct (_ >=? 1440) eqn:E2; [rewrite u16_id by lia|]; Z.div_mod_to_equations; lia.
Qed.

Lemma one_on_spec p w b ot mm : nth_error p w = Some b -> byte b -> byte ot -> 0 <= mm < 1440 ->
  one_on_now p ot (Z.of_nat w) mm = true <-> b <= 239 /\ in_window (6 * b - 36) (36 + ot) mm.
Proof.
  intros H Hb Ho Hmm. unfold one_on_now. rewrite (on_val p w b), (off_val p w b) by auto. unfold byte, NONE16, in_window in *.
  destruct (b <=? 239) eqn:E; [|split; [discriminate|lia]].
  assert (HS : 0 <= (6 * b - 36) mod 1440 < 1440) by (apply Z.mod_pos_bound; lia).
  replace (65535 =? (6 * b - 36) mod 1440) with false by lia.
  assert (HE : (6 * b + ot) mod 1440 = ((6 * b - 36) mod 1440 + (36 + ot)) mod 1440)
    by (rewrite Zplus_mod_idemp_l; f_equal; lia).
  assert (HM : (mm - (6 * b - 36)) mod 1440 = (mm - (6 * b - 36) mod 1440) mod 1440)
    by (rewrite Zminus_mod_idemp_r; reflexivity).
  rewrite HE, HM. clear HE HM. set (s := (6 * b - 36) mod 1440) in *. clearbody s.
  assert (H2 : (mm - s) mod 1440 = if mm <? s then mm - s + 1440 else mm - s)
    by (clear - Hmm HS; destruct (mm <? s) eqn:?; Z.div_mod_to_equations; lia).
  assert (H1 : (s + (36 + ot)) mod 1440 = if s + (36 + ot) <? 1440 then s + (36 + ot) else s + (36 + ot) - 1440)
    by (clear - Ho HS; destruct (s + (36 + ot) <? 1440) eqn:?; Z.div_mod_to_equations; lia).
  rewrite H1, H2. clear H1 H2.
  destruct (s + (36 + ot) <? 1440) eqn:E1, (mm <? s) eqn:E2;
    match goal with |- context [if ?a <? ?c then _ else _] => destruct (a <? c) eqn:E3 end; lia.
Qed.

Lemma on_loop_spec p ot mm : forall n w, (w + n <= length p)%nat ->
  on_now_loop p ot mm n (Z.of_nat w) = true <->
  exists k, (w <= k < w + n)%nat /\ one_on_now p ot (Z.of_nat k) mm = true.
Proof.
  induction n as [|n IH]; intros w Hw; cbn [on_now_loop].
  - split; [discriminate|]. intros (k & Hk & _). lia.
  - replace (Z.of_nat w + 1) with (Z.of_nat (S w)) by lia.
    destruct (one_on_now p ot (Z.of_nat w) mm) eqn:E.
    + split; [|reflexivity]. intros _. exists w. split; [lia|exact E].
    + rewrite IH by lia. split; intros (k & Hk & H).
      * exists k. split; [lia|exact H].
      * exists k. split; [|exact H]. destruct (Nat.eq_dec k w) as [->|]; [congruence|lia].
Qed.

(** ** C35 *)
Theorem C35_window : forall p onTime mm,
  programmes_ok p -> byte onTime -> 0 <= mm < 1440 ->
  (isAnyScheduleOnWARMNow p onTime mm = true <-> scheduled p onTime mm).
Proof.
  intros p ot mm [HF _] Ho Hmm. unfold isAnyScheduleOnWARMNow, MINS_PER_DAY, maxSchedules, Zlen.
  replace (mm >=? 1440) with false by lia. rewrite Nat2Z.id. rewrite (on_loop_spec p ot mm (length p) 0) by lia.
  split.
  - intros (k & Hk & H). destruct (nth_error p k) as [b|] eqn:E; [|apply nth_error_None in E; lia].
    exists k, b. split; [exact E|]. apply (one_on_spec p k b ot mm); auto.
    apply (proj1 (Forall_forall _ _) HF b (nth_error_In _ _ E)).
  - intros (k & b & E & H). exists k. assert (Hl : (k < length p)%nat) by (apply nth_error_Some; congruence). split; [lia|].
    apply (one_on_spec p k b ot mm); auto. apply (proj1 (Forall_forall _ _) HF b (nth_error_In _ _ E)).
Qed.
(** 54 minutes' notice of the above. *)
Theorem C35_soon : forall p onTime mm,
  programmes_ok p -> byte onTime -> 0 <= mm < 1440 ->
  (isAnyScheduleOnWARMSoon p onTime mm = true <-> scheduled p onTime ((mm + 54) mod 1440)).
Proof.
  intros p ot mm Hp Ho Hmm. unfold isAnyScheduleOnWARMSoon, MINS_PER_DAY. change PREPREWARM_MINS with 54.
  replace (mm >=? 1440) with false by lia. rewrite (u16_id (mm + 54)) by lia.
  assert (HE : (if mm + 54 >=? 1440 then u16 (mm + 54 - 1440) else mm + 54) = (mm + 54) mod 1440).
  { destruct (_ >=? _) eqn:?; [rewrite u16_id by lia|]; Z.div_mod_to_equations; lia. }
  rewrite HE. apply C35_window; auto. apply Z.mod_pos_bound. lia.
Qed.

Lemma set_nth {A} (l : list A) w x : (w < length l)%nat ->
  forall k, nth_error (firstn w l ++ [x] ++ skipn (S w) l) k = if (k =? w)%nat then Some x else nth_error l k.
Proof.
  intros Hw k. destruct (k =? w)%nat eqn:E.
  - apply Nat.eqb_eq in E. subst k. rewrite nth_error_app2 by (rewrite firstn_length; lia).
    rewrite firstn_length. replace (w - _)%nat with 0%nat by lia. reflexivity.
  - apply Nat.eqb_neq in E. destruct (le_lt_dec w k).
    + rewrite nth_error_app2 by (rewrite firstn_length; lia). rewrite firstn_length.
      replace (k - Nat.min w (length l))%nat with (S (k - S w)) by lia. cbn [app nth_error].
      rewrite <- (firstn_skipn (S w) l) at 2. rewrite nth_error_app2 by (rewrite firstn_length; lia).
      rewrite firstn_length. f_equal. lia.
    + rewrite nth_error_app1 by (rewrite firstn_length; lia).
      rewrite <- (firstn_skipn w l) at 2. rewrite nth_error_app1 by (rewrite firstn_length; lia). reflexivity.
Qed.
Lemma set_length {A} (l : list A) w x : (w < length l)%nat -> length (firstn w l ++ [x] ++ skipn (S w) l) = length l.
Proof. intros. rewrite !app_length, firstn_length, skipn_length. simpl. lia. Qed.
Lemma set_ok p w x : (w < length p)%nat -> byte x -> programmes_ok p ->
  programmes_ok (firstn w p ++ [x] ++ skipn (S w) p).
Proof.
  intros Hw Hx [HF HL]. split; [|unfold Zlen in *; rewrite set_length by exact Hw; exact HL].
  apply Forall_forall. intros y Hy. apply In_nth_error in Hy. destruct Hy as [k Hk].
  rewrite set_nth in Hk by exact Hw. destruct (k =? w)%nat; [congruence|].
  apply (proj1 (Forall_forall _ _) HF y (nth_error_In _ _ Hk)).
Qed.

(** Setting a schedule to minute [t]: accepted; the start time read back plus the
    pre-warm is [t] rounded down to 6 minutes, the off time read back is the on-time
    after that, and the minutes reported WARM are those of the window plus those of the
    other schedules. *)
Theorem C35_set : forall p w t onTime,
  programmes_ok p -> byte onTime -> 0 <= t < 1440 -> 0 <= w < Zlen p ->
  exists p', setSimpleSchedule p t w = (p', true) /\ programmes_ok p' /\ isAnySimpleScheduleSet p' = true /\
    (exists t6, t - 6 < t6 <= t /\ (6 | t6) /\
       getSimpleScheduleOn p' w = (t6 - 36) mod 1440 /\
       getSimpleScheduleOff p' onTime w = (t6 + onTime) mod 1440 /\
       forall mm, 0 <= mm < 1440 ->
         (isAnyScheduleOnWARMNow p' onTime mm = true <->
            in_window (t6 - 36) (36 + onTime) mm \/
            exists k b, Z.of_nat k <> w /\ nth_error p k = Some b /\ b <= 239 /\ in_window (6 * b - 36) (36 + onTime) mm)) /\
    (forall k, 0 <= k -> k <> w -> getSimpleScheduleOn p' k = getSimpleScheduleOn p k).
Proof.
  intros p w t ot Hp Ho Ht Hw. unfold setSimpleSchedule, maxSchedules, MINS_PER_DAY.
  replace (w >=? Zlen p) with false by lia. replace (t >=? 1440) with false by lia.
  assert (Hb : computeProgrammeByteFromTime t = t / 6).
  { unfold computeProgrammeByteFromTime, GRANULARITY. apply u8_id. unfold byte. Z.div_mod_to_equations. lia. }
  assert (Hr : 0 <= t / 6 <= 239) by (Z.div_mod_to_equations; lia).
  rewrite Hb. set (n := Z.to_nat w) in *. assert (Hn : (n < length p)%nat) by (unfold n, Zlen in *; lia).
  assert (HwE : w = Z.of_nat n) by (unfold n; lia).
  eexists. split; [reflexivity|]. assert (Hok := set_ok p n (t / 6) Hn ltac:(unfold byte; lia) Hp).
  set (p' := firstn n p ++ [t / 6] ++ skipn (S n) p) in *.
  assert (Hnth : nth_error p' n = Some (t / 6)) by (unfold p'; rewrite set_nth, Nat.eqb_refl by exact Hn; reflexivity).
  split; [exact Hok|]. split.
  { unfold isAnySimpleScheduleSet. apply nth_error_In in Hnth. clear - Hnth Hr. induction p' as [|x l IH]; [destruct Hnth|].
    cbn [isAnySet_loop]. change MAX_COMPRESSED with 239. destruct Hnth as [->|H]; [replace (t / 6 <=? 239) with true by lia; reflexivity|].
    rewrite (IH H). destruct (_ <=? _); reflexivity. }
  split.
  - exists (6 * (t / 6)). split; [Z.div_mod_to_equations; lia|]. split; [exists (t / 6); lia|].
    rewrite HwE. rewrite (on_val p' n (t / 6)), (off_val p' n (t / 6) ot) by (auto; unfold byte; lia).
    replace (t / 6 <=? 239) with true by lia. split; [reflexivity|]. split; [reflexivity|].
    intros mm Hmm. rewrite C35_window by auto. split.
    + intros (k & b & E & H1 & H2). unfold p' in E. rewrite set_nth in E by exact Hn. destruct (k =? n)%nat eqn:Ek.
      * injection E as <-. left. exact H2.
      * right. exists k, b. repeat split; auto. lia.
    + intros [H|(k & b & H0 & H1 & H2 & H3)].
      * exists n, (t / 6). repeat split; auto. lia.
      * exists k, b. repeat split; auto. unfold p'. rewrite set_nth by exact Hn.
        replace (k =? n)%nat with false by lia. exact H1.
  - intros k Hk Hne. unfold getSimpleScheduleOn, maxSchedules, Zlen. unfold p' at 1. rewrite set_length by exact Hn.
    destruct (k >=? Z.of_nat (length p)) eqn:E; [reflexivity|].
    assert (HP : programme p' k = programme p k).
    { unfold programme. destruct (nth_error p (Z.to_nat k)) as [b|] eqn:Eb; [|apply nth_error_None in Eb; lia].
      rewrite (nth_error_nth p _ _ Eb). apply nth_error_nth. unfold p'. rewrite set_nth by exact Hn.
      replace (Z.to_nat k =? n)%nat with false by lia. exact Eb. }
    rewrite HP. reflexivity.
Qed.

(** Invalid requests are refused, and do nothing. *)
Theorem C35_invalid : forall p t w, 0 <= w -> (1440 <= t \/ Zlen p <= w) -> setSimpleSchedule p t w = (p, false).
Proof.
  intros p t w Hw H. unfold setSimpleSchedule, maxSchedules, MINS_PER_DAY.
  destruct (w >=? Zlen p) eqn:E; [reflexivity|]. replace (t >=? 1440) with true by lia. reflexivity.
Qed.
(** A cleared schedule contributes nothing. *)
Theorem C35_clear : forall p w onTime mm,
  programmes_ok p -> byte onTime -> 0 <= mm < 1440 -> 0 <= w < Zlen p ->
  getSimpleScheduleOn (clearSimpleSchedule p w) w = 65535 /\
  getSimpleScheduleOff (clearSimpleSchedule p w) onTime w = 65535 /\
  (isAnyScheduleOnWARMNow (clearSimpleSchedule p w) onTime mm = true <->
     exists k b, Z.of_nat k <> w /\ nth_error p k = Some b /\ b <= 239 /\ in_window (6 * b - 36) (36 + onTime) mm).
Proof.
  intros p w ot mm Hp Ho Hmm Hw. unfold clearSimpleSchedule, maxSchedules. replace (w >=? Zlen p) with false by lia.
  set (n := Z.to_nat w) in *. assert (Hn : (n < length p)%nat) by (unfold n, Zlen in *; lia).
  assert (HwE : w = Z.of_nat n) by (unfold n; lia).
  pose proof (set_ok p n 255 Hn ltac:(unfold byte; lia) Hp) as Hok.
  assert (Hnth : nth_error (firstn n p ++ [255] ++ skipn (S n) p) n = Some 255) by (rewrite set_nth, Nat.eqb_refl by exact Hn; reflexivity).
  split; [|split].
  - rewrite HwE, (on_val _ n 255) by (auto; unfold byte; lia). reflexivity.
  - rewrite HwE, (off_val _ n 255) by (auto; unfold byte; lia). reflexivity.
  - rewrite C35_window by auto. split.
    + intros (k & b & E & H1 & H2). rewrite set_nth in E by exact Hn. destruct (k =? n)%nat eqn:Ek.
      * injection E as <-. lia.
      * exists k, b. repeat split; auto. lia.
    + intros (k & b & H0 & H1 & H2 & H3). exists k, b. repeat split; auto. rewrite set_nth by exact Hn.
      replace (k =? n)%nat with false by lia. exact H1.
Qed.
(** Some minute is scheduled if and only if some schedule is set. *)
Theorem C35_any_set : forall p onTime, programmes_ok p -> byte onTime ->
  (isAnySimpleScheduleSet p = true <-> exists mm, 0 <= mm < 1440 /\ isAnyScheduleOnWARMNow p onTime mm = true).
Proof.
  intros p ot Hp Ho. transitivity (exists w b, nth_error p w = Some b /\ b <= 239).
  - unfold isAnySimpleScheduleSet. clear Hp. induction p as [|x p IH]; cbn [isAnySet_loop].
    + split; [discriminate|]. intros (w & b & H & _). destruct w; discriminate.
    + change MAX_COMPRESSED with 239 in *. destruct (x <=? 239) eqn:E.
      * split; [|reflexivity]. intros _. exists 0%nat, x. split; [reflexivity|lia].
      * rewrite IH. split; intros (w & b & H1 & H2).
        -- exists (S w), b. auto.
        -- destruct w; [simpl in H1; injection H1 as <-; lia|]. exists w, b. auto.
  - split.
    + intros (w & b & H1 & H2). exists ((6 * b - 36) mod 1440). split; [apply Z.mod_pos_bound; lia|].
      apply C35_window; auto; [apply Z.mod_pos_bound; lia|]. exists w, b. repeat split; auto.
      unfold in_window, byte in *. rewrite Zminus_mod_idemp_l, Z.sub_diag. change (0 mod 1440) with 0. lia.
    + intros (mm & Hmm & H). apply C35_window in H; auto. destruct H as (w & b & H1 & H2 & _). exists w, b. auto.
Qed.

Example C35_example : programmes_ok [73; 255] /\
  setSimpleSchedule [255; 255] 443 0 = ([73; 255], true) /\
  isAnyScheduleOnWARMNow [73; 255] 60 402 = true /\ isAnyScheduleOnWARMNow [73; 255] 60 401 = false /\
  isAnyScheduleOnWARMNow [73; 255] 60 497 = true /\ isAnyScheduleOnWARMNow [73; 255] 60 498 = false /\
  (* across midnight: programme 00:12 is warm from 23:36 *)
  isAnyScheduleOnWARMNow [2; 255] 60 1416 = true /\ isAnyScheduleOnWARMNow [2; 255] 60 0 = true /\ isAnyScheduleOnWARMNow [2; 255] 60 72 = false.
Proof.
  split; [|vm_compute; auto 10]. split; [|vm_compute; discriminate].
  apply Forall_cons; [unfold byte; lia|apply Forall_cons; [unfold byte; lia|constructor]].
Qed.
