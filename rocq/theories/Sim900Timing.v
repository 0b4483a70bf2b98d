(** SIM900 link: timing of the power pin and of the retries (C118, C119). *)
From Coq Require Import Sorted.
From Verif Require Import Base RtcModel Sim900Model Sim900Props Sim900Hist.

Definition poll_time (x : SEv * list SOut) : list Z := match fst x with EPoll e => [now e] | _ => [] end.
Definition times (tr : list (SEv * list SOut)) : list Z := flat_map poll_time tr.
(** Time does not go backwards from poll to poll. *)
Definition forward (tr : list (SEv * list SOut)) : Prop := StronglySorted Z.le (times tr).
(** When the power pin was last raised, and whether it is still high. *)
Definition pin1 (p : option (Z * bool)) (x : SEv * list SOut) : option (Z * bool) :=
  match x with
  | (EPoll e, o) => if existsb is_high o then Some (now e, true)
                    else if existsb (fun y => match y with OPin false => true | _ => false end) o
                    then match p with Some (t, _) => Some (t, false) | None => None end else p
  | _ => p
  end.
Definition pin (tr : list (SEv * list SOut)) : option (Z * bool) := fold_left pin1 tr None.

Lemma times_app a b : times (a ++ b) = times a ++ times b. Proof. apply flat_map_app. Qed.
Lemma sorted_app : forall a b, StronglySorted Z.le (a ++ b) -> StronglySorted Z.le a /\ StronglySorted Z.le b /\ forall x y, In x a -> In y b -> x <= y.
Proof.
  induction a as [|z a IH]; intros b H; cbn [app] in H.
  - repeat split; [constructor|exact H|intros x y []].
  - inversion H as [|? ? H1 H2]; subst. destruct (IH _ H1) as (HA & HB & HC). rewrite Forall_app in H2. destruct H2 as [H2 H3].
    repeat split; [constructor; assumption|exact HB|]. intros x y [-> | Hx] Hy; [|auto]. rewrite Forall_forall in H3. auto.
Qed.
Lemma waited_after d t0 t : t0 <= t -> 0 <= d < 60 -> waited (secs t0) d t = true -> t0 + d + 1 <= t.
Proof.
  intros H Hd HW. unfold waited in HW. pose proof (secs_range t0). pose proof (secs_range t). rewrite u8_id in HW by (red; lia).
  unfold getElapsedSecondsLT in HW.
  destruct (secs t >=? secs t0) eqn:E; rewrite u8_id in HW by (red; lia); unfold secs in *; Z.div_mod_to_equations; lia.
Qed.

Definition in_pulse (x : SSt) : bool := match x with WAIT_PWR_HIGH | WAIT_PWR_LOW => true | _ => false end.
Definition timed (tr : list (SEv * list SOut)) (s : Sim) : Prop := forward tr ->
  match pin tr with
  | None => st s = GET_STATE
  | Some (tp, h) => In tp (times tr) /\ h = SSt_eqb (st s) WAIT_PWR_HIGH /\
      (if in_pulse (st s) then powerT s = secs tp else exists t, In t (times tr) /\ tp + 13 <= t)
  end.
Lemma timed_goes tr s e s1 o : timed tr s -> wf s -> goes s (now e) s1 o -> timed (tr ++ [(EPoll e, o)]) (onStateChange s1).
Proof.
  intros HT W HG HF. unfold timed, forward, pin in *. rewrite times_app in *. destruct (sorted_app _ _ HF) as (HS & _ & HL). specialize (HT HS).
  rewrite fold_left_app. cbn [fold_left pin1]. set (p := fold_left pin1 tr None) in *. clearbody p.
  destruct (onStateChange_queue s1) as (_ & _ & _ & -> & -> & _).
  assert (HN : forall x, In x (times tr) -> x <= now e) by (intros x Hx; apply HL; [exact Hx|left; reflexivity]).
  change (times [(EPoll e, o)]) with [now e].
  assert (HI : In (now e) (times tr ++ [now e])) by (apply in_or_app; right; left; reflexivity).
  assert (HK : st s1 = st s \/ (in_pulse (st s) = false /\ in_pulse (st s1) = false /\ st s <> GET_STATE) -> powerT s1 = powerT s ->
    existsb is_high o = false -> existsb (fun y => match y with OPin false => true | _ => false end) o = false ->
    match (if existsb is_high o then Some (now e, true) else if existsb (fun y => match y with OPin false => true | _ => false end) o
           then match p with Some (t, _) => Some (t, false) | None => None end else p) with
    | None => st s1 = GET_STATE
    | Some (tp, h) => In tp (times tr ++ [now e]) /\ h = SSt_eqb (st s1) WAIT_PWR_HIGH /\
      (if in_pulse (st s1) then powerT s1 = secs tp else exists t, In t (times tr ++ [now e]) /\ tp + 13 <= t) end).
  { intros HA HB -> ->. destruct p as [[tp h]|].
    - destruct HT as (H1 & H2 & H3). split; [apply in_or_app; auto|]. rewrite HB. destruct HA as [-> | (HA & HA2 & HA3)].
      + split; [exact H2|]. destruct (in_pulse (st s)); [exact H3|]. destruct H3 as (t & H3 & H4). exists t. split; [apply in_or_app; auto|exact H4].
      + rewrite HA2. rewrite HA in H3. split.
        * rewrite H2. destruct (st s); try discriminate; destruct (st s1); try discriminate; reflexivity.
        * destruct H3 as (t & H3 & H4). exists t. split; [apply in_or_app; auto|exact H4].
    - destruct HA as [-> | (_ & _ & HA)]; [exact HT|contradiction]. }
  assert (HP : in_pulse (st s) = true -> exists tp, p = Some (tp, SSt_eqb (st s) WAIT_PWR_HIGH) /\ In tp (times tr) /\ powerT s = secs tp).
  { intros HA. destruct p as [[tp h]|]; [|rewrite HT in HA; discriminate]. destruct HT as (H1 & -> & H3). rewrite HA in H3. eauto. }
  destruct HG as [E|b E|E Ew|E Ew|E Ew|E Ew|y E Ey|y c Ey|E|E|E Eq|E Eq|y E Ey|E Eq|E Eq|b E Eb|E|E];
    try (apply HK; sim_red; try rewrite E; auto; fail).
  - exfalso. apply (proj1 (w_st _ W)). exact E.
  - cbn [existsb is_high orb]. sim_red. cbn [in_pulse SSt_eqb]. split; [exact HI|auto].
  - cbn [existsb is_high orb]. destruct HP as (tp & -> & H1 & H2); [rewrite E; reflexivity|]. sim_red. cbn [in_pulse SSt_eqb].
    split; [apply in_or_app; auto|auto].
  - cbn [existsb is_high orb]. destruct HP as (tp & -> & H1 & H2); [rewrite E; reflexivity|]. rewrite E. sim_red. cbn [in_pulse SSt_eqb].
    split; [apply in_or_app; auto|]. split; [reflexivity|]. exists (now e). split; [exact HI|].
    rewrite H2 in Ew. pose proof (waited_after 12 tp (now e) (HN _ H1) ltac:(lia) Ew). lia.
  - apply HK; sim_red; auto. right. rewrite E. destruct Ey as [-> | ->]; repeat split; discriminate.
  - apply HK; [|reflexivity| |].
    + right. unfold setRetryLock. sim_red.
      destruct Ey as [(-> & -> & [-> | ->])|[(-> & -> & [-> | ->])|[(-> & -> & ->)|[(-> & [(-> & [-> | ->]) | (-> & ->)])|[(-> & -> & [-> | ->])|(-> & -> & ->)]]]]];
      repeat split; discriminate.
    + decompose [and or] Ey; subst; reflexivity.
    + decompose [and or] Ey; subst; reflexivity.
  - apply HK; sim_red; auto. right. rewrite E. repeat split; discriminate.
  - apply HK; sim_red; auto. right. rewrite E. repeat split; discriminate.
  - apply HK; sim_red; auto. right. rewrite E. repeat split; discriminate.
  - apply HK; sim_red; auto. right. rewrite E. destruct Ey as [-> | ->]; repeat split; discriminate.
  - apply HK; sim_red; auto. right. rewrite E. repeat split; discriminate.
  - apply HK; sim_red; auto. right. rewrite E. repeat split; discriminate.
  - apply HK; sim_red; auto. right. rewrite E. repeat split; discriminate.
  - apply HK; sim_red; auto. right. rewrite E. repeat split; discriminate.
Qed.
Lemma timed_quiet tr s v s' : timed tr s -> pin1 (pin tr) (v, []) = pin tr ->
  (st s' = st s \/ (in_pulse (st s) = false /\ st s <> GET_STATE /\ st s' = RESET)) -> powerT s' = powerT s ->
  timed (tr ++ [(v, [])]) s'.
Proof.
  intros HT HP HA HB HF. unfold timed, forward, pin in *. rewrite times_app in *. destruct (sorted_app _ _ HF) as (HS & _ & _). specialize (HT HS).
  rewrite fold_left_app. cbn [fold_left]. rewrite HP. destruct (fold_left pin1 tr None) as [[tp h]|].
  - destruct HT as (H1 & H2 & H3). split; [apply in_or_app; auto|]. destruct HA as [HA | (HA & _ & HA2)].
    + rewrite HA, HB. split; [exact H2|]. destruct (in_pulse (st s)); [exact H3|]. destruct H3 as (t & H3 & H4). exists t. split; [apply in_or_app; auto|exact H4].
    + rewrite HA2. rewrite HA in H3. cbn [in_pulse SSt_eqb]. split; [rewrite H2; destruct (st s); try discriminate; reflexivity|].
      destruct H3 as (t & H3 & H4). exists t. split; [apply in_or_app; auto|exact H4].
  - destruct HA as [-> | (_ & HA & _)]; [exact HT|contradiction].
Qed.
Lemma timed_step tr s v s' o : wf s -> timed tr s -> sim_step s v = Some (s', o) -> timed (tr ++ [(v, o)]) s'.
Proof.
  intros W HH H. destruct v as [e|b|]; cbn [sim_step] in *.
  - destruct (poll_cases _ _ _ _ H) as [(H1 & -> & ->) | [(H1 & H2 & -> & ->) | [(_ & _ & _ & -> & ->) | (H1 & H2 & _ & s1 & HG & ->)]]].
    + apply (timed_quiet _ s); auto; unfold retryLockOut; destruct (0 =? retries s); try (destruct (waited _ _ _); auto; fail); [|reflexivity].
      right. destruct (w_lock _ W) as [|(_ & HT & _)]; [contradiction|]. destruct (st s); try discriminate; repeat split; discriminate.
    + apply (timed_quiet _ s); auto. right. rewrite (w_255 _ W H2). repeat split; discriminate.
    + apply (timed_quiet _ s); auto.
    + apply (timed_goes _ s); assumption.
  - apply some_inj, pair_inj in H. destruct H as [<- <-]. apply (timed_quiet _ s); auto; unfold queueToSend; destruct b as [b|]; auto; destruct (Zlen b >? 64); auto.
  - unfold sim_end in H. apply some_inj, pair_inj in H. destruct H as [<- <-]. intros HF.
    unfold forward, timed, pin in *. rewrite times_app in *. cbn in HF. rewrite app_nil_r in HF. specialize (HH HF).
    rewrite fold_left_app. cbn [fold_left pin1]. change (times [(EEnd, [OCmd CIPCLOSE])]) with (@nil Z). rewrite app_nil_r. exact HH.
Qed.

(** The power pin: raised only when low; lowered only when high, at least 3 s after it was
    raised; and nothing is said to the module until 13 s after it was raised. *)
Theorem sim_power_pin : forall vs s tr tr1 e o tr2 x, sim_run started vs = Some (s, tr) -> forward tr ->
  tr = tr1 ++ (EPoll e, o) :: tr2 -> In x o ->
  match x with
  | OPin true => match pin tr1 with Some (tp, h) => h = false /\ tp + 13 <= now e | None => True end
  | OPin false => match pin tr1 with Some (tp, h) => h = true /\ tp + 3 <= now e | None => False end
  | OCmd _ | OFrame _ => match pin tr1 with Some (tp, h) => h = false /\ tp + 13 <= now e | None => x = OCmd AT end
  end.
Proof.
  intros vs s tr tr1 e o tr2 x HR HF HE HI.
  destruct (sim_run_inv timed timed_step vs [] started s tr wf_started (fun _ => eq_refl) HR) as [_ HX].
  destruct (HX _ _ _ _ HE) as (a & a' & Wa & Ha & HS). cbn [app] in Ha. cbn [sim_step] in HS.
  unfold forward in HF. rewrite HE, times_app in HF. destruct (sorted_app _ _ HF) as (HF1 & _ & HL).
  assert (HN : forall y, In y (times tr1) -> y <= now e) by (intros y Hy; apply HL; [exact Hy|left; reflexivity]).
  specialize (Ha HF1).
  destruct (poll_cases _ _ _ _ HS) as [(_ & _ & ->) | [(_ & _ & _ & ->) | [(_ & _ & _ & _ & ->) | (H1 & H2 & _ & s1 & HG & _)]]]; try (destruct HI; fail).
  assert (HG' : (st a = GET_STATE /\ o = [OCmd AT; OPin true]) \/ (st a = WAIT_PWR_HIGH /\ waited (powerT a) 2 (now e) = true /\ o = [OPin false]) \/
     (in_pulse (st a) = false /\ st a <> GET_STATE /\ ~ In (OPin true) o /\ ~ In (OPin false) o)).
  { destruct HG as [E|b E|E Ew|E Ew|E Ew|E Ew|y E Ey|y c Ey|E|E|E Eq|E Eq|y E Ey|E Eq|E Eq|b E Eb|E|E]; try (destruct HI; fail); auto;
    try (right; right; rewrite E; cbn; intuition discriminate).
    right. right. decompose [and or] Ey; subst; repeat match goal with H : st a = _ |- _ => rewrite H; clear H end; cbn; intuition discriminate. }
  destruct HG' as [(E & ->) | [(E & Ew & ->) | (E1 & E2 & E3 & E4)]].
  - destruct (pin tr1) as [[tp h]|].
    + rewrite E in Ha. destruct Ha as (_ & -> & t & H3 & H4). specialize (HN _ H3).
      destruct HI as [<- | [<- | []]]; (split; [reflexivity|lia]).
    + destruct HI as [<- | [<- | []]]; [reflexivity|exact I].
  - destruct HI as [<- | []]. destruct (pin tr1) as [[tp h]|]; rewrite E in Ha; [|discriminate]. destruct Ha as (H3 & -> & H4). cbn [in_pulse] in H4.
    split; [reflexivity|]. rewrite H4 in Ew. pose proof (waited_after 2 tp (now e) (HN _ H3) ltac:(lia) Ew). lia.
  - destruct (pin tr1) as [[tp h]|]; [|contradiction]. rewrite E1 in Ha. destruct Ha as (_ & -> & t & H3 & H4). specialize (HN _ H3).
    assert (HC : SSt_eqb (st a) WAIT_PWR_HIGH = false) by (destruct (st a); try reflexivity; discriminate).
    rewrite HC. destruct x as [c|b|[|]]; try contradiction; (split; [reflexivity|lia]).
Qed.

(** ** Spacing of the attempts *)
Definition home (c : ACmd) : SSt :=
  match c with CPIN => CHECK_PIN | CREG => WAIT_FOR_REGISTRATION | CSTT => SET_APN | CIICR => START_GPRS | _ => OPEN_UDP end.
Definition rank (x : SSt) : Z :=
  match x with
  | GET_STATE | RESET => 20 | WAIT_PWR_HIGH | WAIT_PWR_LOW => 0 | START_UP => 1 | CHECK_PIN => 2 | WAIT_FOR_REGISTRATION => 3
  | SET_APN => 4 | START_GPRS => 5 | GET_IP => 6 | OPEN_UDP => 7 | _ => 10
  end.
Definition attempt (c : ACmd) : Prop := c = CPIN \/ c = CREG \/ c = CSTT \/ c = CIICR \/ c = CIPSTART.
(** [t0]: when [c] was last sent. *)
Definition spaced (c : ACmd) (t0 : Z) (tr : list (SEv * list SOut)) (s : Sim) : Prop := StronglySorted Z.le (t0 :: times tr) ->
  (exists t, In t (times tr) /\ t0 + 3 <= t) \/ rank (home c) < rank (st s) \/
  (in_pulse (st s) = true /\ exists t, In t (t0 :: times tr) /\ powerT s = secs t) \/
  (st s = home c /\ retryT s = secs t0).
Lemma home_rank c : attempt c -> 2 <= rank (home c) <= 7.
Proof. intros [-> | [-> | [-> | [-> | ->]]]]; cbn; lia. Qed.
Lemma spaced_step c t0 tr s v s' o : attempt c -> wf s -> spaced c t0 tr s -> sim_step s v = Some (s', o) -> spaced c t0 (tr ++ [(v, o)]) s'.
Proof.
  intros HC W HH H HF. apply home_rank in HC. unfold spaced in *. rewrite times_app in *.
  change (t0 :: times tr ++ times [(v, o)]) with ((t0 :: times tr) ++ times [(v, o)]) in *.
  destruct (sorted_app _ _ HF) as (HS & _ & HL). specialize (HH HS). clear HF.
  assert (H0 : forall t, In t (times tr) -> t0 <= t) by (inversion HS as [|? ? _ HA]; subst; rewrite Forall_forall in HA; exact HA).
  assert (HX : forall t, In t (times tr) -> In t (times tr ++ times [(v, o)])) by (intros; apply in_or_app; auto).
  destruct HH as [(t & H1 & H2) | HH]; [left; exists t; auto|].
  destruct v as [e|b|]; cbn [sim_step] in *.
  - change (times [(EPoll e, o)]) with [now e] in *.
    assert (HN : forall y, In y (t0 :: times tr) -> y <= now e) by (intros y Hy; apply HL; [exact Hy|left; reflexivity]).
    assert (HI : In (now e) (times tr ++ [now e])) by (apply in_or_app; right; left; reflexivity).
    assert (HY : forall y, In y (t0 :: times tr) -> In y ((t0 :: times tr) ++ [now e])) by (intros; apply in_or_app; auto).
    destruct (poll_cases _ _ _ _ H) as [(H1 & -> & ->) | [(H1 & H2 & -> & ->) | [(_ & _ & _ & -> & ->) | (H1 & H2 & _ & s1 & HG & ->)]]].
    + unfold retryLockOut. destruct (0 =? retries s); [right; left; cbn [set_st st rank]; lia|].
      destruct (waited (retryT s) 2 (now e)) eqn:EW; sim_red.
      * destruct HH as [HH | [(HH & t & HA & HB) | (HA & HB)]]; [right; left; exact HH|right; right; left; split; [exact HH|exists t; auto]|].
        left. exists (now e). split; [exact HI|]. rewrite HB in EW.
        pose proof (waited_after 2 t0 (now e) (HN _ (or_introl eq_refl)) ltac:(lia) EW). lia.
      * right. destruct HH as [HH | [(HH & t & HA & HB) | (HA & HB)]]; [left; exact HH|right; left; split; [exact HH|exists t; auto]|right; right; auto].
    + right; left. cbn [set_st st rank]. lia.
    + right. destruct HH as [HH | [(HH & t & HA & HB) | (HA & HB)]]; [left; exact HH|right; left; split; [exact HH|exists t; auto]|right; right; auto].
    + destruct (onStateChange_queue s1) as (_ & _ & _ & -> & -> & _).
      destruct HH as [HH | [(HH & t & HA & HB) | (HA & HB)]].
      * destruct HG as [E|b E|E Ew|E Ew|E Ew|E Ew|y E Ey|y d Ey|E|E|E Eq|E Eq|y E Ey|E Eq|E Eq|b E Eb|E|E]; sim_red; rewrite ?E in HH; cbn [rank] in *;
          try (destruct (proj1 (w_st _ W) E)); try (destruct (proj2 (w_st _ W) E));
          try (right; left; lia); try (right; left; rewrite E; exact HH).
        { right; right; left. split; [reflexivity|]. exists (now e). split; [apply in_or_app; right; left; reflexivity|reflexivity]. }
        { right; left. unfold setRetryLock. sim_red.
          destruct Ey as [(E & -> & [-> | ->])|[(E & -> & [-> | ->])|[(E & -> & ->)|[(E & [(-> & [-> | ->]) | (-> & ->)])|[(E & -> & [-> | ->])|(E & -> & ->)]]]]];
          rewrite E in HH; cbn [rank] in *; lia. }
        { right; left. unfold setRetryLock. sim_red. cbn [rank] in *. lia. }
        { right; left. destruct Ey as [-> | ->]; cbn [rank]; lia. }
      * destruct HG as [E|b E|E Ew|E Ew|E Ew|E Ew|y E Ey|y d Ey|E|E|E Eq|E Eq|y E Ey|E Eq|E Eq|b E Eb|E|E]; sim_red; try (rewrite E in HH; discriminate).
        { right; right; left. split; [reflexivity|exists t; auto]. }
        { right; right; left. split; [exact HH|exists t; auto]. }
        { left. exists (now e). split; [exact HI|]. rewrite HB in Ew. pose proof (waited_after 12 t (now e) (HN _ HA) ltac:(lia) Ew).
          enough (t0 <= t) by lia. destruct HA as [<- | HA]; [lia|]. apply H0. exact HA. }
        { right; right; left. split; [exact HH|exists t; auto]. }
        { exfalso. clear - HH Ey. decompose [and or] Ey; subst; match goal with H : st s = _ |- _ => rewrite H in HH end; discriminate. }
      * pose proof (secs_range t0). lia.
  - apply some_inj, pair_inj in H. destruct H as [<- <-]. change (times [(EQueue b, [])]) with (@nil Z) in *. rewrite !app_nil_r.
    right. unfold queueToSend. destruct b as [b|]; [|exact HH]. destruct (Zlen b >? 64); exact HH.
  - unfold sim_end in H. apply some_inj, pair_inj in H. destruct H as [<- <-]. change (times [(EEnd, [OCmd CIPCLOSE])]) with (@nil Z) in *. rewrite !app_nil_r. right. exact HH.
Qed.

Lemma sim_run_split : forall vs s s' tr tr1 v o tr2, sim_run s vs = Some (s', tr) -> tr = tr1 ++ (v, o) :: tr2 ->
  exists vs1 vs2 a b, vs = vs1 ++ v :: vs2 /\ sim_run s vs1 = Some (a, tr1) /\ sim_step a v = Some (b, o) /\ sim_run b vs2 = Some (s', tr2).
Proof.
  induction vs as [|w vs IH]; intros s s' tr tr1 v o tr2 H HE; cbn [sim_run] in H.
  - apply some_inj, pair_inj in H. destruct H as [<- <-]. destruct tr1; discriminate.
  - destruct (sim_step s w) as [[s1 o1]|] eqn:E1; [|discriminate]. cbn [bind] in H.
    destruct (sim_run s1 vs) as [[s2 t2]|] eqn:E2; [|discriminate]. cbn [bind] in H. apply some_inj, pair_inj in H. destruct H as [<- <-].
    destruct tr1 as [|x tr1]; cbn [app] in HE.
    + injection HE as -> -> ->. exists [], vs, s, s1. auto.
    + injection HE as <- HE. destruct (IH _ _ _ _ _ _ _ E2 HE) as (vs1 & vs2 & a & b & -> & HA & HB & HC).
      exists (w :: vs1), vs2, a, b. split; [reflexivity|]. split; [|auto]. cbn [sim_run]. rewrite E1. cbn [bind]. rewrite HA. reflexivity.
Qed.
(** Where an attempt is sent from, and what state that leaves. *)
Lemma attempt_goes c s t s1 o : attempt c -> goes s t s1 o -> In (OCmd c) o -> wf s -> retryT s = -1 ->
  st s = home c /\ (st (onStateChange s1) = home c /\ retryT (onStateChange s1) = secs t \/ rank (home c) < rank (st (onStateChange s1))).
Proof.
  intros HC HG HI W HR. destruct (onStateChange_queue s1) as (_ & _ & _ & -> & _).
  assert (HO : oldst s = st s \/ st s = RESET) by apply (w_old _ W).
  destruct HC as [-> | [-> | [-> | [-> | ->]]]];
  destruct HG as [E|b E|E Ew|E Ew|E Ew|E Ew|y E Ey|y d Ey|E|E|E Eq|E Eq|y E Ey|E Eq|E Eq|b E Eb|E|E]; try (cbn in HI; intuition discriminate);
  try (destruct Ey as [(E & -> & [-> | ->])|[(E & -> & [-> | ->])|[(E & -> & ->)|[(E & [(-> & [-> | ->]) | (-> & ->)])|[(E & -> & [-> | ->])|(E & -> & ->)]]]]];
    try (cbn in HI; intuition discriminate)); rewrite E in HO; destruct HO as [HO | HO]; try discriminate;
  (split; [exact E|]); unfold onStateChange, setRetryLock; sim_red; rewrite HO; sim_red; cbn [home rank]; rewrite ?i8_secs;
  first [right; lia | left; split; reflexivity].
Qed.
(** The same attempt is never made again within 3 s. *)
Theorem sim_spacing : forall vs s tr tr1 e1 o1 tr2 e2 o2 tr3 c, sim_run started vs = Some (s, tr) -> forward tr ->
  tr = tr1 ++ (EPoll e1, o1) :: tr2 ++ (EPoll e2, o2) :: tr3 -> attempt c -> In (OCmd c) o1 -> In (OCmd c) o2 -> now e1 + 3 <= now e2.
Proof.
  intros vs s tr tr1 e1 o1 tr2 e2 o2 tr3 c HR HF HE HC H1 H2.
  destruct (sim_run_split _ _ _ _ _ _ _ _ HR HE) as (vs1 & vs2 & a & b & _ & Ha & Hs & Hb).
  destruct (sim_run_inv (fun _ _ => True) (fun _ _ _ _ _ _ _ _ => I) vs1 [] started a tr1 wf_started I Ha) as [[Wa _] _].
  pose proof (wf_step _ _ _ _ Wa Hs) as Wb.
  unfold forward in HF. rewrite HE, times_app in HF. destruct (sorted_app _ _ HF) as (_ & HF1 & _).
  change (times ((EPoll e1, o1) :: tr2 ++ (EPoll e2, o2) :: tr3)) with (now e1 :: times (tr2 ++ (EPoll e2, o2) :: tr3)) in HF1.
  rewrite times_app in HF1. change (now e1 :: times tr2 ++ times ((EPoll e2, o2) :: tr3)) with ((now e1 :: times tr2) ++ times ((EPoll e2, o2) :: tr3)) in HF1.
  destruct (sorted_app _ _ HF1) as (HF2 & _ & HL).
  assert (HS0 : spaced c (now e1) [] b).
  { intros _. cbn [sim_step] in Hs.
    destruct (poll_cases _ _ _ _ Hs) as [(_ & _ & ->) | [(_ & _ & _ & ->) | [(_ & _ & _ & _ & ->) | (H3 & H4 & _ & s1 & HG & ->)]]]; try (destruct H1; fail).
    destruct (attempt_goes c a _ _ _ HC HG H1 Wa H3) as (_ & [HX | HX]); auto. }
  destruct (sim_run_inv (spaced c (now e1)) (fun tr0 s0 v s' o W => spaced_step c (now e1) tr0 s0 v s' o HC W) vs2 [] b s _ Wb HS0 Hb) as [_ HX].
  destruct (HX _ _ _ _ eq_refl) as (x & y & Wx & Hx & Hy). cbn [app] in Hx. specialize (Hx HF2). cbn [sim_step] in Hy.
  destruct (poll_cases _ _ _ _ Hy) as [(_ & _ & ->) | [(_ & _ & _ & ->) | [(_ & _ & _ & _ & ->) | (H3 & H4 & _ & s1 & HG & _)]]]; try (destruct H2; fail).
  destruct (attempt_goes c x _ _ _ HC HG H2 Wx H3) as (HY & _).
  destruct Hx as [(t & HA & HB) | [HA | [(HA & _) | (_ & HA)]]].
  - enough (t <= now e2) by lia. apply HL; [right; exact HA|left; reflexivity].
  - rewrite HY in HA. lia.
  - rewrite HY in HA. destruct HC as [-> | [-> | [-> | [-> | ->]]]]; discriminate.
  - rewrite H3 in HA. pose proof (secs_range (now e1)). lia.
Qed.
