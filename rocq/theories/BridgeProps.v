(** Properties of the motor hardware drivers (C151-C153). *)
From Verif Require Import Base AdcModel.

(** ** The bridge is never shorted (C151) *)

Definition shorted (p : Pins) : bool := low ML p && low MR p.

(** Nothing but the nap of 120 ms, taken with both halves of the bridge off,
    makes it safe to turn on the other half: the monitor remembers which halves
    have been on since. *)
Definition off_nap (p : Pins) (a : Act) : bool :=
  match a with NapMs ms => (120 <=? ms) && negb (low ML p) && negb (low MR p) | _ => false end.
Fixpoint watch (sawL sawR : bool) (t : list (Pins * Act)) : option (bool * bool) :=
  match t with
  | [] => Some (sawL, sawR)
  | (p, a) :: t =>
      let sL := sawL || low ML p in let sR := sawR || low MR p in
      if shorted p || (low ML p && sawR) || (low MR p && sawL) then None
      else if off_nap p a then watch false false t else watch sL sR t
  end.

Lemma watch_app : forall t1 t2 a b, watch a b (t1 ++ t2) = match watch a b t1 with Some (a', b') => watch a' b' t2 | None => None end.
Proof.
  induction t1 as [|[p x] t1 IH]; intros t2 a b; [reflexivity|]. cbn [app watch]. cbv zeta.
  destruct (shorted p || low ML p && b || low MR p && a); [reflexivity|]. destruct (off_nap p x); apply IH.
Qed.

(** What the recorded direction says of the lines and of the monitor. *)
Definition dinv (last : Z) (p : Pins) (w : bool * bool) : bool :=
  negb (shorted p) &&
  (if last =? 1 then pL p && negb (fst w) else true) &&
  (if last =? 2 then pR p && negb (snd w) else true) &&
  (* a half that is on was seen by the monitor or will be at the next action: never against it *)
  negb (low ML p && snd w) && negb (low MR p && fst w).

Ltac crunch := cbv -[Z.max Z.div RUNUP_TICKS SETTLE_TICKS]; intros; try discriminate; eexists; split; reflexivity.

Lemma run_step m d last p w : dinv last p w = true ->
  let (t, p') := acts_trace p (v1_motorRun m d last) in
  exists w', watch (fst w) (snd w) t = Some w' /\ dinv d p' w' = true.
Proof.
  unfold v1_motorRun. destruct (d =? 1) eqn:E1; [|destruct (d =? 2) eqn:E2].
  - assert (d = 1) by lia. subst d. destruct (last =? 1) eqn:EL.
    + assert (last = 1) by lia. subst last. destruct p as [[] [] [] []], w as [[] []]; crunch.
    + unfold dinv at 1. rewrite EL. destruct (last =? 2); destruct p as [[] [] [] []], w as [[] []]; crunch.
  - assert (d = 2) by lia. subst d. destruct (last =? 2) eqn:EL.
    + assert (last = 2) by lia. subst last. destruct p as [[] [] [] []], w as [[] []]; crunch.
    + unfold dinv at 1. rewrite EL. destruct (last =? 1); destruct p as [[] [] [] []], w as [[] []]; crunch.
  - unfold dinv. rewrite E1, E2. destruct (last =? d), (last =? 0), (last =? 1), (last =? 2); destruct p as [[] [] [] []], w as [[] []]; crunch.
Qed.

Lemma acts_trace_app : forall l1 l2 p, acts_trace p (l1 ++ l2) =
  let (t1, p1) := acts_trace p l1 in let (t2, p2) := acts_trace p1 l2 in (t1 ++ t2, p2).
Proof.
  induction l1 as [|a l1 IH]; intros l2 p; cbn [app acts_trace]. { destruct (acts_trace p l2). reflexivity. }
  rewrite IH. destruct (acts_trace (do_act p a) l1) as [t1 p1]. destruct (acts_trace p1 l2) as [t2 p2]. reflexivity.
Qed.

Lemma watch_last t p a : forall x y w, watch x y (t ++ [(p, a)]) = Some w -> exists w0, watch x y t = Some w0.
Proof. intros x y w H. rewrite watch_app in H. destruct (watch x y t) as [w0|]; [eauto | discriminate]. Qed.

(** Cutting a safe run short leaves a safe run, and the lines a cut leaves can
    be followed by a reset. *)
Lemma cut_step m d last p w n : dinv last p w = true ->
  let (t, p') := acts_trace p (firstn n (v1_motorRun m d last) ++ [Reset]) in
  exists w', watch (fst w) (snd w) t = Some w' /\ dinv 0 p' w' = true.
Proof.
  intros H. pose proof (run_step m d last p w H) as HR.
  rewrite acts_trace_app. rewrite <- (firstn_skipn n (v1_motorRun m d last)) in HR. rewrite acts_trace_app in HR.
  set (l1 := firstn n (v1_motorRun m d last)) in *. set (l2 := skipn n (v1_motorRun m d last)) in *. clearbody l1 l2.
  destruct (acts_trace p l1) as [t1 p1]. cbn [acts_trace do_act].
  assert (G : exists w1, watch (fst w) (snd w) t1 = Some w1 /\ shorted p1 || low ML p1 && snd w1 || low MR p1 && fst w1 = false).
  { destruct l2 as [|a l2].
    - cbn [acts_trace] in HR. rewrite app_nil_r in HR. destruct HR as (w' & E & D). exists w'. split; [exact E|].
      unfold dinv in D. destruct (shorted p1), (low ML p1), (low MR p1), w' as [[] []]; cbn in D |- *;
        rewrite ?andb_false_r in D; try discriminate; try reflexivity; repeat (rewrite ?andb_false_r, ?andb_false_l in D); discriminate.
    - cbn [acts_trace] in HR. destruct (acts_trace (do_act p1 a) l2) as [t2 p2]. destruct HR as (w' & E & _). rewrite watch_app in E.
      destruct (watch (fst w) (snd w) t1) as [w1|]; [|discriminate]. exists w1. split; [reflexivity|]. destruct w1 as [a1 b1]. cbn [watch fst snd] in *. cbv zeta in E.
      destruct (shorted p1 || low ML p1 && b1 || low MR p1 && a1); [discriminate | reflexivity]. }
  destruct G as (w1 & E & G). exists (fst w1 || low ML p1, snd w1 || low MR p1). split; [|reflexivity].
  rewrite watch_app, E. destruct w1 as [a1 b1]. cbn [watch fst snd] in *. cbv zeta. rewrite G. reflexivity.
Qed.

Lemma history_safe : forall evs last p w, dinv last p w = true ->
  let (t, r) := v1_history p last evs in exists w', watch (fst w) (snd w) t = Some w' /\ dinv (snd r) (fst r) w' = true.
Proof.
  induction evs as [|e evs IH]; intros last p w H; cbn [v1_history].
  - exists w. split; [destruct w; reflexivity | exact H].
  - destruct e as [m d|m d n].
    + pose proof (run_step m d last p w H) as HR. destruct (acts_trace p (v1_motorRun m d last)) as [t1 p1]. destruct HR as (w1 & E1 & D1).
      specialize (IH d p1 w1 D1). destruct (v1_history p1 d evs) as [t2 r]. destruct IH as (w2 & E2 & D2). exists w2. split; [|exact D2].
      rewrite watch_app, E1. destruct w1. exact E2.
    + pose proof (cut_step m d last p w n H) as HR. destruct (acts_trace p (firstn n (v1_motorRun m d last) ++ [Reset])) as [t1 p1]. destruct HR as (w1 & E1 & D1).
      specialize (IH 0 p1 w1 D1). destruct (v1_history p1 0 evs) as [t2 r]. destruct IH as (w2 & E2 & D2). exists w2. split; [|exact D2].
      rewrite watch_app, E1. destruct w1. exact E2.
Qed.

Lemma watch_safe : forall t b a w', watch a b t = Some w' -> forall q x, In (q, x) t -> shorted q = false.
Proof.
  induction t as [|[q x] t IH]; intros b a w' W q' x' HI; [destruct HI|]. cbn [watch] in W. cbv zeta in W.
  destruct (shorted q) eqn:ES; cbn [orb] in W; [discriminate|]. destruct (low ML q && b || low MR q && a); [discriminate|].
  destruct HI as [EQ|HI]. { apply pair_inj in EQ as [<- _]. exact ES. }
  destruct (off_nap q x); exact (IH _ _ _ W _ _ HI).
Qed.

(** From any state of the lines that is not already a short, and whatever calls
    of motorRun follow, with any arguments, and with the CPU reset in the middle
    of any of them: at no instant are both halves of the bridge driven low. *)
Theorem bridge_never_shorted : forall p evs t r, shorted p = false -> v1_history p 0 evs = (t, r) ->
  (forall q a, In (q, a) t -> shorted q = false) /\ shorted (fst r) = false.
Proof.
  intros p evs t r H E. assert (D : dinv 0 p (false, false) = true) by (unfold dinv; rewrite H; cbn [fst snd]; rewrite !andb_false_r; reflexivity).
  pose proof (history_safe evs 0 p (false, false) D) as HS. rewrite E in HS. destruct HS as (w' & W & D'). split.
  - exact (watch_safe t _ _ _ W).
  - unfold dinv in D'. destruct (shorted (fst r)); [cbn in D'; discriminate | reflexivity].
Qed.

(** Break before make: between an instant with one half on and a later one with
    the other half on, the driver always naps for at least 120 ms with both off. *)
Theorem bridge_break_before_make : forall p evs t r, shorted p = false -> v1_history p 0 evs = (t, r) ->
  forall t1 q1 a1 t2 q2 a2 t3 x y, t = t1 ++ (q1, a1) :: t2 ++ (q2, a2) :: t3 -> x <> y -> low x q1 = true -> low y q2 = true ->
  exists u q a v, (q1, a1) :: t2 = u ++ (q, a) :: v /\ low ML q = false /\ low MR q = false /\ exists ms, a = NapMs ms /\ 120 <= ms.
Proof.
  intros p evs t r H E t1 q1 a1 t2 q2 a2 t3 x y -> Hxy Lx Ly.
  assert (D : dinv 0 p (false, false) = true) by (unfold dinv; rewrite H; cbn [fst snd]; rewrite !andb_false_r; reflexivity).
  pose proof (history_safe evs 0 p (false, false) D) as HS. rewrite E in HS. destruct HS as (w' & W & _). cbn [fst snd] in W. clear E D.
  rewrite watch_app in W. destruct (watch false false t1) as [[a b]|]; [|discriminate].
  change ((q1, a1) :: t2 ++ (q2, a2) :: t3) with (((q1, a1) :: t2) ++ (q2, a2) :: t3) in W. rewrite watch_app in W.
  assert (HOff : forall q z, off_nap q z = true -> low ML q = false /\ low MR q = false /\ exists ms, z = NapMs ms /\ 120 <= ms).
  { intros q z HO. destruct z as [| |ms| |]; cbn [off_nap] in HO; try discriminate. apply andb_true_iff in HO as [HO1 HO2]. apply andb_true_iff in HO1 as [HO0 HO1].
    apply negb_true_iff in HO1, HO2. split; [exact HO1|]. split; [exact HO2|]. exists ms. split; [reflexivity | lia]. }
  assert (G : forall l a b a' b', watch a b l = Some (a', b') ->
             (exists u q z v, l = u ++ (q, z) :: v /\ off_nap q z = true) \/
             ((a = true -> a' = true) /\ (b = true -> b' = true))).
  { clear. induction l as [|[q z] l IH]; intros a b a' b' W.
    - cbn [watch] in W. apply some_inj in W. apply pair_inj in W as [<- <-]. right. auto.
    - cbn [watch] in W. cbv zeta in W. destruct (shorted q || low ML q && b || low MR q && a); [discriminate|]. destruct (off_nap q z) eqn:EO.
      + left. exists [], q, z, l. split; [reflexivity | exact EO].
      + destruct (IH _ _ _ _ W) as [(u & q' & z' & v & -> & HO)|[G1 G2]].
        * left. exists ((q, z) :: u), q', z', v. split; [reflexivity | exact HO].
        * right. split; intros ->; [apply G1 | apply G2]; reflexivity. }
  destruct (off_nap q1 a1) eqn:EO.
  { destruct (HOff _ _ EO) as (H1 & H2 & H3). exists [], q1, a1, t2. split; [reflexivity|]. auto. }
  cbn [watch] in W. cbv zeta in W. destruct (shorted q1 || low ML q1 && b || low MR q1 && a); [discriminate|]. rewrite EO in W.
  destruct (watch (a || low ML q1) (b || low MR q1) t2) as [[a' b']|] eqn:E2; [|discriminate].
  destruct (G _ _ _ _ _ E2) as [(u & q & z & v & -> & HO)|[G1 G2]].
  { destruct (HOff _ _ HO) as (H1 & H2 & H3). exists ((q1, a1) :: u), q, z, v. split; [reflexivity|]. auto. }
  exfalso. cbn [watch] in W. cbv zeta in W.
  destruct x, y; try contradiction.
  - rewrite G1 in W by (rewrite Lx; apply orb_true_r). rewrite Ly in W. rewrite !orb_true_r in W. discriminate.
  - rewrite G2 in W by (rewrite Lx; apply orb_true_r). rewrite Ly in W. cbn [andb] in W. rewrite orb_true_r in W. cbn [orb] in W. discriminate.
Qed.

(** After a call the lines are those of the direction asked for; anything that
    is not closing or opening leaves both lines as weak pull-ups. *)
Theorem bridge_after : forall m d last p, let p' := snd (acts_trace p (v1_motorRun m d last)) in
  (d = 1 -> p' = mkPins true true true false) /\ (d = 2 -> p' = mkPins true false true true) /\
  (d <> 1 -> d <> 2 -> p' = mkPins false true false true).
Proof.
  intros m d last p. cbv zeta. unfold v1_motorRun. split; [|split].
  - intros ->. destruct (negb (last =? 1)); reflexivity.
  - intros ->. destruct (negb (last =? 2)); reflexivity.
  - intros H1 H2. replace (d =? 1) with false by lia. replace (d =? 2) with false by lia. destruct (negb (last =? d)); reflexivity.
Qed.

Definition reset_pins := mkPins false false false false.
Example bridge_case : shorted reset_pins = false /\
  let (t, r) := v1_history reset_pins 0 [Run 20 1; Run 0 0; CrashIn 9 2 5; Run 3 2; Run 3 1] in
  existsb (fun x => low ML (fst x)) t = true /\ existsb (fun x => low MR (fst x)) t = true /\ r = (mkPins true true true false, 1).
Proof. vm_compute. auto. Qed.

(** ** The DRV8850 (C153) *)

(** In whatever state the lines are: closing leaves the driver awake with MR
    high and ML low, opening the opposite, anything else asleep. *)
Theorem drv_direction_partial : forall s d, let s' := drv_after s d in
  (d = 1 -> s' = mkDrv false true true) /\ (d = 2 -> s' = mkDrv true false true) /\ (d <> 1 -> d <> 2 -> v_nsleep s' = false).
Proof.
  intros s d. cbv zeta. unfold drv_after, drv_motorRun. split; [intros -> | split; [intros -> | intros H1 H2]]; try reflexivity.
  replace (d =? 1) with false by lia. replace (d =? 2) with false by lia. reflexivity.
Qed.
(** It never drives both ways at once while awake: *)
Theorem drv_never_both : forall s d s', v_ml s && v_mr s = false -> In s' (drv_motorRun s d) -> v_ml s' && v_mr s' = false.
Proof.
  intros [[] [] ns] d s' H HI; cbn [v_ml v_mr andb] in H; try discriminate; unfold drv_motorRun in HI;
    destruct (d =? 1); [|destruct (d =? 2)| |destruct (d =? 2)| |destruct (d =? 2)]; cbn in HI;
    repeat (destruct HI as [<- | HI]; [reflexivity|]); contradiction.
Qed.
(** Nor, at any moment of a call and from whatever state the lines are in, the wrong way: while it is
    made to close ML stays low, while it is made to open MR does, and otherwise the driver sleeps throughout. *)
Theorem drv_never_wrong_way : forall s d s', In s' (drv_motorRun s d) ->
  (d = 1 -> v_ml s' = false) /\ (d = 2 -> v_mr s' = false) /\ (d <> 1 -> d <> 2 -> v_nsleep s' = false).
Proof.
  intros s d s' HI. unfold drv_motorRun in HI. split; [intros -> | split; [intros -> | intros H1 H2]].
  - cbn in HI. repeat (destruct HI as [<- | HI]; [reflexivity|]). contradiction.
  - cbn in HI. repeat (destruct HI as [<- | HI]; [reflexivity|]). contradiction.
  - replace (d =? 1) with false in HI by lia. replace (d =? 2) with false in HI by lia. cbn in HI. repeat (destruct HI as [<- | HI]; [reflexivity|]). contradiction.
Qed.
(** But switching off after opening leaves ML high ("pull motor lines low to
    minimise current consumption"): the same line is written twice; *)
Theorem drv_off_lines_refuted : forall s, drv_run s [2; 0] = mkDrv true false false.
Proof. intros s. reflexivity. Qed.
(** so that the next opening powers the motor as soon as the driver wakes,
    before the pause. *)
Theorem drv_early_start_refuted : forall s, In (mkDrv true false true) (firstn 2 (drv_motorRun (drv_run s [2; 0]) 2)).
Proof. intros s. right. left. reflexivity. Qed.
(** And DRV8850Driver hands its pins to the hardware driver in the wrong order:
    the sleep line driven is the shaft encoder's number, and the motor current is
    read from the sleep line's. *)
Theorem drv_pins_refuted : forall ml mr nsleep mi mc, let k := drv_instance ml mr nsleep mi mc in
  k_ml k = ml /\ k_mr k = mr /\ k_nsleep k = mc /\ k_mi k = nsleep /\ k_mc k = mi.
Proof. intros. unfold drv_instance in k. subst k. auto. Qed.
