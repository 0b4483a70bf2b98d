(** The physical user interface: time taken, LED, clicks, power-up, and the cycling MODE button (C99-C103). *)
From Verif Require Import Base OccModel ScheduleModel TempModel UiModel UiProps UiPress.

(** ** Time *)
Definition ms (a : uiact) : Z := match a with Pause n => n | _ => 0 end.
Fixpoint time (l : list uiact) : Z := match l with [] => 0 | a :: r => ms a + time r end.
Lemma time_app : forall a b, time (a ++ b) = time a + time b.
Proof. intros a b. induction a; cbn [app time]; lia. Qed.
Lemma time_wb : forall m k, time (snd (wb m k)) = time (snd m) + time (snd (k (fst m))).
Proof. intros. rewrite wb_snd. apply time_app. Qed.
Lemma time_markSig : forall c s, time (snd (markSig c s)) = 0.
Proof. intros. cbn [markSig snd]. destruct (c_isrled c); reflexivity. Qed.
Lemma time_press : forall c s, time (snd (press c s)) = 0.
Proof. intros. unfold press. rewrite wb_tell. cbn [snd]. rewrite time_app. cbn [time ms]. destruct (c_cycle c); [reflexivity|]. destruct (atLo c s); [reflexivity|]. rewrite time_markSig. reflexivity. Qed.
Lemma time_presses : forall c n s, time (snd (presses c n s)) = 0.
Proof. intros c n. induction n; intro s; cbn [presses]; [reflexivity|]. rewrite time_wb, time_press, IHn. reflexivity. Qed.
Lemma time_calls : forall c l s, time (snd (pot_calls c l s)) = 0.
Proof.
  intros c l. induction l as [|k r IH]; intro s; cbn [pot_calls]; [reflexivity|]. rewrite time_wb, IH.
  destruct k; cbn [pot_call]; try (destruct (c_wired c); [|reflexivity]); try reflexivity; unfold warmFromUI, bakeFromUI; rewrite time_wb; cbn [snd tell time];
    destruct (negb _); rewrite ?time_markSig; reflexivity.
Qed.
Lemma time_sample : forall c g i lo hi s, time (snd (sample c g i lo hi s)) = 0.
Proof.
  intros. unfold sample. destruct (pot_read lo hi (u_pot s) (i_raw i)). rewrite !time_wb, !time_presses, time_calls. cbn [snd tell time]. reflexivity.
Qed.
Lemma time_feedback : forall c g i s, time (snd (feedback c g i s)) = if i_run i then 0 else 60.
Proof. intros. unfold feedback. rewrite !time_wb, time_presses. cbn [snd tell time ms]. destruct (i_run i); reflexivity. Qed.
Lemma time_poll : forall c i s, 0 <= time (snd (fst (pollMODE c i s))) <= 270 /\ (snd (pollMODE c i s) = false -> time (snd (fst (pollMODE c i s))) = 0).
Proof.
  intros. unfold pollMODE. destruct (negb (c_cycle c)); [cbn [fst snd time]; split; [lia|reflexivity]|]. destruct (i_held i).
  - cbv zeta. cbn [fst snd]. destruct (negb (u_pw _)); [|destruct (negb (u_pb _))]; cbn [snd tell time ms]; split; (lia || discriminate).
  - destruct (u_was s); cbn [fst snd time]; split; (lia || reflexivity).
Qed.
Lemma time_display : forall c g i e f s, 0 <= time (snd (display c g i e f s)) <= 315.
Proof.
  intros. unfold display. cbv zeta. rewrite time_wb, time_presses. set (s1 := fst _). clearbody s1.
  destruct (_ || inWarmMode _).
  - destruct (_ || (_ && _)); [|cbn [snd tell time]; lia].
    set (wt := c_warm c _). clearbody wt. set (sh := _ || c_eco c wt). clearbody sh.
    rewrite !time_wb, time_presses. set (s3 := fst _). clearbody s3. cbn [snd tell time ms].
    destruct (_ || inBakeMode (u_mode s3)).
    + rewrite !time_wb, time_presses. set (s5 := fst _). clearbody s5. cbn [snd tell]. rewrite time_app.
      destruct sh, (c_com c wt), (inBakeMode (u_mode s5)); cbn [negb snd tell time ms app]; lia.
    + destruct sh, (c_com c wt); cbn [negb snd tell time ms]; lia.
  - destruct (_ && i_cfh i); cbn [snd tell time ms]; lia.
Qed.
Lemma time_stage1 : forall c g s, time (snd (stage1 c g s)) = 0.
Proof.
  intros. unfold stage1. rewrite time_wb, time_presses. cbv zeta. rewrite time_wb, time_presses.
  destruct (_ =? 0); [rewrite time_wb, time_presses; reflexivity|reflexivity].
Qed.
Lemma time_read : forall c g i s s' t r, ui_read c g i s = ((s', t), r) ->
  exists d f x, time t = d + f + x /\ 0 <= d <= 15 /\ (f = 0 \/ (f = 60 /\ i_run i = false)) /\ 0 <= x <= 315.
Proof.
  intros c g i s s' t r HR. rewrite ui_read_body in HR. cbv zeta in HR. assert (E := f_equal (fun x => snd (fst x)) HR). cbn [fst snd] in E. subst t. clear HR.
  rewrite time_app, time_presses. unfold body. rewrite !time_wb. cbv zeta. rewrite time_stage1. set (s1 := fst (stage1 c g s)). clearbody s1.
  set (e := veryRecent s1). set (f := Z.land (u_tick s1) 3 =? 0). clearbody e f.
  assert (T2 : 0 <= time (snd (stage2 c g i e f s1)) <= 15).
  { unfold stage2. rewrite !time_wb, !time_presses. destruct (c_pot c) as [[lo hi]|]; [|cbn [snd tell time]; lia].
    destruct (_ || _); [|cbn [snd tell time]; lia]. rewrite time_wb, time_sample. cbn [snd tell time ms]. lia. }
  set (s2 := fst (stage2 c g i e f s1)). clearbody s2.
  assert (T3 : time (snd (stage3 c g i s2)) = 0 \/ (time (snd (stage3 c g i s2)) = 60 /\ i_run i = false)).
  { unfold stage3. rewrite time_wb, time_presses. destruct (u_sig s2); [|left; reflexivity]. rewrite time_feedback. destruct (i_run i); [left|right]; [reflexivity|split; reflexivity]. }
  set (s3 := fst (stage3 c g i s2)). clearbody s3.
  assert (T4 : 0 <= time (snd (stage4 c g i e f s3)) <= 315).
  { unfold stage4. pose proof (time_poll c i s3) as [P1 P2]. destruct (pollMODE c i s3) as [m a]. cbn [fst snd] in *. rewrite time_wb.
    destruct a; [cbn [snd tell time]; lia|]. specialize (P2 eq_refl). pose proof (time_display c g i e f (fst m)). lia. }
  set (s4 := fst (stage4 c g i e f s3)). clearbody s4.
  assert (T5 : time (snd (stage5 c g s4)) = 0) by (unfold stage5; rewrite time_wb, time_presses; reflexivity).
  rewrite T5. eexists _, _, _. split; [|split; [exact T2|split; [exact T3|exact T4]]]. lia.
Qed.

(** C99: the documentation says a read takes less than about 350 ms.  What holds is 390 ms, and 330 ms while the valve is in normal running
    (its wiggles, timed elsewhere, then replace the 60 ms of feedback) ... *)
Theorem ui_read_time_partial : forall c g i s s' t r, ui_read c g i s = ((s', t), r) -> 0 <= time t <= 390 /\ (i_run i = true -> time t <= 330).
Proof.
  intros c g i s s' t r H. destruct (time_read c g i s s' t r H) as (d & f & x & E & A & B & C). rewrite E.
  destruct B as [->|[-> B]]; [split; lia|]. split; [lia|]. intro F. congruence.
Qed.
Definition stdCfg cyc wired := mkCfg (Some (8, 247)) wired cyc true 16 26 (fun v => 16 + v * 10 / 255) (fun w => w <? 18) (fun w => w >? 21).
(** ... and more than 350 ms does occur, from power-up: the dial is turned to its top with BAKE started by it, before the valve is running. *)
Theorem ui_read_time_refuted : exists es g i s os s' t r, ui_run (stdCfg false true) UI0 es = (s, os) /\
  ui_read (stdCfg false true) g i s = ((s', t), r) /\ 350 < time t.
Proof.
  exists (repeat (URead quiet (mkIn 600 false false false false false false)) 8), quiet, (mkIn 1020 false false false false false false).
  eexists _, _, _, _, _. split; [vm_compute; reflexivity|]. split; [vm_compute; reflexivity|]. reflexivity.
Qed.

(** ** LED *)
Lemma presses0 : forall c s, presses c 0 s = (s, []).
Proof. reflexivity. Qed.
(** C100 (1): every read ends with the LED switched off (a press after that may light it again at once). *)
Theorem ui_led_off : forall c g i s s' t r, g 16%nat = 0%nat -> g 17%nat = 0%nat -> ui_read c g i s = ((s', t), r) -> exists t', t = t' ++ [LedOff].
Proof.
  intros c g i s s' t r G1 G2 HR. rewrite ui_read_body in HR. cbv zeta in HR. assert (E := f_equal (fun x => snd (fst x)) HR). cbn [fst snd] in E. subst t.
  rewrite G2. cbn [presses snd]. rewrite app_nil_r. unfold body. rewrite !wb_snd. cbv zeta. unfold stage5. rewrite G1. cbn [presses wb tell snd app].
  rewrite !app_assoc. eexists. reflexivity.
Qed.

(** ** Reads with no button press during them *)
Definition tick1 (s : UI) : UI :=
  let s := set_tick s (u8 (u_tick s + 1)) in
  if Z.land (u_tick s) 31 =? 0 then (if 0 =? u_tmo s then s else set_tmo s (u8 (u_tmo s - 1))) else s.
Lemma stage1_quiet : forall c s, stage1 c quiet s = (tick1 s, []).
Proof.
  intros. unfold stage1, tick1, quiet. cbn [presses]. cbv zeta. change (s, []) with (tell s []). rewrite wb_tell0.
  destruct (_ =? 0); [|reflexivity]. unfold tell, wb. rewrite Z.eqb_refl. destruct (0 =? _); reflexivity.
Qed.
Definition flashes (c : Cfg) (i : Inp) (enh forth : bool) (s : UI) : list uiact :=
  snd (display c quiet i enh forth s).
Lemma display_quiet : forall c i e f s, display c quiet i e f s = (s, flashes c i e f s).
Proof.
  intros. unfold flashes. rewrite (surjective_pairing (display c quiet i e f s)) at 1. f_equal.
  unfold display, quiet. cbn [presses]. cbv zeta. change (s, []) with (tell s []). rewrite wb_tell0.
  destruct (_ || inWarmMode _); [|destruct (_ && i_cfh i); reflexivity].
  destruct (_ || (_ && _)); [|reflexivity]. rewrite wb_tell. change (s, []) with (tell s []). rewrite wb_tell0.
  destruct (_ || inBakeMode _); [|reflexivity]. cbn [fst]. rewrite wb_tell. change (s, []) with (tell s []). rewrite wb_tell0. destruct (inBakeMode _); reflexivity.
Qed.
Definition sampled (c : Cfg) (i : Inp) (lo hi : Z) (s : UI) : UI := fst (sample c quiet i lo hi s).
Definition willSample (enh forth : bool) (s : UI) : bool := enh || forth || (inWarmMode (u_mode s) && negb (longLongVacant (u_occ s))).
Definition dial (c : Cfg) (i : Inp) (enh forth : bool) (s : UI) : UI :=
  match c_pot c with Some (lo, hi) => if willSample enh forth s then sampled c i lo hi s else s | None => s end.
Lemma stage2_quiet : forall c i e f s, fst (stage2 c quiet i e f s) = dial c i e f s.
Proof.
  intros. unfold stage2, dial, quiet. cbn [presses]. change (s, []) with (tell s []). rewrite wb_tell0. rewrite wb_fst. cbn [fst].
  destruct (c_pot c) as [[lo hi]|]; [|reflexivity]. unfold willSample. destruct (_ || (_ && _)); [|reflexivity]. rewrite wb_tell. reflexivity.
Qed.
Definition fed (i : Inp) (s : UI) : W := (set_sig (markUsed s) false, [LedOn; if i_run i then Wiggle else Pause 60; LedOff]).
Lemma stage3_quiet : forall c i s, stage3 c quiet i s = if u_sig s then fed i s else (s, []).
Proof. intros. unfold stage3, feedback, fed, quiet. cbn [presses]. destruct (u_sig s); [|reflexivity]. unfold wb, tell. destruct (i_run i); reflexivity. Qed.
(** The plain read (the MODE button, if it cycles, is not in use). *)
Definition plain (c : Cfg) (i : Inp) (s : UI) : Prop := c_cycle c = false \/ (i_held i = false /\ u_was s = false).
Lemma poll_idle : forall c i s, plain c i s -> pollMODE c i s = ((s, []), false).
Proof.
  intros c i s [H|[H1 H2]]; unfold pollMODE; [rewrite H; reflexivity|]. destruct (c_cycle c); [|reflexivity]. cbn [negb]. rewrite H1, H2. reflexivity.
Qed.
Definition sameBtn (s s' : UI) := u_was s' = u_was s.
Lemma btn_pre : preorder sameBtn.
Proof. unfold sameBtn. split; [reflexivity|intros; congruence]. Qed.
Lemma btn_calls : forall c l s, sameBtn s (fst (pot_calls c l s)).
Proof.
  intros c l. induction l as [|k r IH]; intro s; cbn [pot_calls]; [reflexivity|]. apply (wb_rel _ btn_pre); [|exact IH].
  destruct k; cbn [pot_call]; try (destruct (c_wired c); [|reflexivity]); try reflexivity; unfold warmFromUI, bakeFromUI; (apply (wb_rel _ btn_pre); [destruct (negb _)|]; reflexivity).
Qed.
Lemma btn_track : forall c s, sameBtn s (track c s).
Proof.
  intros c s. unfold track. destruct (_ =? _); [reflexivity|]. cbv zeta. red.
  match goal with |- context[if ?a then set_last ?x _ else if ?b then _ else _] => destruct a; [|destruct b]; cbn [u_was set_last];
      (destruct (negb (0 =? u_last s)); [reflexivity|destruct (negb (atLo c s)); reflexivity]) end.
Qed.
Lemma sampled_eq : forall c i lo hi s, sampled c i lo hi s =
  let (p, calls) := pot_read lo hi (u_pot s) (i_raw i) in
  let a := fst (pot_calls c calls (set_pot s p)) in
  track c (if atLo c a then set_mode a (setWarmModeDebounced (u_mode a) false) else a).
Proof.
  intros. unfold sampled, sample, quiet. destruct (pot_read lo hi (u_pot s) (i_raw i)) as [p calls]. cbn [presses]. cbv zeta. rewrite !wb_fst. reflexivity.
Qed.
Lemma btn_dial : forall c i e f s, sameBtn s (dial c i e f s).
Proof.
  intros. unfold dial. destruct (c_pot c) as [[lo hi]|]; [|reflexivity]. destruct (willSample e f s); [|reflexivity]. rewrite sampled_eq.
  destruct (pot_read lo hi (u_pot s) (i_raw i)) as [p calls]. cbv zeta. pose proof (btn_calls c calls (set_pot s p)) as B. set (a := fst _) in *. 
  eapply (proj2 btn_pre); [|apply btn_track]. unfold sameBtn in *. destruct (atLo c a); exact B.
Qed.
Lemma btn_tick1 : forall s, u_was (tick1 s) = u_was s.
Proof. intro s. unfold tick1. cbv zeta. destruct (_ =? 0); [destruct (0 =? _)|]; reflexivity. Qed.
Lemma quiet_read : forall c i s, plain c i s ->
  let s1 := tick1 s in let e := veryRecent s1 in let f := Z.land (u_tick s1) 3 =? 0 in
  let s2 := dial c i e f s1 in let m3 := if u_sig s2 then fed i s2 else (s2, []) in let s3 := fst m3 in
  ui_read c quiet i s = ((set_chg s3 false, snd (stage2 c quiet i e f s1) ++ snd m3 ++ flashes c i e f s3 ++ [LedOff]), u_chg s3).
Proof.
  intros c i s HP. cbv zeta. rewrite ui_read_body. cbv zeta. change (presses c (quiet 17%nat)) with (fun x : UI => (x, @nil uiact)). cbn [fst snd]. rewrite app_nil_r.
  unfold body. rewrite !wb_fst, !wb_snd, stage1_quiet. cbn [fst snd]. cbv zeta.
  set (e := veryRecent (tick1 s)). set (f := Z.land _ 3 =? 0). rewrite stage2_quiet, stage3_quiet. set (s2 := dial c i e f (tick1 s)).
  assert (B2 : u_was s2 = u_was s). { unfold s2. rewrite (btn_dial c i e f (tick1 s) : u_was _ = _). apply btn_tick1. }
  set (m3 := if u_sig s2 then fed i s2 else (s2, [])).
  assert (B3 : plain c i (fst m3)).
  { destruct HP as [H|[H1 H2]]; [left; exact H|right]. split; [exact H1|]. unfold m3. destruct (u_sig s2); cbn [fed fst u_was set_sig markUsed set_occ set_tmo set_chg]; congruence. }
  unfold stage4. rewrite poll_idle by exact B3. change (fst m3, []) with (tell (fst m3) []). rewrite !wb_tell0, display_quiet. cbn [fst snd].
  unfold stage5, quiet. cbn [presses wb tell fst snd app]. reflexivity.
Qed.

(** ** How many flashes *)
Definition isOn (a : uiact) : bool := match a with LedOn => true | _ => false end.
Definition isWiggle (a : uiact) : bool := match a with Wiggle => true | _ => false end.
Definition count (f : uiact -> bool) (l : list uiact) : Z := Zlen (filter f l).
Lemma count_app : forall f a b, count f (a ++ b) = count f a + count f b.
Proof. intros. unfold count. rewrite filter_app. apply Zlen_app. Qed.
(** What the LED should show (the specification): nothing, one, two or three flashes by mode, demand and attention. *)
Definition expected_flashes (touched very fourth warm bake calling underTarget dark : bool) : Z :=
  if touched || very then 1 + (if (very && underTarget) || calling || bake then 1 + (if bake then 1 else 0) else 0)
  else if warm then if (fourth || calling || bake) && negb dark then 1 + (if calling || bake then 1 + (if bake then 1 else 0) else 0) else 0
  else if fourth && calling && negb dark then 2 else 0.
Lemma flashes_count : forall c i e f s, count isOn (flashes c i e f s) =
  expected_flashes (u_chg s) e f (inWarmMode (u_mode s)) (inBakeMode (u_mode s)) (i_cfh i) (i_under i) (i_dark i).
Proof.
  intros. unfold flashes, display, expected_flashes, quiet. cbn [presses]. cbv zeta. change (s, []) with (tell s []). rewrite wb_tell0.
  destruct (u_chg s || e) eqn:ET; cbn [orb].
  - rewrite wb_tell. change (s, []) with (tell s []). rewrite wb_tell0. cbn [snd].
    destruct ((e && i_under i) || i_cfh i || inBakeMode (u_mode s)); cbn [snd].
    + rewrite wb_tell. cbn [snd]. change (s, []) with (tell s []). rewrite wb_tell0. destruct (inBakeMode _);
        repeat match goal with |- context[if ?b then _ else _] => destruct b end; reflexivity.
    + repeat match goal with |- context[if ?b then _ else _] => destruct b end; reflexivity.
  - assert (e = false) as -> by (destruct e; [rewrite Bool.orb_true_r in ET; discriminate|reflexivity]). cbn [andb orb].
    destruct (inWarmMode (u_mode s)) eqn:EW.
    + destruct ((f || i_cfh i || inBakeMode (u_mode s)) && negb (i_dark i)); [|reflexivity].
      rewrite wb_tell. change (s, []) with (tell s []). rewrite wb_tell0. cbn [snd].
      destruct (i_cfh i || inBakeMode (u_mode s)); cbn [snd].
      * rewrite wb_tell. cbn [snd]. change (s, []) with (tell s []). rewrite wb_tell0. destruct (inBakeMode _);
          repeat match goal with |- context[if ?b then _ else _] => destruct b end; reflexivity.
      * repeat match goal with |- context[if ?b then _ else _] => destruct b end; reflexivity.
    + destruct f, (i_cfh i), (i_dark i); reflexivity.
Qed.

(** A step after which no feedback is due has lit nothing and counted as no use. *)
Definition calm (s : UI) (m : W) : Prop := u_sig (fst m) = false ->
  u_sig s = false /\ count isOn (snd m) = 0 /\ u_tmo (fst m) = u_tmo s /\ u_chg (fst m) = u_chg s.
Lemma calm_wb : forall s m k, calm s m -> (forall x, calm x (k x)) -> calm s (wb m k).
Proof.
  intros s m k H1 H2 H. rewrite wb_fst in H. destruct (H2 _ H) as (A & B & C & D). destruct (H1 A) as (A' & B' & C' & D').
  rewrite wb_fst, wb_snd, count_app. split; [exact A'|]. split; [lia|]. split; congruence.
Qed.
Lemma calm_tell : forall s s' l, u_sig s' = u_sig s -> u_tmo s' = u_tmo s -> u_chg s' = u_chg s -> count isOn l = 0 -> calm s (tell s' l).
Proof. intros s s' l A B C D H. cbn [fst snd tell] in *. split; [congruence|]. split; [exact D|]. split; assumption. Qed.
Lemma calm_markSig : forall c s, calm s (markSig c s).
Proof. intros c s H. discriminate H. Qed.
Lemma calm_calls : forall c l s, calm s (pot_calls c l s).
Proof.
  intros c l. induction l as [|k r IH]; intro s; cbn [pot_calls]; [apply calm_tell; reflexivity|]. apply calm_wb; [|exact IH].
  destruct k; cbn [pot_call]; try (destruct (c_wired c); [|apply calm_tell; reflexivity]); try (apply calm_tell; reflexivity); unfold warmFromUI, bakeFromUI;
    (apply calm_wb; [destruct (negb _); [apply calm_markSig|apply calm_tell; reflexivity]|intro; apply calm_tell; reflexivity]).
Qed.
Lemma calm_track : forall c s, calm s (tell (track c s) []).
Proof.
  intros c s. unfold track. destruct (_ =? _); [apply calm_tell; reflexivity|]. cbv zeta.
  match goal with |- context[if ?a then set_last ?x _ else if ?b then _ else _] => destruct a; [|destruct b];
      (destruct (negb (0 =? u_last s)); [intro H; discriminate H|destruct (negb (atLo c s)); apply calm_tell; reflexivity]) end.
Qed.
Lemma calm_stage2 : forall c i e f s, calm s (stage2 c quiet i e f s).
Proof.
  intros. unfold stage2, quiet. cbn [presses]. apply calm_wb; [apply calm_tell; reflexivity|intro s1].
  apply calm_wb; [|intro; apply calm_tell; reflexivity]. destruct (c_pot c) as [[lo hi]|]; [|apply calm_tell; reflexivity].
  destruct (_ || _); [|apply calm_tell; reflexivity]. apply calm_wb; [apply calm_tell; reflexivity|intro s2]. unfold sample.
  destruct (pot_read lo hi (u_pot s2) (i_raw i)) as [p calls]. cbn [presses].
  assert (T : calm (set_pot s2 p) (ui s1 <- (set_pot s2 p, []); ui s3 <- pot_calls c calls s1; ui s4 <- (s3, []);
      ui s5 <- tell (if atLo c s4 then set_mode s4 (setWarmModeDebounced (u_mode s4) false) else s4) []; ui s6 <- (s5, []); tell (track c s6) [])).
  { apply calm_wb; [apply calm_tell; reflexivity|intro x]. apply calm_wb; [apply calm_calls|intro y]. apply calm_wb; [apply calm_tell; reflexivity|intro z].
    apply calm_wb; [destruct (atLo c z); apply calm_tell; reflexivity|intro w]. apply calm_wb; [apply calm_tell; reflexivity|intro q]. apply calm_track. }
  exact T.
Qed.
Lemma nowig_wb : forall m k, count isWiggle (snd m) = 0 -> (forall x, count isWiggle (snd (k x)) = 0) -> count isWiggle (snd (wb m k)) = 0.
Proof. intros m k H1 H2. rewrite wb_snd, count_app, H1, H2. reflexivity. Qed.
Lemma nowig_calls : forall c l s, count isWiggle (snd (pot_calls c l s)) = 0.
Proof.
  intros c l. induction l as [|k r IH]; intro s; cbn [pot_calls]; [reflexivity|]. apply nowig_wb; [|exact IH].
  destruct k; cbn [pot_call]; try (destruct (c_wired c); [|reflexivity]); try reflexivity; unfold warmFromUI, bakeFromUI;
    (apply nowig_wb; [destruct (negb _); [cbn [markSig snd]; destruct (c_isrled c); reflexivity|reflexivity]|reflexivity]).
Qed.
Lemma nowig_stage2 : forall c i e f s, count isWiggle (snd (stage2 c quiet i e f s)) = 0.
Proof.
  intros. unfold stage2, quiet. cbn [presses]. apply nowig_wb; [reflexivity|intro s1].
  apply nowig_wb; [|reflexivity]. destruct (c_pot c) as [[lo hi]|]; [|reflexivity].
  destruct (_ || _); [|reflexivity]. apply nowig_wb; [reflexivity|intro s2]. unfold sample.
  destruct (pot_read lo hi (u_pot s2) (i_raw i)) as [p calls]. cbn [presses].
  apply nowig_wb; [reflexivity|intro x]. apply nowig_wb; [apply nowig_calls|intro y]. apply nowig_wb; [reflexivity|intro z].
  apply nowig_wb; [reflexivity|intro w]. apply nowig_wb; reflexivity.
Qed.
Lemma nowig_flashes : forall c i e f s, count isWiggle (flashes c i e f s) = 0.
Proof.
  intros. unfold flashes, display, quiet. cbn [presses]. cbv zeta. apply nowig_wb; [reflexivity|intro s1].
  destruct (_ || inWarmMode _); [|destruct (_ && i_cfh i); reflexivity].
  destruct (_ || (_ && _)); [|reflexivity]. set (sh := _ || c_eco c _). clearbody sh. set (co := c_com c _). clearbody co.
  apply nowig_wb; [destruct sh, co; reflexivity|intro s2]. apply nowig_wb; [reflexivity|intro s3].
  destruct (_ || inBakeMode _); [|reflexivity]. apply nowig_wb; [destruct sh, co; reflexivity|intro s4]. apply nowig_wb; [reflexivity|intro s5].
  destruct (inBakeMode (u_mode s5)); [destruct sh, co|]; reflexivity.
Qed.
Lemma tick1_tick : forall s, u_tick (tick1 s) = u8 (u_tick s + 1).
Proof. intro s. unfold tick1. cbv zeta. destruct (_ =? 0); [destruct (0 =? _)|]; reflexivity. Qed.
Lemma forth1 : forall s, byte (u_tick s) -> (Z.land (u_tick (tick1 s)) 3 =? 0) = ((u_tick s + 1) mod 4 =? 0).
Proof.
  intros s HB. pose proof (forth_tick (stdCfg false false) quiet s HB) as H. rewrite stage1_quiet in H. exact H.
Qed.

(** C100 (2): the number of flashes of a read with no press and no feedback is exactly the expected one. *)
Theorem ui_flashes : forall c i s s' t r, plain c i s -> byte (u_tick s) -> i_run i = true -> ui_read c quiet i s = ((s', t), r) -> count isWiggle t = 0 ->
  count isOn t = expected_flashes r (veryRecent s') ((u_tick s + 1) mod 4 =? 0) (inWarmMode (u_mode s')) (inBakeMode (u_mode s')) (i_cfh i) (i_under i) (i_dark i).
Proof.
  intros c i s s' t r HP HB HI HR HW. pose proof (quiet_read c i s HP) as QR. cbv zeta in QR. rewrite forth1 in QR by exact HB. rewrite HR in QR. clear HR.
  set (s1 := tick1 s) in *. set (e := veryRecent s1) in *. set (f := (u_tick s + 1) mod 4 =? 0) in *.
  pose proof (calm_stage2 c i e f s1) as C2. unfold calm in C2. rewrite stage2_quiet in C2. set (s2 := dial c i e f s1) in *.
  assert (E1 := f_equal (fun x => fst (fst x)) QR). assert (E2 := f_equal (fun x => snd (fst x)) QR). assert (E3 := f_equal snd QR). cbn [fst snd] in E1, E2, E3. clear QR.
  destruct (u_sig s2) eqn:ES.
  - exfalso. rewrite E2 in HW. rewrite !count_app, nowig_stage2, nowig_flashes in HW. unfold fed in HW. cbn [snd] in HW. rewrite HI in HW. discriminate HW.
  - destruct (C2 eq_refl) as (_ & A & B & C). rewrite E2, !count_app, A. cbn [fst snd] in *. rewrite flashes_count.
    rewrite E3, E1. cbn [u_mode set_chg]. unfold veryRecent at 1. cbn [u_tmo set_chg]. rewrite B. fold (veryRecent s1). fold e.
    change (count isOn []) with 0. change (count isOn [LedOff]) with 0. lia.
Qed.
(** In the dark and with nobody at the controls there is no light at all. *)
Theorem ui_dark : forall c i s s' t r, plain c i s -> byte (u_tick s) -> i_run i = true -> ui_read c quiet i s = ((s', t), r) ->
  i_dark i = true -> count isWiggle t = 0 -> r = false -> veryRecent s' = false -> ~ In LedOn t.
Proof.
  intros c i s s' t r HP HB HI HR HD HW HF HV HIn. pose proof (ui_flashes c i s s' t r HP HB HI HR HW) as E. rewrite HF, HV, HD in E. unfold expected_flashes in E. cbn [orb negb] in E.
  rewrite !Bool.andb_false_r in E. assert (count isOn t = 0) by (destruct (inWarmMode _); exact E).
  assert (In LedOn (filter isOn t)) by (apply filter_In; auto). unfold count in H. destruct (filter isOn t); [contradiction|]. rewrite Zlen_cons in H. pose proof (Zlen_nonneg l). lia.
Qed.
