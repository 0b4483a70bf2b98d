(** The physical user interface: a press of the button always takes effect (C97); the FROST end of the dial (C98). *)
From Verif Require Import Base OccModel ScheduleModel TempModel UiModel UiProps.

Definition fullBake (s : UI) : Prop := inBakeMode (u_mode s) = true /\ bakeCountdownM (u_mode s) = 31.
Definition occupiedNow (s : UI) : Prop := occ_value (u_occ s) = 100 /\ occupationCountdownM (u_occ s) = OCCUPATION_TIMEOUT_M.
(** The effects of a press, with at least [t] minutes left. *)
Definition Q (t : Z) (s : UI) : Prop := isWarmMode (u_mode s) = true /\ bakeCountdownM (u_mode s) = 31 /\ occupiedNow s /\ t <= u_tmo s <= 31 /\ u_chg s = true.
Definition free (c : Cfg) (v : Z) (s : UI) : Prop := pot_value (u_pot s) = v /\ atLo c s = false.
Lemma free_eq : forall c v s s', free c v s -> pot_value (u_pot s') = pot_value (u_pot s) -> free c v s'.
Proof. intros c v s s' [A B] E. split; [congruence|]. unfold atLo in *. rewrite E. exact B. Qed.
(** A press served stays served, and any press in the step is served. *)
Definition sf (c : Cfg) (v v' t : Z) (s : UI) (m : W) : Prop :=
  free c v s -> free c v' (fst m) /\ (Q t s \/ In Pressed (snd m) -> Q t (fst m)).
Lemma sf_wb : forall c v v1 v' t s m k, sf c v v1 t s m -> (forall x, sf c v1 v' t x (k x)) -> sf c v v' t s (wb m k).
Proof.
  intros c v v1 v' t s m k HF HK FS. rewrite wb_fst, wb_snd. destruct (HF FS) as [F1 Q1]. destruct (HK (fst m) F1) as [F2 Q2].
  split; [exact F2|]. intros [A|A]; apply Q2; [left; apply Q1; left; exact A|].
  apply in_app_or in A. destruct A as [A|A]; [left; apply Q1; right; exact A|right; exact A].
Qed.
Lemma sf_tell : forall c v v' t s s' l, (free c v s -> free c v' s') -> (free c v s -> Q t s -> Q t s') -> ~ In Pressed l -> sf c v v' t s (tell s' l).
Proof. intros c v v' t s s' l A B C F. cbn [fst snd tell]. split; [apply A, F|]. intros [X|X]; [apply B; assumption|destruct (C X)]. Qed.
Lemma sf_id : forall c v t s l, ~ In Pressed l -> sf c v v t s (tell s l).
Proof. intros. apply sf_tell; auto. Qed.
Lemma sf_same : forall c v t s s' l, pot_value (u_pot s') = pot_value (u_pot s) -> (Q t s -> Q t s') -> ~ In Pressed l -> sf c v v t s (tell s' l).
Proof. intros. apply sf_tell; auto. intro F. apply (free_eq c v s); assumption. Qed.
Lemma occupied_mark : forall o, occ_value (markAsOccupied0 o) = 100 /\ occupationCountdownM (markAsOccupied0 o) = OCCUPATION_TIMEOUT_M.
Proof. intro o. unfold markAsOccupied0. cbv zeta. destruct (0 =? _); split; reflexivity. Qed.
Lemma Q_markUsed : forall t s, t <= 31 -> Q t s -> Q t (markUsed s).
Proof. intros t s Ht (A & B & C & D & E). split; [exact A|]. split; [exact B|]. split; [apply occupied_mark|]. split; [cbn; unfold RECENT; lia|reflexivity]. Qed.
Lemma led_np : forall c : Cfg, ~ In Pressed (if c_isrled c then [LedOn] else []).
Proof. intros c. destruct (c_isrled c); cbn [In]; intuition discriminate. Qed.
Lemma sf_press : forall c v t s, c_cycle c = false -> t <= 31 -> sf c v v t s (press c s).
Proof.
  intros c v t s HC Ht F. unfold press. rewrite wb_tell. rewrite HC. cbn [fst snd]. assert (A := F). destruct A as [_ A]. rewrite A.
  cbn [markSig fst]. split; [apply (free_eq c v s); [exact F|reflexivity]|]. intros _.
  split; [reflexivity|]. split; [reflexivity|]. split; [apply occupied_mark|]. split; [cbn; unfold RECENT; lia|reflexivity].
Qed.
Lemma sf_presses : forall c v t, c_cycle c = false -> t <= 31 -> forall n s, sf c v v t s (presses c n s).
Proof.
  intros c v t HC Ht n. induction n; intro s; cbn [presses]; [apply sf_id; exact (fun H => H)|].
  eapply sf_wb; [apply sf_press; assumption|exact IHn].
Qed.
Lemma sf_markSig : forall c v t s, t <= 31 -> sf c v v t s (markSig c s).
Proof. intros. unfold markSig. apply sf_same; [reflexivity|intro HQ; apply Q_markUsed; [assumption|exact HQ]|apply led_np]. Qed.
Lemma sf_warm : forall c v t s, t <= 31 -> sf c v v t s (warmFromUI c true s).
Proof.
  intros. unfold warmFromUI. eapply sf_wb with (v1 := v).
  - destruct (negb _); [apply sf_markSig; assumption|apply sf_id; exact (fun H => H)].
  - intro x. apply sf_same; [reflexivity| |exact (fun H => H)]. intros (A & B & C & D & E). unfold Q. repeat (split; [assumption || reflexivity|]). exact E.
Qed.
Lemma sf_bake : forall c v t s, t <= 31 -> sf c v v t s (bakeFromUI c true s).
Proof.
  intros. unfold bakeFromUI. eapply sf_wb with (v1 := v).
  - destruct (negb _); [apply sf_markSig; assumption|apply sf_id; exact (fun H => H)].
  - intro x. apply sf_same; [reflexivity| |exact (fun H => H)]. intros (A & B & C & D & E). unfold Q. repeat (split; [assumption || reflexivity|]). exact E.
Qed.
Lemma sf_track : forall c v t s, sf c v v t s (tell (track c s) []).
Proof.
  intros. apply sf_same; [| |exact (fun H => H)]; unfold track; destruct (_ =? _); try reflexivity; try (intro HQ; exact HQ); cbv zeta.
  - match goal with |- context[if ?a then set_last ?x _ else if ?b then _ else _] => destruct a; [|destruct b]; cbn [u_pot set_last];
      (destruct (negb (0 =? u_last s)); [reflexivity|destruct (negb (atLo c s)); reflexivity]) end.
  - intro HQ. match goal with |- context[if ?a then set_last ?x _ else if ?b then _ else _] =>
      assert (HX : Q t x) by (destruct (negb (0 =? u_last s)); [exact HQ|destruct (negb (atLo c s)); [|exact HQ]];
        destruct HQ as (A & B & C & D & E); unfold Q; (repeat (split; [assumption || reflexivity|]); exact E));
      destruct a; [|destruct b]; exact HX end.
Qed.
Lemma sf_calls : forall c v t calls, t <= 31 -> (forall k, In k calls -> k = CallWarm \/ k = CallBakeStart \/ k = CallOccupied) ->
  forall x, sf c v v t x (pot_calls c calls x).
Proof.
  intros c v t calls Ht. induction calls as [|k r IH]; intros HV2 x1; cbn [pot_calls]; [apply sf_id; exact (fun H => H)|].
  eapply sf_wb; [|apply IH; intros; apply HV2; right; assumption].
  destruct (HV2 k (or_introl eq_refl)) as [-> | [-> | ->]]; cbn [pot_call].
  - destruct (c_wired c); [apply sf_warm; assumption|apply sf_id; exact (fun H => H)].
  - destruct (c_wired c); [apply sf_bake; assumption|apply sf_id; exact (fun H => H)].
  - apply sf_same; [reflexivity| |exact (fun H => H)]. intros (A & B & C & D & E). split; [exact A|]. split; [exact B|]. split; [apply occupied_mark|split; assumption].
Qed.
(** The dial has not been turned down, nor is it at the bottom. *)
Lemma sf_sample : forall c g i lo hi v t s, c_pot c = Some (lo, hi) -> c_cycle c = false -> t <= 31 -> 0 <= v -> lo <= v -> v * 4 <= i_raw i <= 1023 ->
  exists v', v <= v' /\ (free c v s -> sf c v v' t s (sample c g i lo hi s)).
Proof.
  intros c g i lo hi v t s HP HC Ht Hv Hlo Hr.
  exists (if pot_value (u_pot s) =? v then pot_value (fst (pot_read lo hi (u_pot s) (i_raw i))) else v).
  assert (PV : u8 (Z.shiftr (i_raw i) 2) = i_raw i / 4).
  { rewrite Z.shiftr_div_pow2 by lia. change (2 ^ 2) with 4. apply u8_id. red. split; [apply Z.div_pos; lia|apply Z.div_lt_upper_bound; lia]. }
  assert (PG : v <= i_raw i / 4) by (apply Z.div_le_lower_bound; lia).
  assert (HV : pot_value (u_pot s) = v -> v <= pot_value (fst (pot_read lo hi (u_pot s) (i_raw i))) /\
     forall k, In k (snd (pot_read lo hi (u_pot s) (i_raw i))) -> k = CallWarm \/ k = CallBakeStart \/ k = CallOccupied).
  { intro E. unfold pot_read. cbv zeta. rewrite PV, E. destruct (_ || _); cbn [fst snd pot_value].
    - split; [exact PG|]. intros k. destruct (negb _); [|intros []].
      replace (i_raw i / 4 <? lo) with false by (symmetry; apply Z.ltb_ge; lia).
      replace (i_raw i / 4 <? v) with false by (symmetry; apply Z.ltb_ge; lia).
      destruct (_ >? hi); [|destruct (_ >? v)]; cbn [app In]; intuition.
    - split; [lia|]. intros k []. }
  split. { destruct (Z.eqb_spec (pot_value (u_pot s)) v) as [E|E]; [apply HV, E|lia]. }
  intros F. assert (E := proj1 F). destruct (HV E) as [HV1 HV2]. rewrite E, Z.eqb_refl.
  unfold sample. destruct (pot_read lo hi (u_pot s) (i_raw i)) as [p calls] eqn:EP. cbn [fst snd] in *. set (v' := pot_value p) in *.
  assert (AL : forall x, pot_value (u_pot x) = v' -> atLo c x = false).
  { intros x Ex. unfold atLo. rewrite HP, Ex. apply Z.ltb_ge. lia. }
  intros _. assert (F' : free c v' (set_pot s p)) by (split; [reflexivity|apply AL; reflexivity]).
  assert (HH : sf c v' v' t (set_pot s p) (ui s1 <- presses c (g 5%nat) (set_pot s p); ui s2 <- pot_calls c calls s1; ui s3 <- presses c (g 6%nat) s2;
      ui s4 <- tell (if atLo c s3 then set_mode s3 (setWarmModeDebounced (u_mode s3) false) else s3) []; ui s5 <- presses c (g 7%nat) s4; tell (track c s5) [])).
  { eapply sf_wb; [apply sf_presses; assumption|intro x1].
    eapply sf_wb.
    { apply sf_calls; assumption. }
    intro x2. eapply sf_wb; [apply sf_presses; assumption|intro x3].
    eapply sf_wb with (v1 := v').
    { intros F3. destruct F3 as [F3a F3b]. rewrite F3b. cbn [fst snd tell]. split; [split; assumption|intros [A|[]]; exact A]. }
    intro x4. eapply sf_wb; [apply sf_presses; assumption|intro x5]. apply sf_track. }
  destruct (HH F') as [R1 R2]. split; [exact R1|]. intro HQ. apply R2. exact HQ.
Qed.

Lemma sf_feedback : forall c g i v t s, c_cycle c = false -> t <= 31 -> sf c v v t s (feedback c g i s).
Proof.
  intros. unfold feedback.
  eapply sf_wb; [apply sf_id; cbn [In]; intuition discriminate|intro x1].
  eapply sf_wb; [apply sf_same; [reflexivity|apply Q_markUsed; assumption|destruct (i_run i); cbn [In]; intuition discriminate]|intro x2].
  eapply sf_wb; [apply sf_id; cbn [In]; intuition discriminate|intro x3].
  eapply sf_wb; [apply sf_presses; assumption|intro x4].
  apply sf_same; [reflexivity|intro HQ; exact HQ|exact (fun H => H)].
Qed.
Ltac np := cbn [In]; repeat match goal with |- context[if ?b then _ else _] => destruct b end; cbn [In app]; intuition discriminate.
Lemma sf_display : forall c g i e f v t s, c_cycle c = false -> t <= 31 -> sf c v v t s (display c g i e f s).
Proof.
  intros. unfold display. cbv zeta. eapply sf_wb; [apply sf_presses; assumption|intro s1].
  destruct (_ || inWarmMode _).
  - destruct (_ || (_ && _)); [|apply sf_id; np].
    eapply sf_wb; [apply sf_id; np|intro s2].
    eapply sf_wb; [apply sf_presses; assumption|intro s3].
    destruct (_ || inBakeMode _); [|apply sf_id; np].
    eapply sf_wb; [apply sf_id; np|intro s4].
    eapply sf_wb; [apply sf_presses; assumption|intro s5].
    destruct (inBakeMode (u_mode s5)); apply sf_id; np.
  - destruct (_ && i_cfh i); apply sf_id; np.
Qed.
Lemma poll_plain : forall c i s, c_cycle c = false -> pollMODE c i s = ((s, []), false).
Proof. intros c i s H. unfold pollMODE. rewrite H. reflexivity. Qed.
(** From the end of the first stage on. *)
Lemma sf_rest : forall c g i e f v v' t s, c_cycle c = false -> t <= 31 ->
  sf c v v' t s (stage2 c g i e f s) -> sf c v v' t s (ui s <- stage2 c g i e f s; ui s <- stage3 c g i s; ui s <- stage4 c g i e f s; stage5 c g s).
Proof.
  intros c g i e f v v' t s HC Ht H2. eapply sf_wb; [exact H2|intro s2]. clear H2.
  eapply sf_wb with (v1 := v').
  { unfold stage3. eapply sf_wb; [|intro; apply sf_presses; assumption]. destruct (u_sig s2); [apply sf_feedback; assumption|apply sf_id; exact (fun H => H)]. }
  intro s3. eapply sf_wb with (v1 := v').
  { unfold stage4. rewrite poll_plain by exact HC. change (s3, []) with (tell s3 []). rewrite wb_tell0. apply sf_display; assumption. }
  intro s4. unfold stage5. eapply sf_wb; [apply sf_id; np|intro; apply sf_presses; assumption].
Qed.
Lemma sf_stage2 : forall c g i e f v t s, c_cycle c = false -> t <= 31 -> free c v s ->
  (match c_pot c with Some (lo, _) => 0 <= v /\ lo <= v /\ v * 4 <= i_raw i <= 1023 | None => True end) ->
  exists v', sf c v v' t s (stage2 c g i e f s).
Proof.
  intros c g i e f v t s HC Ht F HP. unfold stage2.
  destruct (sf_presses c v t HC Ht (g 3%nat) s F) as [F1 Q1]. set (s1 := fst (presses c (g 3%nat) s)) in *.
  assert (HX : exists v', sf c v v' t s1 (match c_pot c with
     | Some (lo, hi) => if e || f || (inWarmMode (u_mode s1) && negb (longLongVacant (u_occ s1))) then ui s <- tell s1 [Pause 15]; sample c g i lo hi s else tell s1 []
     | None => tell s1 [] end)).
  { destruct (c_pot c) as [[lo hi]|] eqn:EP; [|exists v; apply sf_id; exact (fun H => H)].
    destruct (_ || (_ && _)); [|exists v; apply sf_id; exact (fun H => H)].
    destruct HP as (HP1 & HP2 & HP3).
    destruct (sf_sample c g i lo hi v t s1 EP HC Ht HP1 HP2 HP3) as (v' & _ & HS). exists v'.
    rewrite wb_tell. intro F2. destruct (HS F2 F2) as [R1 R2]. cbn [fst snd]. split; [exact R1|].
    intros [A|A]; apply R2; [left; exact A|]. destruct A as [A|A]; [discriminate|right; exact A]. }
  destruct HX as [v' HX]. exists v'. intros _. rewrite !wb_fst, !wb_snd. fold s1.
  destruct (HX F1) as [F2 Q2].
  match type of F2 with free _ _ (fst ?m) => set (m2 := m) in * end.
  destruct (sf_presses c v' t HC Ht (g 8%nat) (fst m2) F2) as [F3 Q3]. split; [exact F3|].
  intros [A|A]; apply Q3; [left; apply Q2; left; apply Q1; left; exact A|].
  apply in_app_or in A. destruct A as [A|A]; [left; apply Q2; left; apply Q1; right; exact A|].
  apply in_app_or in A. destruct A as [A|A]; [left; apply Q2; right; exact A|right; exact A].
Qed.
Lemma sf_stage1 : forall c g v s, c_cycle c = false -> free c v s ->
  free c v (fst (stage1 c g s)) /\ (In Pressed (snd (stage1 c g s)) -> Q 30 (fst (stage1 c g s))).
Proof.
  intros c g v s HC F. unfold stage1. rewrite !wb_fst, !wb_snd. cbv zeta.
  destruct (sf_presses c v 31 HC ltac:(lia) (g 0%nat) s F) as [F0 Q0]. set (p0 := presses c (g 0%nat) s) in *.
  set (s1 := set_tick (fst p0) _). assert (F1 : free c v s1) by exact F0. assert (Q1 : In Pressed (snd p0) -> Q 31 s1) by (intro A; apply Q0; right; exact A).
  match goal with |- context[presses c (g 2%nat) (fst ?m)] => set (m1 := m) end.
  assert (H1 : free c v (fst m1) /\ (In Pressed (snd p0) \/ In Pressed (snd m1) -> Q 30 (fst m1))).
  { unfold m1. destruct (_ =? 0).
    - rewrite wb_fst, wb_snd. cbn [fst snd tell]. rewrite app_nil_r.
      destruct (sf_presses c v 31 HC ltac:(lia) (g 1%nat) s1 F1) as [F2 Q2]. set (s2 := fst (presses c (g 1%nat) s1)) in *.
      split.
      + destruct (0 =? _); [exact F2|]. destruct (_ =? _); [apply (free_eq c v s2); [exact F2|reflexivity]|exact F2].
      + intro HA. assert (HQ : Q 31 s2) by (destruct HA as [A|A]; apply Q2; [left; apply Q1, A|right; exact A]).
        assert (HQ30 : Q 30 s2) by (destruct HQ as (A & B & C & D & E); unfold Q; repeat (split; [assumption|]); split; [lia|exact E]).
        destruct (0 =? _); [exact HQ30|]. destruct (Z.eqb_spec (u_tmo s2) (u_tmo s1)) as [E|E]; [|exact HQ30].
        destruct HQ as (A & B & C & D & G). unfold Q. repeat (split; [assumption|]). cbn [u_tmo set_tmo u_chg]. rewrite <- E.
        replace (u_tmo s2) with 31 by lia. change (u8 (31 - 1)) with 30. split; [lia|exact G].
    - cbn [fst snd tell]. split; [exact F1|]. intros [A|[]]. destruct (Q1 A) as (B & C & D & E & G). unfold Q. repeat (split; [assumption|]). split; [lia|exact G]. }
  destruct H1 as [F2 Q2]. destruct (sf_presses c v 30 HC ltac:(lia) (g 2%nat) (fst m1) F2) as [F3 Q3]. split; [exact F3|].
  intro A. apply Q3. apply in_app_or in A. destruct A as [A|A]; [left; apply Q2; left; exact A|].
  apply in_app_or in A. destruct A as [A|A]; [left; apply Q2; right; exact A|right; exact A].
Qed.

(** C97: with the MODE button on an interrupt (no cycling), if the dial is not at its bottom end and is not being turned down, then whenever the button
    is pressed during a read, at any point and any number of times, after it: the valve is in BAKE mode for the full period, the room counts
    as occupied and the controls as very recently used; and unless the press came after the final check the read reports activity. *)
Theorem ui_press_served : forall c g i s s' t r, c_cycle c = false ->
  (match c_pot c with Some (lo, _) => lo <= pot_value (u_pot s) /\ 0 <= pot_value (u_pot s) /\ pot_value (u_pot s) * 4 <= i_raw i <= 1023 | None => True end) ->
  ui_read c g i s = ((s', t), r) -> In Pressed t ->
  fullBake s' /\ occupiedNow s' /\ 30 <= u_tmo s' <= 31 /\ veryRecent s' = true /\ (g 17%nat = 0%nat -> r = true).
Proof.
  intros c g i s s' t r HC HP HR HI. rewrite ui_read_body in HR. cbv zeta in HR.
  assert (F : free c (pot_value (u_pot s)) s).
  { split; [reflexivity|]. unfold atLo. destruct (c_pot c) as [[lo hi]|]; [|reflexivity]. apply Z.ltb_ge. lia. }
  set (v := pot_value (u_pot s)) in *. destruct (sf_stage1 c g v s HC F) as [F1 Q1].
  assert (HB : exists v', free c v' (fst (body c g i s)) /\ (In Pressed (snd (body c g i s)) -> Q 30 (fst (body c g i s)))).
  { unfold body. rewrite wb_fst, wb_snd. cbv zeta. set (s1 := fst (stage1 c g s)) in *.
    destruct (sf_stage2 c g i (veryRecent s1) (Z.land (u_tick s1) 3 =? 0) v 30 s1 HC ltac:(lia) F1) as [v' S2].
    { destruct (c_pot c) as [[lo hi]|]; [|exact I]. repeat split; lia. }
    destruct (sf_rest c g i _ _ v v' 30 s1 HC ltac:(lia) S2 F1) as [R1 R2].
    exists v'. split; [exact R1|]. intro A. apply R2. apply in_app_or in A. destruct A as [A|A]; [left; apply Q1, A|right; exact A]. }
  destruct HB as (v' & F2 & Q2).
  destruct (sf_presses c v' 30 HC ltac:(lia) (g 17%nat) (fst (body c g i s)) F2) as [F3 Q3].
  assert (E1 := f_equal (fun x => fst (fst x)) HR). assert (E2 := f_equal (fun x => snd (fst x)) HR). assert (E3 := f_equal snd HR). cbn [fst snd] in E1, E2, E3.
  assert (HQ : Q 30 (fst (presses c (g 17%nat) (fst (body c g i s))))).
  { apply Q3. rewrite <- E2 in HI. apply in_app_or in HI. destruct HI as [A|A]; [left; apply Q2, A|right; exact A]. }
  destruct HQ as (A & B & C & D & E). rewrite <- E1. unfold fullBake, inBakeMode, occupiedNow, veryRecent. cbn [u_mode u_occ u_tmo set_chg].
  rewrite A, B. split; [split; reflexivity|]. split; [exact C|]. split; [exact D|]. split; [unfold RECENT, VERY_RECENT; apply Z.geb_le; lia|].
  intro G. rewrite <- E3. rewrite <- E2 in HI. rewrite G in HI. cbn [presses snd] in HI. rewrite app_nil_r in HI. apply (Q2 HI).
Qed.
(** Without the last condition the report can be lost: the flag is cleared after it has been copied. *)
Theorem ui_press_report_refuted : exists c g i s s' t r, c_cycle c = false /\ c_pot c = None /\ ui_read c g i s = ((s', t), r) /\
  In Pressed t /\ r = false /\ u_chg s' = false /\ u_tmo s' = 31.
Proof.
  exists (mkCfg None false false true 16 26 (fun _ => 19) (fun _ => false) (fun _ => false)), (fun n => if Nat.eqb n 17 then 1%nat else 0%nat),
    (mkIn 0 false true false false false false), UI0. eexists _, _, _. split; [reflexivity|]. split; [reflexivity|]. split; [vm_compute; reflexivity|].
  split; [cbn [In]; auto|]. repeat split.
Qed.

(** ** The FROST end of the dial *)
Definition samePot (s s' : UI) := u_pot s' = u_pot s.
Lemma pot_pre : preorder samePot.
Proof. unfold samePot. split; [reflexivity|intros; congruence]. Qed.
Lemma pot_press : forall c s, samePot s (fst (press c s)).
Proof. intros c s. unfold press. rewrite wb_tell. cbn [fst]. destruct (c_cycle c), (atLo c s); reflexivity. Qed.
Lemma pot_presses : forall c n s, samePot s (fst (presses c n s)).
Proof. intro c. apply presses_rel; [apply pot_pre|apply pot_press]. Qed.
Lemma pot_warm : forall c b s, samePot s (fst (warmFromUI c b s)).
Proof. intros. unfold warmFromUI. apply (wb_rel _ pot_pre); [destruct (negb _); reflexivity|reflexivity]. Qed.
Lemma pot_bake : forall c b s, samePot s (fst (bakeFromUI c b s)).
Proof. intros. unfold bakeFromUI. apply (wb_rel _ pot_pre); [destruct (negb _); reflexivity|reflexivity]. Qed.
Lemma pot_pot : forall c l s, samePot s (fst (pot_calls c l s)).
Proof.
  intros c l. induction l as [|k r IH]; intro s; cbn [pot_calls]; [reflexivity|]. apply (wb_rel _ pot_pre); [|exact IH].
  destruct k; cbn [pot_call]; try (destruct (c_wired c); [|reflexivity]); try apply pot_warm; try apply pot_bake; reflexivity.
Qed.
Lemma pot_track : forall c s, samePot s (track c s).
Proof.
  intros c s. unfold track. destruct (_ =? _); [reflexivity|]. cbv zeta. red.
  match goal with |- context[if ?a then set_last ?x _ else if ?b then _ else _] => destruct a; [|destruct b]; cbn [u_pot set_last];
      (destruct (negb (0 =? u_last s)); [reflexivity|destruct (negb (atLo c s)); reflexivity]) end.
Qed.
Lemma pot_feedback : forall c g i s, samePot s (fst (feedback c g i s)).
Proof.
  intros. unfold feedback. repeat (apply (wb_rel _ pot_pre); [try reflexivity; try apply pot_presses|intro]). reflexivity.
Qed.
Lemma pot_poll : forall c i s, samePot s (fst (fst (pollMODE c i s))).
Proof.
  intros. unfold pollMODE. destruct (negb (c_cycle c)); [reflexivity|]. destruct (i_held i).
  - cbv zeta. destruct (u_was s), (negb (u_pw _)); cbn [fst tell]; try reflexivity; destruct (negb (u_pb _)); reflexivity.
  - destruct (u_was s); reflexivity.
Qed.
Lemma pot_display : forall c g i e f s, samePot s (fst (display c g i e f s)).
Proof.
  intros. unfold display. cbv zeta. apply (wb_rel _ pot_pre); [apply pot_presses|intro s1].
  destruct (_ || inWarmMode _).
  - destruct (_ || (_ && _)); [|reflexivity].
    apply (wb_rel _ pot_pre); [reflexivity|intro s2]. apply (wb_rel _ pot_pre); [apply pot_presses|intro s3].
    destruct (_ || inBakeMode _); [|reflexivity].
    apply (wb_rel _ pot_pre); [reflexivity|intro s4]. apply (wb_rel _ pot_pre); [apply pot_presses|intro s5].
    destruct (inBakeMode (u_mode s5)); reflexivity.
  - destruct (_ && i_cfh i); reflexivity.
Qed.
Lemma pot_late : forall c g i e f s, samePot s (fst (ui s <- stage3 c g i s; ui s <- stage4 c g i e f s; stage5 c g s)).
Proof.
  intros. apply (wb_rel _ pot_pre).
  { unfold stage3. apply (wb_rel _ pot_pre); [|intro; apply pot_presses]. destruct (u_sig s); [apply pot_feedback|reflexivity]. }
  intro s3. apply (wb_rel _ pot_pre).
  { unfold stage4. destruct (pollMODE c i s3) as [m a] eqn:E. apply (wb_rel _ pot_pre).
    - replace m with (fst (pollMODE c i s3)) by (rewrite E; reflexivity). apply pot_poll.
    - intro x. destruct a; [reflexivity|apply pot_display]. }
  intro s4. unfold stage5. apply (wb_rel _ pot_pre); [reflexivity|intro; apply pot_presses].
Qed.
Lemma pot_stage1 : forall c g s, samePot s (fst (stage1 c g s)).
Proof.
  intros. unfold stage1. apply (wb_rel _ pot_pre); [apply pot_presses|intro x]. cbv zeta.
  assert (T : samePot x (set_tick x (u8 (u_tick x + 1)))) by reflexivity. eapply (proj2 pot_pre); [exact T|].
  apply (wb_rel _ pot_pre); [|intro; apply pot_presses]. destruct (_ =? 0); [|reflexivity].
  apply (wb_rel _ pot_pre); [apply pot_presses|intro y]. cbn [fst tell]. destruct (0 =? _); [reflexivity|]. destruct (_ =? _); reflexivity.
Qed.
Lemma pot_sample : forall c g i lo hi s, u_pot (fst (sample c g i lo hi s)) = fst (pot_read lo hi (u_pot s) (i_raw i)).
Proof.
  intros. unfold sample. destruct (pot_read lo hi (u_pot s) (i_raw i)) as [p calls]. cbn [fst].
  assert (T : samePot (set_pot s p) (fst (ui s1 <- presses c (g 5%nat) (set_pot s p); ui s2 <- pot_calls c calls s1; ui s3 <- presses c (g 6%nat) s2;
      ui s4 <- tell (if atLo c s3 then set_mode s3 (setWarmModeDebounced (u_mode s3) false) else s3) []; ui s5 <- presses c (g 7%nat) s4; tell (track c s5) []))).
  { apply (wb_rel _ pot_pre); [apply pot_presses|intro]. apply (wb_rel _ pot_pre); [apply pot_pot|intro].
    apply (wb_rel _ pot_pre); [apply pot_presses|intro y]. apply (wb_rel _ pot_pre); [cbn [fst tell]; destruct (atLo c y); reflexivity|intro].
    apply (wb_rel _ pot_pre); [apply pot_presses|intro]. apply pot_track. }
  exact T.
Qed.

(** FROST with the dial at the bottom. *)
Definition frosted (c : Cfg) (s : UI) : Prop := atLo c s = true /\ isWarmMode (u_mode s) = false /\ bakeCountdownM (u_mode s) = 0.
Definition stays (c : Cfg) (s s' : UI) : Prop := frosted c s -> frosted c s'.
Lemma stays_pre : forall c, preorder (stays c).
Proof. intro c. unfold stays. split; auto. Qed.
Lemma stays_mode : forall c s s', u_pot s' = u_pot s -> (atLo c s = true -> isWarmMode (u_mode s) = false -> bakeCountdownM (u_mode s) = 0 ->
  isWarmMode (u_mode s') = false /\ bakeCountdownM (u_mode s') = 0) -> stays c s s'.
Proof. intros c s s' E H (A & B & C). split; [unfold atLo in *; rewrite E; exact A|apply H; assumption]. Qed.
Lemma stays_eq : forall c s s', u_pot s' = u_pot s -> u_mode s' = u_mode s -> stays c s s'.
Proof. intros c s s' E1 E2. apply stays_mode; [exact E1|]. intros. rewrite E2. auto. Qed.
Lemma stays_press : forall c s, stays c s (fst (press c s)).
Proof.
  intros c s F. assert (A := proj1 F). revert F. change (stays c s (fst (press c s))). unfold press. rewrite wb_tell. cbn [fst]. rewrite A.
  destruct (c_cycle c); apply stays_eq; reflexivity.
Qed.
Lemma stays_presses : forall c n s, stays c s (fst (presses c n s)).
Proof. intro c. apply presses_rel; [apply stays_pre|apply stays_press]. Qed.
Lemma stays_track : forall c s, stays c s (track c s).
Proof.
  intros c s F. assert (A := proj1 F). revert F. change (stays c s (track c s)). unfold track. destruct (_ =? _); [apply stays_pre|]. cbv zeta. rewrite A. cbn [negb].
  match goal with |- context[if ?a then set_last ?x _ else if ?b then _ else _] => destruct a; [|destruct b]; (destruct (negb (0 =? u_last s)); apply stays_eq; reflexivity) end.
Qed.
Lemma atLo_pot : forall c s s', u_pot s' = u_pot s -> atLo c s' = atLo c s.
Proof. intros c s s' E. unfold atLo. rewrite E. reflexivity. Qed.
(** A sample that finds the dial at the bottom ends in FROST. *)
Lemma sample_frost : forall c g i lo hi s, c_pot c = Some (lo, hi) -> pot_value (fst (pot_read lo hi (u_pot s) (i_raw i))) < lo ->
  frosted c (fst (sample c g i lo hi s)).
Proof.
  intros c g i lo hi s HP HV. unfold sample. destruct (pot_read lo hi (u_pot s) (i_raw i)) as [p calls]. cbn [fst] in HV.
  rewrite !wb_fst. set (a := fst (presses c (g 5%nat) (set_pot s p))). set (b := fst (pot_calls c calls a)). set (d := fst (presses c (g 6%nat) b)).
  assert (E : u_pot d = p). { unfold d. rewrite (pot_presses c _ b : u_pot _ = _). unfold b. rewrite (pot_pot c _ a : u_pot _ = _). unfold a. rewrite (pot_presses c _ _ : u_pot _ = _). reflexivity. }
  assert (AL : atLo c d = true) by (unfold atLo; rewrite HP, E; apply Z.ltb_lt; exact HV). rewrite AL. cbn [fst tell].
  apply stays_track, stays_presses. split; [exact AL|split; reflexivity].
Qed.
Lemma stays_feedback : forall c g i s, stays c s (fst (feedback c g i s)).
Proof.
  intros. unfold feedback. apply (wb_rel _ (stays_pre c)); [apply stays_pre|intro x1].
  apply (wb_rel _ (stays_pre c)); [apply stays_eq; reflexivity|intro x2]. apply (wb_rel _ (stays_pre c)); [apply stays_pre|intro x3].
  apply (wb_rel _ (stays_pre c)); [apply stays_presses|intro x4]. apply stays_eq; reflexivity.
Qed.
Lemma stays_display : forall c g i e f s, stays c s (fst (display c g i e f s)).
Proof.
  intros. unfold display. cbv zeta. apply (wb_rel _ (stays_pre c)); [apply stays_presses|intro s1].
  destruct (_ || inWarmMode _).
  - destruct (_ || (_ && _)); [|apply stays_pre].
    apply (wb_rel _ (stays_pre c)); [apply stays_pre|intro s2]. apply (wb_rel _ (stays_pre c)); [apply stays_presses|intro s3].
    destruct (_ || inBakeMode _); [|apply stays_pre].
    apply (wb_rel _ (stays_pre c)); [apply stays_pre|intro s4]. apply (wb_rel _ (stays_pre c)); [apply stays_presses|intro s5].
    destruct (inBakeMode (u_mode s5)); apply stays_pre.
  - destruct (_ && i_cfh i); apply stays_pre.
Qed.
Lemma stays_late : forall c g i e f s, c_cycle c = false -> stays c s (fst (ui s <- stage3 c g i s; ui s <- stage4 c g i e f s; stage5 c g s)).
Proof.
  intros c g i e f s HC. apply (wb_rel _ (stays_pre c)).
  { unfold stage3. apply (wb_rel _ (stays_pre c)); [|intro; apply stays_presses]. destruct (u_sig s); [apply stays_feedback|apply stays_pre]. }
  intro s3. apply (wb_rel _ (stays_pre c)).
  { unfold stage4. rewrite poll_plain by exact HC. change (s3, []) with (tell s3 []). rewrite wb_tell0. apply stays_display. }
  intro s4. unfold stage5. apply (wb_rel _ (stays_pre c)); [apply stays_pre|intro; apply stays_presses].
Qed.
Lemma stays_stage1 : forall c g s, stays c s (fst (stage1 c g s)).
Proof.
  intros. unfold stage1. apply (wb_rel _ (stays_pre c)); [apply stays_presses|intro x]. cbv zeta.
  assert (T : stays c x (set_tick x (u8 (u_tick x + 1)))) by (apply stays_eq; reflexivity). eapply (proj2 (stays_pre c)); [exact T|].
  apply (wb_rel _ (stays_pre c)); [|intro; apply stays_presses]. destruct (_ =? 0); [|apply stays_pre].
  apply (wb_rel _ (stays_pre c)); [apply stays_presses|intro y]. cbn [fst tell]. destruct (0 =? _); [apply stays_pre|]. destruct (_ =? _); apply stays_eq; reflexivity.
Qed.
Lemma forth_tick : forall c g s, byte (u_tick s) -> (Z.land (u_tick (fst (stage1 c g s))) 3 =? 0) = ((u_tick s + 1) mod 4 =? 0).
Proof.
  intros c g s HB. rewrite stage1_tick. change 3 with (Z.ones 2). rewrite Z.land_ones by lia. change (2 ^ 2) with 4.
  unfold u8. rewrite <- Znumtheory.Zmod_div_mod; try lia. exists 64; reflexivity.
Qed.
(** What a read does to the dial value and, at the bottom, to the mode. *)
Lemma read_dial : forall c g i s lo hi s' t r, c_pot c = Some (lo, hi) -> byte (u_tick s) -> ui_read c g i s = ((s', t), r) ->
  (u_pot s' = u_pot s /\ (u_tick s + 1) mod 4 <> 0 /\ (c_cycle c = false -> stays c s s')) \/
  (u_pot s' = fst (pot_read lo hi (u_pot s) (i_raw i)) /\ (c_cycle c = false -> pot_value (u_pot s') < lo -> frosted c s')).
Proof.
  intros c g i s lo hi s' t r HP HB HR. rewrite ui_read_body in HR. cbv zeta in HR.
  assert (E1 := f_equal (fun x => fst (fst x)) HR). cbn [fst] in E1. clear HR.
  assert (EP : u_pot s' = u_pot (fst (body c g i s))) by (rewrite <- E1; cbn [u_pot set_chg]; apply pot_presses).
  assert (ES : stays c (fst (body c g i s)) s').
  { eapply (proj2 (stays_pre c)); [apply (stays_presses c (g 17%nat))|]. rewrite <- E1. apply stays_eq; reflexivity. }
  unfold body in EP, ES. rewrite !wb_fst in EP, ES. cbv zeta in EP, ES. rewrite forth_tick in EP, ES by exact HB.
  pose proof (pot_stage1 c g s) as PS. pose proof (stays_stage1 c g s) as SS. set (s1 := fst (stage1 c g s)) in *. unfold samePot in PS.
  unfold stage2 in EP, ES. rewrite !wb_fst, ?HP in EP, ES.
  pose proof (pot_presses c (g 3%nat) s1) as P2. pose proof (stays_presses c (g 3%nat) s1) as S2. set (s2 := fst (presses c (g 3%nat) s1)) in *. unfold samePot in P2.
  set (enh := veryRecent s1) in *. set (forth := (u_tick s + 1) mod 4 =? 0) in *.
  set (m2 := if enh || forth || (inWarmMode (u_mode s2) && negb (longLongVacant (u_occ s2))) then _ else _) in *.
  set (s3 := fst (presses c (g 8%nat) (fst m2))) in *.
  assert (P3 : u_pot s3 = u_pot (fst m2)) by apply pot_presses. assert (S3 : stays c (fst m2) s3) by apply stays_presses.
  assert (EPL : u_pot s' = u_pot s3).
  { rewrite EP. pose proof (pot_late c g i enh forth s3) as PL. unfold samePot in PL. rewrite !wb_fst in PL. exact PL. }
  assert (ESL : c_cycle c = false -> stays c s3 s').
  { intro HC. eapply (proj2 (stays_pre c)); [|exact ES]. pose proof (stays_late c g i enh forth s3 HC) as SL. rewrite !wb_fst in SL. exact SL. }
  clear EP ES. unfold m2 in *. destruct (enh || forth || _) eqn:ED; [right|left].
  - rewrite wb_tell in P3, S3. cbn [fst] in P3, S3. rewrite pot_sample in P3. rewrite EPL, P3, P2, PS. split; [reflexivity|].
    intros HC HV. apply (ESL HC), S3. apply sample_frost; [exact HP|]. rewrite P2, PS. exact HV.
  - cbn [fst tell] in P3, S3. split; [congruence|]. split.
    + unfold forth in ED. intro E. rewrite E in ED. rewrite Z.eqb_refl in ED. rewrite Bool.orb_true_r in ED. discriminate.
    + intros HC F. apply (ESL HC), S3, S2, SS, F.
Qed.

(** C98 (1): whenever a read finds the dial newly at the bottom end, or is a fourth read with the dial there, it leaves the valve
    in FROST with no BAKE pending - whatever the dial's callbacks did and whenever the button was pressed. *)
Theorem ui_frost_end : forall c g i s lo hi s' t r, c_pot c = Some (lo, hi) -> c_cycle c = false -> byte (u_tick s) -> ui_read c g i s = ((s', t), r) ->
  pot_value (u_pot s') < lo -> (lo <= pot_value (u_pot s) \/ (u_tick s + 1) mod 4 = 0) ->
  inWarmMode (u_mode s') = false /\ inBakeMode (u_mode s') = false /\ bakeCountdownM (u_mode s') = 0.
Proof.
  intros c g i s lo hi s' t r HP HC HB HR HV HO. destruct (read_dial c g i s lo hi s' t r HP HB HR) as [(A & B & _)|[_ B]].
  - destruct HO as [HO|HO]; [rewrite A in HV; lia|contradiction].
  - destruct (B HC HV) as (_ & X & Y). unfold inWarmMode, inBakeMode. rewrite X, Y. auto.
Qed.
(** C98 (2): and it stays there through any reads, presses and passing minutes while the dial is left at the bottom. *)
Definition dialLow (lo : Z) (e : uev) : Prop :=
  match e with URead _ i => 0 <= i_raw i < lo * 4 /\ i_raw i <= 1023 | UPress | UMinute | UOccMinute => True | _ => False end.
Lemma pot_low : forall lo hi p r, pot_value p < lo -> 0 <= r < lo * 4 -> r <= 1023 -> pot_value (fst (pot_read lo hi p r)) < lo.
Proof.
  intros lo hi p r HV H1 H2. unfold pot_read. cbv zeta. rewrite Z.shiftr_div_pow2 by lia. change (2 ^ 2) with 4.
  assert (HB : byte (r / 4)) by (red; pose proof (Z.div_mod r 4 ltac:(lia)); pose proof (Z.mod_pos_bound r 4 ltac:(lia)); lia).
  rewrite u8_id by exact HB.
  destruct (_ || _); cbn [fst pot_value]; [apply Z.div_lt_upper_bound; lia|exact HV].
Qed.
Theorem ui_frost_stays : forall c lo hi, c_pot c = Some (lo, hi) -> c_cycle c = false ->
  forall es s, settled s -> pot_value (u_pot s) < lo -> isWarmMode (u_mode s) = false -> bakeCountdownM (u_mode s) = 0 -> Forall (dialLow lo) es ->
  let s' := fst (ui_run c s es) in
  inWarmMode (u_mode s') = false /\ inBakeMode (u_mode s') = false /\ bakeCountdownM (u_mode s') = 0 /\ pot_value (u_pot s') < lo.
Proof.
  intros c lo hi HP HC.
  assert (ALO : forall x, atLo c x = true <-> pot_value (u_pot x) < lo) by (intro x; unfold atLo; rewrite HP; apply Z.ltb_lt).
  assert (H : forall es s, settled s -> frosted c s -> Forall (dialLow lo) es -> frosted c (fst (ui_run c s es))).
  { induction es as [|e r IH]; intros s HS F HD; cbn [ui_run]; [exact F|]. inversion HD; subst.
    pose proof (settled_step c s e HS) as HS1. assert (F1 : frosted c (fst (fst (ui_step c s e)))).
    { destruct e; cbn [dialLow] in H1; try contradiction; cbn [ui_step].
      - destruct (ui_read c g i s) as [[s' t] r0] eqn:ER. cbn [fst]. destruct (read_dial c g i s lo hi s' t r0 HP (proj1 HS) ER) as [(_ & _ & B)|[A B]]; [apply B; assumption|].
        apply B; [exact HC|]. rewrite A. apply pot_low; [apply ALO, F|apply H1|apply H1].
      - pose proof (stays_press c s F). destruct (press c s). exact H.
      - destruct F as (A & B & C). split; [exact A|]. unfold vmode_read. cbn [fst u_mode set_mode isWarmMode bakeCountdownM]. rewrite B, C. split; reflexivity.
      - destruct F as (A & B & C). split; [exact A|]. split; assumption. }
    destruct (ui_step c s e) as [[s1 t] o]. cbn [fst] in *. specialize (IH s1 HS1 F1 H2). destruct (ui_run c s1 r). exact IH. }
  intros es s HS H1 H2 H3 HD. cbv zeta. destruct (H es s HS) as (A & B & C); [split; [apply ALO; exact H1|split; assumption]|exact HD|].
  unfold inWarmMode, inBakeMode. rewrite B, C. split; [reflexivity|]. split; [reflexivity|]. split; [reflexivity|]. apply ALO, A.
Qed.
