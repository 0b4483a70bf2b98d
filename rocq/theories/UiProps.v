(** The physical user interface: what the user can rely on (C96-C101). *)
From Verif Require Import Base OccModel ScheduleModel TempModel UiModel.

Definition quiet : nat -> nat := fun _ => 0%nat.      (* no button presses during a read *)

Lemma wb_fst : forall m k, fst (wb m k) = fst (k (fst m)).
Proof. intros [s t] k. cbn. destruct (k s); reflexivity. Qed.
Lemma wb_snd : forall m k, snd (wb m k) = snd m ++ snd (k (fst m)).
Proof. intros [s t] k. cbn. destruct (k s); reflexivity. Qed.
Lemma wb_tell : forall s t k, wb (tell s t) k = (fst (k s), t ++ snd (k s)).
Proof. intros. unfold tell, wb. destruct (k s); reflexivity. Qed.
Lemma wb_tell0 : forall s k, wb (tell s []) k = k s.
Proof. intros. unfold tell, wb. destruct (k s); reflexivity. Qed.

Lemma wb_assoc : forall m k1 k2, wb (wb m k1) k2 = wb m (fun s => wb (k1 s) k2).
Proof.
  intros [s t] k1 k2. cbn. destruct (k1 s) as [s1 t1]. cbn. destruct (k2 s1) as [s2 t2]. cbn. rewrite app_assoc. reflexivity.
Qed.
Lemma wb_ext : forall m k1 k2, (forall s, k1 s = k2 s) -> wb m k1 = wb m k2.
Proof. intros [s t] k1 k2 H. cbn. rewrite H. reflexivity. Qed.
Lemma press_tick : forall c s, u_tick (fst (press c s)) = u_tick s.
Proof. intros c s. unfold press. rewrite wb_tell. cbn [fst]. destruct (c_cycle c), (atLo c s); reflexivity. Qed.
Lemma presses_tick : forall c n s, u_tick (fst (presses c n s)) = u_tick s.
Proof. intros c n. induction n; intro s; cbn [presses]; [reflexivity|]. rewrite wb_fst, IHn. apply press_tick. Qed.
Lemma stage1_tick : forall c g s, u_tick (fst (stage1 c g s)) = u8 (u_tick s + 1).
Proof.
  intros c g s. unfold stage1. rewrite !wb_fst, presses_tick. cbv zeta.
  set (s1 := fst (presses c (g 0%nat) s)). cbn [u_tick set_tick].
  assert (E : u_tick s1 = u_tick s) by apply presses_tick.
  destruct (_ =? 0); cbn [fst tell].
  - rewrite wb_fst. cbn [fst tell]. set (s2 := fst _). assert (E2 : u_tick s2 = u8 (u_tick s1 + 1)) by (unfold s2; rewrite presses_tick; reflexivity).
    destruct (0 =? _); [congruence|]. destruct (_ =? _); cbn [u_tick set_tmo]; congruence.
  - cbn [u_tick set_tick]. congruence.
Qed.

Lemma ui_read_body : forall c g i s0,
  ui_read c g i s0 =
  let m := body c g i s0 in
  ((set_chg (fst (presses c (g 17%nat) (fst m))) false, snd m ++ snd (presses c (g 17%nat) (fst m))), u_chg (fst m)).
Proof.
  intros. unfold ui_read. destruct (body c g i s0) as [s t]. cbn [fst snd]. destruct (presses c (g 17%nat) s). reflexivity.
Qed.

(** A preorder respected by every step is respected by the composition. *)
Definition preorder (R : UI -> UI -> Prop) := (forall s, R s s) /\ (forall a b c, R a b -> R b c -> R a c).
Lemma wb_rel : forall R, preorder R -> forall s m k, R s (fst m) -> (forall x, R x (fst (k x))) -> R s (fst (wb m k)).
Proof. intros R [_ T] s m k H1 H2. rewrite wb_fst. eapply T; [exact H1|apply H2]. Qed.
Lemma presses_rel : forall R c, preorder R -> (forall s, R s (fst (press c s))) -> forall n s, R s (fst (presses c n s)).
Proof.
  intros R c PR HP n. induction n; intro s; cbn [presses]; [apply PR|]. apply wb_rel; [exact PR|apply HP|exact IHn].
Qed.

(** ** Touching the unit and the countdown since *)
Definition touch (s s' : UI) := u_tick s' = u_tick s /\
  ((u_chg s' = u_chg s /\ u_tmo s' = u_tmo s) \/ (u_chg s' = true /\ u_tmo s' = 31)).
Lemma touch_pre : preorder touch.
Proof.
  split; [intro s; split; [reflexivity|left; split; reflexivity]|].
  intros a b c [T1 H1] [T2 H2]. split; [congruence|]. destruct H2 as [[X Y]|H2]; [|right; exact H2].
  destruct H1 as [[U V]|[U V]]; [left|right]; split; congruence.
Qed.
Lemma touch_eq : forall s s', u_tick s' = u_tick s -> u_chg s' = u_chg s -> u_tmo s' = u_tmo s -> touch s s'.
Proof. intros. split; [assumption|left; split; assumption]. Qed.
Lemma touch_mark : forall s, touch s (markUsed s).
Proof. intro s. split; [reflexivity|right; split; reflexivity]. Qed.
Lemma touch_markSig : forall c s, touch s (fst (markSig c s)).
Proof. intros c s. split; [reflexivity|right; split; reflexivity]. Qed.
Lemma touch_press : forall c s, touch s (fst (press c s)).
Proof.
  intros c s. unfold press. rewrite wb_tell. cbn [fst]. destruct (c_cycle c); [apply touch_mark|]. destruct (atLo c s); [apply touch_mark|].
  split; [reflexivity|right; split; reflexivity].
Qed.
Lemma touch_presses : forall c n s, touch s (fst (presses c n s)).
Proof. intros c. apply presses_rel; [apply touch_pre|apply touch_press]. Qed.
Lemma touch_warm : forall c b s, touch s (fst (warmFromUI c b s)).
Proof.
  intros c b s. unfold warmFromUI. apply (wb_rel touch touch_pre).
  - destruct (negb _); [apply touch_markSig|apply touch_pre].
  - intro x. apply touch_eq; reflexivity.
Qed.
Lemma touch_bake : forall c b s, touch s (fst (bakeFromUI c b s)).
Proof.
  intros c b s. unfold bakeFromUI. apply (wb_rel touch touch_pre).
  - destruct (negb _); [apply touch_markSig|apply touch_pre].
  - intro x. apply touch_eq; reflexivity.
Qed.
Lemma touch_pot : forall c l s, touch s (fst (pot_calls c l s)).
Proof.
  intros c l. induction l as [|k r IH]; intro s; cbn [pot_calls]; [apply touch_pre|].
  apply (wb_rel touch touch_pre); [|exact IH].
  destruct k; cbn [pot_call]; try (destruct (c_wired c); [|apply touch_pre]); try apply touch_warm; try apply touch_bake.
  apply touch_eq; reflexivity.
Qed.
Lemma touch_track : forall c s, touch s (track c s).
Proof.
  intros c s. unfold track. destruct (_ =? _); [apply touch_pre|]. cbv zeta.
  match goal with |- touch s (if ?a then set_last ?x _ else if ?b then _ else _) =>
    assert (T : touch s x) by (destruct (negb (0 =? u_last s)); [apply touch_eq; reflexivity|destruct (negb (atLo c s)); apply touch_eq; reflexivity]);
    destruct a; [|destruct b]; (eapply (proj2 touch_pre); [exact T|apply touch_eq; reflexivity]) end.
Qed.
Lemma touch_sample : forall c g i lo hi s, touch s (fst (sample c g i lo hi s)).
Proof.
  intros. unfold sample. destruct (pot_read lo hi (u_pot s) (i_raw i)) as [p calls].
  assert (T0 : touch s (set_pot s p)) by (apply touch_eq; reflexivity).
  eapply (proj2 touch_pre); [exact T0|].
  apply (wb_rel touch touch_pre); [apply touch_presses|intro x1].
  apply (wb_rel touch touch_pre); [apply touch_pot|intro x2].
  apply (wb_rel touch touch_pre); [apply touch_presses|intro x3].
  apply (wb_rel touch touch_pre); [cbn [fst tell]; destruct (atLo c x3); apply touch_eq; reflexivity|intro x4].
  apply (wb_rel touch touch_pre); [apply touch_presses|intro x5]. apply touch_track.
Qed.
Lemma touch_feedback : forall c g i s, touch s (fst (feedback c g i s)).
Proof.
  intros. unfold feedback.
  apply (wb_rel touch touch_pre); [apply touch_pre|intro x1].
  apply (wb_rel touch touch_pre); [apply touch_mark|intro x2].
  apply (wb_rel touch touch_pre); [apply touch_pre|intro x3].
  apply (wb_rel touch touch_pre); [apply touch_presses|intro x4]. apply touch_eq; reflexivity.
Qed.
Lemma touch_poll : forall c i s, touch s (fst (fst (pollMODE c i s))).
Proof.
  intros. unfold pollMODE. destruct (negb (c_cycle c)); [apply touch_pre|]. destruct (i_held i).
  - cbv zeta. cbn [fst]. set (s1 := if u_was s then _ else _).
    assert (T : touch s (markUsed s1)).
    { eapply (proj2 touch_pre); [|apply touch_mark]. unfold s1. destruct (u_was s); apply touch_eq; reflexivity. }
    destruct (negb (u_pw _)); [|destruct (negb (u_pb _))]; cbn [fst tell]; (eapply (proj2 touch_pre); [exact T|apply touch_eq; reflexivity]).
  - destruct (u_was s); [|apply touch_pre]. split; [reflexivity|right; split; reflexivity].
Qed.
Lemma touch_display : forall c g i e f s, touch s (fst (display c g i e f s)).
Proof.
  intros. unfold display. apply (wb_rel touch touch_pre); [apply touch_presses|intro s1].
  destruct (_ || inWarmMode _).
  - destruct (_ || (_ && _)); [|apply touch_pre]. cbv zeta.
    apply (wb_rel touch touch_pre); [apply touch_pre|intro s2].
    apply (wb_rel touch touch_pre); [apply touch_presses|intro s3].
    destruct (_ || inBakeMode _); [|apply touch_pre].
    apply (wb_rel touch touch_pre); [apply touch_pre|intro s4].
    apply (wb_rel touch touch_pre); [apply touch_presses|intro s5].
    destruct (inBakeMode (u_mode s5)); apply touch_pre.
  - destruct (_ && i_cfh i); apply touch_pre.
Qed.
Lemma touch_tail : forall c g i e f s,
  touch s (fst (ui s <- stage2 c g i e f s; ui s <- stage3 c g i s; ui s <- stage4 c g i e f s; stage5 c g s)).
Proof.
  intros. apply (wb_rel touch touch_pre).
  { unfold stage2. apply (wb_rel touch touch_pre); [apply touch_presses|intro s1].
    apply (wb_rel touch touch_pre); [|intro; apply touch_presses].
    destruct (c_pot c) as [[lo hi]|]; [|apply touch_pre]. destruct (_ || _); [|apply touch_pre].
    apply (wb_rel touch touch_pre); [apply touch_pre|intro; apply touch_sample]. }
  intro s2. apply (wb_rel touch touch_pre).
  { unfold stage3. apply (wb_rel touch touch_pre); [|intro; apply touch_presses].
    destruct (u_sig s2); [apply touch_feedback|apply touch_pre]. }
  intro s3. apply (wb_rel touch touch_pre).
  { unfold stage4. destruct (pollMODE c i s3) as [m a] eqn:E. apply (wb_rel touch touch_pre).
    - replace m with (fst (pollMODE c i s3)) by (rewrite E; reflexivity). apply touch_poll.
    - intro x. destruct a; [apply touch_pre|apply touch_display]. }
  intro s4. unfold stage5. apply (wb_rel touch touch_pre); [apply touch_pre|intro; apply touch_presses].
Qed.

(** Minutes counted by [n] reads starting at tick count [k]. *)
Definition minutes (k n : Z) : Z := (k mod 32 + n) / 32.
Lemma land31 : forall k, 0 <= k -> Z.land k 31 = k mod 32.
Proof. intros. change 31 with (Z.ones 5). rewrite Z.land_ones by lia. reflexivity. Qed.
Lemma tick_mod : forall k, byte k -> u8 (k + 1) mod 32 = (k + 1) mod 32.
Proof. intros k H. unfold u8. rewrite <- Znumtheory.Zmod_div_mod; try lia. exists 8; reflexivity. Qed.

Lemma stage1_countdown : forall c g s, byte (u_tick s) -> 0 <= u_tmo s <= 31 -> 
  let s' := fst (stage1 c g s) in
  (u_chg s' = u_chg s /\ u_tmo s' = Z.max 0 (u_tmo s - minutes (u_tick s) 1)) \/ (u_chg s' = true /\ 30 <= u_tmo s' <= 31).
Proof.
  intros c g s HB HT. cbv zeta. unfold stage1. rewrite !wb_fst. cbv zeta.
  pose proof (touch_presses c (g 0%nat) s) as [K0 T0]. set (s1 := fst (presses c (g 0%nat) s)) in *.
  cbn [u_tick set_tick]. rewrite K0. rewrite land31 by (apply Z.mod_pos_bound; lia). rewrite tick_mod by exact HB.
  assert (M : minutes (u_tick s) 1 = if (u_tick s + 1) mod 32 =? 0 then 1 else 0).
  { unfold minutes. red in HB. destruct (Z.eqb_spec ((u_tick s + 1) mod 32) 0); pose proof (Z.mod_pos_bound (u_tick s) 32 ltac:(lia)).
    - symmetry. apply Z.div_unique with (r := 0); [lia|]. pose proof (Z.div_mod (u_tick s) 32 ltac:(lia)). pose proof (Z.div_mod (u_tick s + 1) 32 ltac:(lia)). lia.
    - apply Z.div_small. pose proof (Z.div_mod (u_tick s) 32 ltac:(lia)).
      assert (u_tick s mod 32 <> 31). { intro E. apply n. rewrite <- Z.add_mod_idemp_l, E by lia. reflexivity. } lia. }
  rewrite M. clear M.
  set (s2 := set_tick s1 _).
  assert (T2 : (u_chg s2 = u_chg s /\ u_tmo s2 = u_tmo s) \/ (u_chg s2 = true /\ u_tmo s2 = 31)) by exact T0.
  assert (F : forall x, touch x (fst (presses c (g 2%nat) x))) by (intro; apply touch_presses).
  destruct ((u_tick s + 1) mod 32 =? 0).
  - rewrite wb_fst. cbn [fst tell].
    pose proof (touch_presses c (g 1%nat) s2) as [_ T3]. set (s3 := fst (presses c (g 1%nat) s2)) in *.
    set (s4 := if 0 =? u_tmo s2 then _ else _). destruct (F s4) as [_ T5]. set (s5 := fst (presses c (g 2%nat) s4)) in *.
    assert (U30 : u8 (31 - 1) = 30) by reflexivity.
    assert (H4 : (u_chg s4 = u_chg s /\ u_tmo s4 = Z.max 0 (u_tmo s - 1)) \/ (u_chg s4 = true /\ 30 <= u_tmo s4 <= 31)).
    { unfold s4. destruct (Z.eqb_spec 0 (u_tmo s2)) as [E|E].
      - destruct T3 as [[A B]|[A B]]; [|right; split; [assumption|lia]].
        destruct T2 as [[C D]|[C D]]; [|lia]. left. split; [congruence|lia].
      - destruct (Z.eqb_spec (u_tmo s3) (u_tmo s2)) as [E2|E2]; cbn [u_chg u_tmo set_tmo].
        + destruct T3 as [[A B]|[A B]]; destruct T2 as [[C D]|[C D]]; try (right; split; [congruence|]; rewrite ?E2 in *; rewrite ?D, <- ?E2, ?B in *; lia).
          left. split; [congruence|]. rewrite u8_id by (red; lia). lia.
        + destruct T3 as [[A B]|[A B]]; [congruence|]. right. split; [assumption|lia]. }
    destruct T5 as [[A B]|[A B]]; [|right; split; [assumption|lia]]. rewrite A, B. exact H4.
  - cbn [fst tell]. destruct (F s2) as [_ T5]. set (s5 := fst (presses c (g 2%nat) s2)) in *.
    destruct T5 as [[A B]|[A B]]; [|right; split; [assumption|lia]]. rewrite A, B.
    destruct T2 as [[C D]|[C D]]; [left; split; [assumption|lia]|right; split; [assumption|lia]].
Qed.

(** Between reads the flag and the countdown agree. *)
Definition settled (s : UI) := byte (u_tick s) /\ 0 <= u_tmo s <= 31 /\ (u_chg s = true -> u_tmo s = 31).
Lemma read_countdown : forall c g i s, settled s ->
  let '((s', _), r) := ui_read c g i s in
  settled s' /\ u_tick s' = u8 (u_tick s + 1) /\
  (r = true -> 30 <= u_tmo s') /\
  (r = false -> g 17%nat = 0%nat -> u_tmo s' = Z.max 0 (u_tmo s - minutes (u_tick s) 1)).
Proof.
  intros c g i s (HB & HT & HC). rewrite ui_read_body. cbv zeta. set (m := body c g i s).
  pose proof (stage1_countdown c g s HB HT) as H1. cbv zeta in H1.
  assert (HM : touch (fst (stage1 c g s)) (fst m)).
  { unfold m, body. rewrite wb_fst. cbv zeta. apply touch_tail. }
  destruct HM as [KM TM]. rewrite stage1_tick in KM. set (s1 := fst (stage1 c g s)) in *.
  assert (M01 : 0 <= minutes (u_tick s) 1 <= 1).
  { unfold minutes. pose proof (Z.mod_pos_bound (u_tick s) 32 ltac:(lia)). split; [apply Z.div_pos; lia|]. apply Z.div_le_upper_bound; lia. }
  pose proof (touch_presses c (g 17%nat) (fst m)) as [KP TP].
  split; [|split; [|split]].
  - unfold settled. cbn [u_tick u_chg u_tmo set_chg]. rewrite KP, KM. repeat split.
    + apply Z.mod_pos_bound; lia. + apply Z.mod_pos_bound; lia.
    + destruct TP as [[A B]|[A B]]; rewrite B; [|lia]. destruct TM as [[C D]|[C D]]; rewrite D; [|lia]. destruct H1 as [[E F]|[E F]]; lia.
    + destruct TP as [[A B]|[A B]]; rewrite B; [|lia]. destruct TM as [[C D]|[C D]]; rewrite D; [|lia]. destruct H1 as [[E F]|[E F]]; lia.
    + discriminate.
  - cbn [u_tick set_chg]. congruence.
  - intro HR. cbn [u_tmo set_chg]. destruct TP as [[A B]|[A B]]; rewrite B; [|lia]. destruct TM as [[C D]|[C D]]; rewrite D; [|lia].
    destruct H1 as [[E F]|[E F]]; [|lia]. assert (u_chg s = true) by congruence. specialize (HC H). lia.
  - intros HR HG. rewrite HG. cbn [presses fst u_tmo set_chg]. destruct TM as [[C D]|[C D]]; [|congruence]. rewrite D.
    destruct H1 as [[E F]|[E F]]; [exact F|congruence].
Qed.

(** ** Runs *)
Fixpoint ui_run (c : Cfg) (s : UI) (es : list uev) : UI * list (option bool) :=
  match es with [] => (s, []) | e :: r => let '(s1, _, o) := ui_step c s e in let (s2, os) := ui_run c s1 r in (s2, o :: os) end.
Lemma ui_run_app : forall c a b s, ui_run c s (a ++ b) = let (s1, o1) := ui_run c s a in let (s2, o2) := ui_run c s1 b in (s2, o1 ++ o2).
Proof.
  intros c a. induction a as [|e r IH]; intros b s; cbn [app ui_run]. { destruct (ui_run c s b); reflexivity. }
  destruct (ui_step c s e) as [[s1 t] o]. rewrite IH. destruct (ui_run c s1 r). destruct (ui_run c u b). reflexivity.
Qed.
Lemma settled_touch : forall s s', settled s -> touch s s' -> settled s'.
Proof.
  intros s s' (A & B & C) [K [[D E]|[D E]]]; unfold settled; rewrite K, E; (split; [exact A|]).
  - split; [exact B|]. rewrite D. exact C.
  - split; [lia|reflexivity].
Qed.
Lemma settled_step : forall c s e, settled s -> settled (fst (fst (ui_step c s e))).
Proof.
  intros c s e H. destruct e; cbn [ui_step].
  - pose proof (read_countdown c g i s H) as R. destruct (ui_read c g i s) as [[s' t] r]. apply R.
  - pose proof (touch_press c s) as T. destruct (press c s). apply (settled_touch s); assumption.
  - pose proof (touch_warm c b s) as T. destruct (warmFromUI c b s). apply (settled_touch s); assumption.
  - pose proof (touch_bake c b s) as T. destruct (bakeFromUI c b s). apply (settled_touch s); assumption.
  - exact H. - exact H. - exact H.
Qed.
Lemma settled_run : forall c es s, settled s -> settled (fst (ui_run c s es)).
Proof.
  intros c es. induction es as [|e r IH]; intros s H; cbn [ui_run]; [exact H|].
  pose proof (settled_step c s e H). destruct (ui_step c s e) as [[s1 t] o]. specialize (IH s1 H0). destruct (ui_run c s1 r). exact IH.
Qed.
Lemma settled0 : settled UI0.
Proof. unfold settled. cbn. repeat split; try lia; discriminate. Qed.

(** Nobody touches the unit: no presses or manual changes, and no read() reports activity. *)
Definition hands_off (e : uev) (o : option bool) : Prop :=
  match e with
  | URead g _ => g 17%nat = 0%nat /\ o = Some false
  | UMinute | UOccMinute | USetMode _ => True
  | _ => False
  end.
Definition isRead (e : uev) : bool := match e with URead _ _ => true | _ => false end.
Definition reads (es : list uev) : Z := Zlen (filter isRead es).
Lemma minutes_add : forall k n, byte k -> 0 <= n -> minutes k 1 + minutes (u8 (k + 1)) n = minutes k (n + 1).
Proof.
  intros k n HB Hn. unfold minutes. rewrite tick_mod by exact HB. pose proof (Z.mod_pos_bound k 32 ltac:(lia)).
  destruct (Z.eq_dec (k mod 32) 31) as [E|E].
  - rewrite <- Z.add_mod_idemp_l, E by lia. change ((31 + 1) mod 32) with 0. change ((31 + 1) / 32) with 1.
    replace (31 + (n + 1)) with (n + 1 * 32) by lia. rewrite Z.div_add by lia. rewrite Z.add_0_l. lia.
  - rewrite <- (Z.add_mod_idemp_l k) by lia. rewrite (Z.mod_small (k mod 32 + 1)) by lia. rewrite (Z.div_small (k mod 32 + 1)) by lia.
    rewrite Z.add_0_l. f_equal. lia.
Qed.
Lemma minutes_nn : forall k n, 0 <= n -> 0 <= minutes k n.
Proof. intros. unfold minutes. pose proof (Z.mod_pos_bound k 32 ltac:(lia)). apply Z.div_pos; lia. Qed.

Lemma countdown_run : forall c es s, settled s -> Forall2 hands_off es (snd (ui_run c s es)) ->
  u_tmo (fst (ui_run c s es)) = Z.max 0 (u_tmo s - minutes (u_tick s) (reads es)).
Proof.
  intros c es. induction es as [|e r IH]; intros s H F; cbn [ui_run] in *.
  - cbn [fst]. change (reads []) with 0. destruct H as (HB & HT & _). unfold minutes. rewrite Z.add_0_r.
    rewrite Z.div_small by (apply Z.mod_pos_bound; lia). lia.
  - pose proof (settled_step c s e H) as HS. destruct (ui_step c s e) as [[s1 t] o] eqn:E. cbn [fst] in HS.
    destruct (ui_run c s1 r) as [s2 os] eqn:E2. cbn [fst snd] in *. inversion F as [|? ? ? ? HO HF]; subst.
    specialize (IH s1 HS). rewrite E2 in IH. specialize (IH HF). cbn [fst] in IH. rewrite IH. clear IH.
    assert (RN : 0 <= reads r) by apply Zlen_nonneg.
    destruct e; cbn [hands_off] in HO; try contradiction; cbn [ui_step] in E.
    + pose proof (read_countdown c g i s H) as R. destruct (ui_read c g i s) as [[s' t'] r']. inversion E; subst.
      destruct HO as [HG HO]. inversion HO; subst. destruct R as (_ & K & _ & R). specialize (R eq_refl HG). rewrite R, K.
      change (reads (URead g i :: r)) with (Zlen (URead g i :: filter isRead r)). rewrite Zlen_cons. change (Zlen (filter isRead r)) with (reads r).
      rewrite (Z.add_comm 1 (reads r)), <- minutes_add by (try exact RN; apply H).
      pose proof (minutes_nn (u8 (u_tick s + 1)) (reads r) RN). lia.
    + inversion E; subst. reflexivity.
    + inversion E; subst. reflexivity.
    + inversion E; subst. reflexivity.
Qed.

(** C96 (1): after any history from power-up, and then any period in which nobody touches the unit, the minutes
    left are those there were less the minutes of ticking (32 reads each), never below zero. *)
Theorem ui_countdown : forall c es0 es s s' os, fst (ui_run c UI0 es0) = s -> ui_run c s es = (s', os) -> Forall2 hands_off es os ->
  u_tmo s' = Z.max 0 (u_tmo s - (u_tick s mod 32 + reads es) / 32).
Proof.
  intros c es0 es s s' os H0 H1 H2. assert (HS : settled s) by (subst s; apply settled_run, settled0).
  pose proof (countdown_run c es s HS) as R. rewrite H1 in R. exact (R H2).
Qed.
(** C96 (2): in terms of the API: after a read that reported activity, recentUIControlUse() holds for at least the next 928 untouched reads (31 minutes
    less the time to the next minute tick) and has lapsed after 992; veryRecentUIControlUse() for at least 32 and not after 96. *)
Theorem ui_recent_use : forall c es0 g i es s s' os,
  ui_run c UI0 (es0 ++ [URead g i]) = (s, os) -> last os None = Some true ->
  forall os', ui_run c s es = (s', os') -> Forall2 hands_off es os' ->
  (reads es <= 928 -> recent s' = true) /\ (992 <= reads es -> recent s' = false) /\
  (reads es <= 32 -> veryRecent s' = true) /\ (96 <= reads es -> veryRecent s' = false).
Proof.
  intros c es0 g i es s s' os H0 HL os' H1 H2.
  assert (HS : settled s) by (pose proof (settled_run c (es0 ++ [URead g i]) UI0 settled0) as X; rewrite H0 in X; exact X).
  assert (HT : 30 <= u_tmo s <= 31).
  { rewrite ui_run_app in H0. pose proof (settled_run c es0 UI0 settled0) as X. destruct (ui_run c UI0 es0) as [s1 o1]. cbn [fst] in X.
    cbn [ui_run ui_step] in H0. pose proof (read_countdown c g i s1 X) as R. destruct (ui_read c g i s1) as [[s2 t2] r2].
    inversion H0; subst. rewrite last_last in HL. inversion HL; subst. destruct R as ((_ & B & _) & _ & R & _). specialize (R eq_refl). lia. }
  pose proof (countdown_run c es s HS) as R. rewrite H1 in R. specialize (R H2). cbn [fst] in R. clear H0 H1 H2.
  assert (RN : 0 <= reads es) by apply Zlen_nonneg. unfold recent, veryRecent, RECENT, VERY_RECENT.
  unfold minutes in R. pose proof (Z.mod_pos_bound (u_tick s) 32 ltac:(lia)).
  set (q := u_tick s mod 32 + reads es) in *. pose proof (Z.div_mod q 32 ltac:(lia)). pose proof (Z.mod_pos_bound q 32 ltac:(lia)).
  repeat split; intro HN.
  - assert (q / 32 <= 29) by lia. apply Bool.negb_true_iff, Z.eqb_neq. lia.
  - assert (31 <= q / 32) by lia. apply Bool.negb_false_iff, Z.eqb_eq. lia.
  - assert (q / 32 <= 1) by lia. apply Z.geb_le. lia.
  - assert (3 <= q / 32) by lia. rewrite Z.geb_leb. apply Z.leb_gt. lia.
Qed.
