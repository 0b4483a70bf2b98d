(** Properties of the QM-1 voice sensor, the relay valve and the motor tester
    (C159-C161). *)
From Verif Require Import Base SmallModel.

(** ** Voice sensor.  Specification over the history, newest first: activations
    since the last poll in a minute divisible by 4, and what the last poll
    reported. *)
Fixpoint acts (h : list QmEv) : Z :=
  match h with [] => 0 | QIntr :: h => 1 + acts h | QRead m :: h => if m mod 4 =? 0 then 0 else acts h end.
Fixpoint reported (h : list QmEv) : Z :=
  match h with [] => 0 | QIntr :: h => reported h | QRead _ :: h => Z.min 255 (acts h) end.
(** Activations at which occupancy is to be signalled: from the fourth on (up to
    the 255th). *)
Fixpoint signals (h : list QmEv) : Z :=
  match h with [] => 0 | QIntr :: h => signals h + (if (4 <=? acts h + 1) && (acts h + 1 <=? 255) then 1 else 0) | QRead _ :: h => signals h end.

Lemma acts_nonneg h : 0 <= acts h.
Proof. induction h as [|[|m] h IH]; cbn [acts]; [lia | lia |]. destruct (m mod 4 =? 0); lia. Qed.
Lemma land3 m : Z.land m 3 = m mod 4.
Proof. change 3 with (Z.ones 2). rewrite Z.land_ones by lia. reflexivity. Qed.

Theorem voice_history_partial : forall h, exists s, qm_run true h = Some s /\
  q_count s = Z.min 255 (acts h) /\ q_value s = reported h /\
  q_det s = (4 <=? acts h) || (4 <=? reported h) /\ q_calls s = signals h /\ q_cb s = true.
Proof.
  induction h as [|e h (s & E & H1 & H2 & H3 & H4 & H5)]; [exists (qm_init true); repeat split|].
  cbn [qm_run]. rewrite E. cbn [bind]. pose proof (acts_nonneg h) as HN. destruct e as [|m]; cbn [qm_step acts reported signals].
  - unfold qm_intr. rewrite H1, H5. destruct (Z.min 255 (acts h) <? 255) eqn:E1.
    + rewrite u8_id by (red; lia). replace (Z.min 255 (acts h)) with (acts h) by lia. destruct (4 <=? acts h + 1) eqn:E4.
      * eexists. split; [reflexivity|]. cbn [q_count q_det q_value q_calls q_cb]. replace (acts h + 1 <=? 255) with true by lia. replace (4 <=? 1 + acts h) with true by lia.
        split; [lia|]. split; [exact H2|]. split; [reflexivity|]. split; [cbn [andb]; lia|reflexivity].
      * eexists. split; [reflexivity|]. cbn [q_count q_det q_value q_calls q_cb andb]. split; [lia|]. split; [exact H2|].
        replace (4 <=? 1 + acts h) with false by lia. replace (4 <=? acts h) with false in H3 by lia. split; [exact H3|]. split; [lia|reflexivity].
    + exists s. split; [reflexivity|]. split; [lia|]. split; [exact H2|]. split; [rewrite H3; replace (4 <=? acts h) with true by lia; replace (4 <=? 1 + acts h) with true by lia; reflexivity|].
      replace (acts h + 1 <=? 255) with false by lia. rewrite andb_false_r. split; [lia | exact H5].
  - eexists. split; [reflexivity|]. unfold qm_read. cbn [q_count q_det q_value q_calls q_cb]. rewrite land3, H1. destruct (m mod 4 =? 0) eqn:EM.
    + split; [lia|]. split; [reflexivity|]. split; [|split; [exact H4|exact H5]]. cbn [orb]. reflexivity.
    + split; [lia|]. split; [reflexivity|]. split; [|split; [exact H4|exact H5]]. destruct (4 <=? acts h) eqn:EA; cbn [orb]; lia.
Qed.
(** So a poll returns the activations since the last clearing poll, and voice
    is detected if there were 4 or more then or since. *)
Theorem voice_poll : forall h m, exists s, qm_run true (QRead m :: h) = Some s /\ q_value s = Z.min 255 (acts h) /\ q_det s = (4 <=? acts h).
Proof.
  intros h m. destruct (voice_history_partial (QRead m :: h)) as (s & E & H1 & H2 & H3 & H4 & H5). exists s. split; [exact E|]. split; [rewrite H2; reflexivity|].
  rewrite H3. cbn [acts reported]. destruct (m mod 4 =? 0); destruct (4 <=? acts h) eqn:EA; cbn [orb]; lia.
Qed.
Example voice_case : exists s, qm_run true [QIntr; QRead 8; QIntr; QIntr; QRead 7; QIntr; QIntr; QIntr] = Some s /\ q_value s = 5 /\ q_det s = true /\ q_calls s = 2 /\ q_count s = 1.
Proof. eexists. split; [reflexivity|]. repeat split. Qed.
(** "Activations since last poll" it is not: polls in other minutes report the
    same activations again. *)
Theorem voice_repeats_refuted : exists s1 s2, qm_run true [QRead 1; QIntr; QIntr; QIntr; QIntr] = Some s1 /\ qm_run true [QRead 2; QRead 1; QIntr; QIntr; QIntr; QIntr] = Some s2 /\
  q_value s1 = 4 /\ q_value s2 = 4 /\ q_det s2 = true.
Proof. eexists. eexists. split; [reflexivity|]. split; [reflexivity|]. repeat split. Qed.
(** With no callback set, as allowed, the fourth activation calls NULL. *)
Theorem voice_null_refuted : qm_run false [QIntr; QIntr; QIntr; QIntr] = None /\ qm_run false [QIntr; QIntr; QIntr] <> None.
Proof. split; [reflexivity | discriminate]. Qed.

(** ** Relay.  The last value accepted. *)
Fixpoint accepted (l : list RelayEv) (v : Z) : Z :=
  match l with [] => v | RSet x :: l => accepted l (if x <=? 100 then x else v) | RSetup :: l => accepted l v end.
Definition is_set (e : RelayEv) : bool := match e with RSet _ => true | RSetup => false end.

Lemma relay_sets (ah : bool) : forall l s, forallb is_set l = true -> r_pin s = Some (if ah then calcRelayState (r_value s) else negb (calcRelayState (r_value s))) ->
  let s' := relay_run ah l s in r_value s' = accepted l (r_value s) /\ r_pin s' = Some (if ah then calcRelayState (r_value s') else negb (calcRelayState (r_value s'))).
Proof.
  induction l as [|e l IH]; intros s HL HP; [split; [reflexivity|exact HP]|]. cbn [forallb] in HL. apply andb_true_iff in HL as [HE HL]. destruct e as [|x]; [discriminate|].
  cbn [relay_run accepted]. unfold relay_step. destruct (100 <? x) eqn:EX; cbn [fst].
  - replace (x <=? 100) with false by lia. apply IH; assumption.
  - replace (x <=? 100) with true by lia. rewrite HP. apply (IH (mkRelay x (Some (if ah then calcRelayState x else negb (calcRelayState x)))) HL). reflexivity.
Qed.
(** Once set up (at value 0), after any calls of set(), the value is the last
    one in range, the relay is on exactly if it is 50 or more, and then exactly
    the valve counts as open and calls for heat. *)
Theorem relay_follows : forall (ah : bool) l v0, forallb is_set l = true -> v0 < 50 ->
  let s := relay_run ah (RSetup :: l) (mkRelay v0 None) in
  r_value s = accepted l v0 /\ (r_pin s = Some ah <-> 50 <= r_value s) /\ (relay_calling s = true <-> 50 <= r_value s) /\ relay_open s = relay_calling s.
Proof.
  intros ah l v0 HL HV. cbv zeta. cbn [relay_run]. unfold relay_step at 1. cbn [fst r_value].
  pose proof (relay_sets ah l (mkRelay v0 (Some (negb ah))) HL) as H. cbv zeta in H. cbn [r_value r_pin] in H.
  destruct H as [H1 H2]; [unfold calcRelayState, SAFER_OPEN; replace (50 <=? v0) with false by lia; destruct ah; reflexivity|].
  set (s := relay_run ah l _) in *. split; [exact H1|]. rewrite H2. unfold relay_calling, relay_open, calcRelayState, SAFER_OPEN.
  destruct (50 <=? r_value s) eqn:E; cbn [andb negb]; (split; [|split; [|reflexivity]]); split; intros H; try reflexivity; try discriminate; try lia; destruct ah; try reflexivity; discriminate.
Qed.
(** set() accepts exactly 0..100 and changes nothing otherwise. *)
Theorem relay_set_iff : forall ah v s, (snd (relay_step ah (RSet v) s) = true <-> v <= 100) /\ (100 < v -> fst (relay_step ah (RSet v) s) = s).
Proof.
  intros ah v s. unfold relay_step. destruct (100 <? v) eqn:E; cbn [fst snd]; split; try (split; intros; try discriminate; try reflexivity; lia); intros; try reflexivity; lia.
Qed.
Example relay_case : relay_run false [RSetup; RSet 60; RSet 200] (mkRelay 0 None) = mkRelay 60 (Some false) /\ accepted [RSet 60; RSet 200] 0 = 60.
Proof. split; reflexivity. Qed.
(** A second setup() turns the relay off and leaves the valve calling for heat. *)
Theorem relay_setup_again_refuted : forall ah, let s := relay_run ah [RSetup; RSet 60; RSetup] (mkRelay 0 None) in relay_calling s = true /\ r_pin s = Some (negb ah).
Proof. intros []; split; reflexivity. Qed.

(** ** Motor tester. *)
Fixpoint hits_of (l : list bool) : Z := match l with [] => 0 | h :: l => (if h then 1 else 0) + hits_of l end.
(** The direction of each poll, and off after it: closing first, reversed after
    each poll that hit an end stop. *)
Fixpoint directions (opening : bool) (l : list bool) : list Motor :=
  match l with [] => [] | h :: l => (if opening then MOpening else MClosing) :: MOff :: directions (if h then negb opening else opening) l end.

Lemma tester_gen : forall l s, 0 <= t_count s -> snd (tester_polls l s) = directions (if t_hit s then negb (t_state s) else t_state s) l /\
  t_count (fst (tester_polls l s)) mod 2 ^ 32 = (t_count s + hits_of l) mod 2 ^ 32 /\ (t_count s < 2 ^ 32 -> 0 <= t_count (fst (tester_polls l s)) < 2 ^ 32).
Proof.
  induction l as [|h l IH]; intros s HC.
  - cbn [tester_polls fst snd directions hits_of]. split; [reflexivity|]. split; [f_equal; lia | lia].
  - cbn [tester_polls]. unfold tester_poll, tester_run. cbn [t_state t_hit t_count].
    set (s1 := mkTester _ h _). assert (E1 : t_hit s1 = h) by reflexivity. assert (E2 : t_state s1 = if t_hit s then negb (t_state s) else t_state s) by reflexivity.
    assert (E3 : t_count s1 = if h then (t_count s + 1) mod 2 ^ 32 else t_count s) by reflexivity. clearbody s1.
    assert (H0 : 0 <= t_count s1) by (rewrite E3; destruct h; [apply Z.mod_pos_bound; lia | exact HC]).
    destruct (IH s1 H0) as (A1 & A2 & A3). destruct (tester_polls l s1) as [s2 ms] eqn:EP. cbn [fst snd] in *. cbn [directions app hits_of]. rewrite A1, E1, E2. split; [reflexivity|]. split.
    + rewrite A2, E3. destruct h; [|f_equal; lia]. rewrite Zplus_mod_idemp_l. f_equal. lia.
    + intros HB. apply A3. rewrite E3. destruct h; [apply Z.mod_pos_bound; lia | exact HB].
Qed.
(** Whatever the driver signals, the motor goes to and fro from one end stop to
    the other, off after every poll, and the counter counts the end stops. *)
Theorem tester_alternates : forall hits, let r := tester_polls hits tester_init in
  snd r = directions false hits /\ t_count (fst r) = hits_of hits mod 2 ^ 32.
Proof.
  intros hits. cbv zeta. destruct (tester_gen hits tester_init ltac:(cbn; lia)) as (H1 & H2 & H3). split; [exact H1|].
  cbn [tester_init t_count] in *. rewrite Z.add_0_l in H2. rewrite <- H2. symmetry. apply Z.mod_small. apply H3. lia.
Qed.
Example tester_case : tester_polls [false; true; false; true; true] tester_init = (mkTester false true 3, [MClosing; MOff; MClosing; MOff; MOpening; MOff; MOpening; MOff; MClosing; MOff]).
Proof. reflexivity. Qed.
