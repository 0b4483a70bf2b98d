(** C59: with a static room the valve does not go on calling for heat part-open. *)
From Verif Require Import Base TempModel TempProps ValveModel ValveProps ValveSettle ValveFrost.

Section Hover.
Variables (a : bool) (i : VIn) (g : bool).
Hypothesis Hi : in_ok i.
Notation M := (maxPCOpen i).
Notation r := (computeRawTemp16 i).
Notation isr := (fun x => x = r).

Lemma mean_const ts : length ts = 16%nat -> Forall isr ts -> r <= smallIntMean ts <= r + 1.
Proof. intros HL HF. apply mean_between_any; [exact HL|]. eapply Forall_impl; [|exact HF]. cbv beta. intros. lia. Qed.
Lemma nth_const ts n : length ts = 16%nat -> Forall isr ts -> (n < 16)%nat -> nth n ts 0 = r.
Proof. intros HL HF Hn. rewrite Forall_forall in HF. apply (HF (nth n ts 0)). apply nth_In. lia. Qed.
Lemma filter_decays b s v p : live s -> recent isr s ->
  isFiltering (fst (tick b a s v i p)) = Z.max 0 (isFiltering s - 1) /\
  forall v0, isFiltering (tick_pre s v0 i) = Z.max 0 (isFiltering s - 1).
Proof.
  intros (_ & _ & _ & HL) HR. 
  assert (HQ : forall v0, isFiltering (tick_pre s v0 i) = Z.max 0 (isFiltering s - 1)); [|split; [apply HQ|exact HQ]].
  intros v0. pose proof (recent_pre isr s v0 i HR eq_refl) as [H16 HF]. rewrite pre_temps in H16, HF.
  pose proof (mean_const _ H16 HF) as HM. pose proof (nth_const _ 0 H16 HF ltac:(lia)) as H0. pose proof (nth_const _ 5 H16 HF ltac:(lia)) as H5.
  unfold tick_pre. cbn [isFiltering]. set (ts := r :: _) in *. clearbody ts.
  replace (fnabs (rawDelta5 ts) >? 8) with false by (unfold fnabs, rawDelta5, temp_at; rewrite H0, H5, Z.sub_diag; reflexivity).
  replace (fnabsdiff (smallIntMean ts) r <=? MAX_TEMP_JUMP_C16) with true by (unfold fnabsdiff, MAX_TEMP_JUMP_C16; destruct (smallIntMean ts <? r) eqn:?; lia).
  destruct (isFiltering s =? 0) eqn:E0; cbn [negb]; [rewrite E0; lia|].
  destruct (isFiltering s >? 1) eqn:E1; [destruct (isFiltering s - 1 =? 0) eqn:?; lia|]. cbn. lia.
Qed.

(** The decision once settled. *)
Definition hv_below : bool := refTempC16 i - Z.shiftl (targetTempC i) 4 - centreOffsetC16 <? 0.
Definition settled (s : VState) : Prop := live s /\ recent isr s /\ isFiltering s = 0.
(** Ticks still needed before coming to rest. *)
Definition adjC := i8 (Z.shiftr (refTempC16 i) 4).
Definition hold : bool :=
  let e := refTempC16 i - Z.shiftl (targetTempC i) 4 - centreOffsetC16 in
  let worf := widenDeadband i in
  let wb := e <? - (if worf then 2 * halfNormalBand else halfNormalBand) in
  let slewF := fnmin TRV_SLEW_FAST (u8 (if e <? 0 then Z.shiftr (- e) (if worf then 3 else 2) else Z.shiftr e (if worf then 3 else 2))) in
  negb (negb (g || in_glacial i) && (fastResponse i || wb) && (slewF >? 0)) && ((0 =? slewF) || negb wb).
Definition steps (s : VState) (v : Z) : Z :=
  if adjC <? fnmax (targetTempC i - proportionalRange) MIN_TARGET_C then to_open true M s v
  else if adjC >? fnmin (u8 (fnmax (targetTempC i) (maxTargetTempC i) + proportionalRange)) MAX_TARGET_C then to_close s v
  else if in_bake i then (if v =? M then 0 else 1)
  else if hv_below then (if (v >=? M) || hold && (v <? SAFER_OPEN) then 0 else Z.max 0 (turndownM s - 1) + (M - v))
  else (if v <? SAFER_OPEN then 0 else Z.max 0 (turnupM s - 1) + (v - 49)).
Lemma steps_zero s v : steps s v <= 0 -> 0 <= v -> v < SAFER_OPEN \/ M <= v.
Proof.
  unfold steps, SAFER_OPEN. intros H Hv.
  destruct (adjC <? _). { unfold to_open in H. destruct (v =? M) eqn:E; [lia|]. cbn [andb] in H. destruct (v <? M) eqn:E2; lia. }
  destruct (adjC >? _). { unfold to_close in H. destruct (v =? 0) eqn:E; lia. }
  destruct (in_bake i). { destruct (v =? M) eqn:E; lia. }
  destruct hv_below; [|destruct (v <? 50) eqn:E; lia].
  destruct ((v >=? M) || _) eqn:E; [|lia]. destruct hold; cbn [andb] in E; lia.
Qed.
Lemma steps_bound s v : live s -> 0 <= v <= 100 -> steps s v <= 110.
Proof.
  intros (_ & H1 & H2 & _) Hv. unfold in_ok in Hi. unfold steps, SAFER_OPEN, to_open, to_close. cbn [andb].
  repeat match goal with |- context [if ?c then _ else _] => destruct c; try lia end.
Qed.

Lemma settled_tick s v p : alwaysGlacial s = g -> settled s -> 0 <= v <= 100 ->
  steps (fst (tick false a s v i p)) (snd (tick false a s v i p)) <= Z.max 0 (steps s v - 1).
Proof.
  intros HGl (HL & HR & HF) Hv.
  pose proof (fun v0 => filter_decays false s v0 None HL HR) as HFD.
  set (v0 := match p with None => v | Some (gg, _) => gg end).
  assert (HF1 : isFiltering (tick_pre s v0 i) = 0). { destruct (HFD v) as [_ HQ]. rewrite HQ, HF. reflexivity. }
  pose proof (recent_pre isr s v0 i HR eq_refl) as [H16 HFo].
  assert (HD0 : rawDelta (temps (tick_pre s v0 i)) = 0).
  { unfold rawDelta, temp_at. rewrite !(nth_const _ _ H16 HFo) by lia. lia. }
  destruct HL as (_ & Htd & Htu & _). unfold in_ok in Hi.
  unfold tick. cbv zeta. fold v0. cbn [fst snd]. unfold steps, to_open, to_close. cbn [turndownM turnupM andb].
  set (s1 := tick_pre s v0 i) in *.
  assert (Etd : turndownM s1 = Z.max 0 (turndownM s - 1)) by (unfold s1, tick_pre; cbn [turndownM]; destruct (turndownM s >? 0) eqn:?; lia).
  assert (Etu : turnupM s1 = Z.max 0 (turnupM s - 1)) by (unfold s1, tick_pre; cbn [turnupM]; destruct (turnupM s >? 0) eqn:?; lia).
  assert (EG : alwaysGlacial s1 = g) by exact HGl. clearbody s1.
  unfold computeRequired. cbv zeta. rewrite HF1. change (negb (0 =? 0)) with false. cbv iota. rewrite HD0, EG. fold adjC.
  unfold dontTurnup, dontTurndown, hv_below, hold. cbv zeta. rewrite !orb_false_r.
  set (gl := g || in_glacial i). set (e := refTempC16 i - _ - centreOffsetC16).
  pose proof (slew_range e (if widenDeadband i then 3 else 2)) as HS.
  set (slew := fnmin TRV_SLEW_FAST (u8 (if e <? 0 then _ else _))) in *. clearbody slew gl.
  unfold SAFER_OPEN, REOPEN_DELAY_M, RECLOSE_DELAY_M.
  assert (HU1 : v < M -> u8 (v + 1) = v + 1) by (intros; apply u8_id; unfold byte; lia).
  assert (HU2 : v <> 0 -> u8 (v - 1) = v - 1) by (intros; apply u8_id; unfold byte; lia).
  assert (HC : forall k, 0 <= k -> 0 <= u8 (fnconstrain (v - k) 0 (50 - 1)) <= 49).
  { intros k Hk. pose proof (constrain_le v k ltac:(lia) Hk) as HC. unfold SAFER_OPEN in HC. rewrite u8_id by (unfold byte; lia). lia. }
  destruct (adjC <? _).
  { destruct (negb (0 =? turndownM s1) && negb (in_bake i)) eqn:EB.
    - rewrite Z.eqb_refl. cbn [negb andb]. destruct (v =? M) eqn:E; [lia|]. destruct (v <? M) eqn:E2; lia.
    - match goal with |- context [if ?c then u8 (v + 1) else M] => destruct c eqn:EM end.
      + rewrite HU1 by lia. replace (v + 1 =? v) with false by lia. cbn [negb andb]. replace (v + 1 >? v) with true by lia. cbn [negb].
        replace (v =? M) with false by lia. replace (v <? M) with true by lia. destruct (v + 1 =? M) eqn:?; [lia|]. replace (v + 1 <? M) with true by lia. lia.
      + destruct (M =? v) eqn:E; cbn [negb]; [replace (v =? M) with true by lia; lia|]. rewrite Z.eqb_refl. lia. }
  destruct (adjC >? _).
  { destruct (negb (0 =? turnupM s1)) eqn:EB.
    - rewrite Z.eqb_refl. cbn [negb andb]. destruct (v =? 0) eqn:E; lia.
    - destruct (0 =? v) eqn:E; cbn [negb]; [replace (v =? 0) with true by lia; lia|]. change (0 =? 0) with true. lia. }
  cbn [negb]. destruct (in_bake i).
  { destruct (M =? v) eqn:E; cbn [negb]; [replace (v =? M) with true by lia; lia|]. rewrite Z.eqb_refl. lia. }
  set (wb := e <? - _). set (waM := _ - _ >? _). clearbody waM.
  destruct (e <? 0) eqn:Ee.
  - destruct (negb (0 =? turndownM s1)) eqn:EB.
    { rewrite Z.eqb_refl. cbn [negb andb]. match goal with |- context [(v >=? M) || ?h] => destruct ((v >=? M) || h) end; lia. }
    destruct (v >=? M) eqn:EV. { rewrite Z.eqb_refl. cbn [negb andb orb]. rewrite EV. cbn [orb]. lia. }
    rewrite HU1 by lia.
    destruct (negb gl && (fastResponse i || wb) && (slew >? 0)) eqn:Efast.
    { cbn [negb andb orb]. replace (M =? v) with false by lia. cbn [negb andb]. replace (M >=? M) with true by lia. cbn [orb]. lia. }
    cbn [negb andb orb].
    replace (e >? halfNormalBand) with false by (unfold halfNormalBand; lia). rewrite andb_false_r. cbn [andb].
    change (0 >? 0) with false. change (0 <=? 0) with true. change (0 >=? 0) with true.
    replace (if wb then false else true) with (negb wb) by (destruct wb; reflexivity).
    destruct ((0 =? slew) || negb wb); cbn [andb].
    + rewrite andb_true_r. destruct (v >=? 50) eqn:E5; cbn [negb].
      * replace (v <? 50) with false by lia.
        destruct (a && negb gl).
        { replace (M =? v) with false by lia. cbn [negb andb]. replace (M >=? M) with true by lia. cbn [orb]. lia. }
        replace (v + 1 =? v) with false by lia. cbn [negb andb]. replace (v + 1 >? v) with true by lia. cbn [negb].
        replace (v + 1 <? 50) with false by lia. rewrite orb_false_r. destruct (v + 1 >=? M) eqn:?; lia.
      * rewrite Z.eqb_refl. cbn [negb andb]. rewrite EV. replace (v <? 50) with true by lia. cbn [orb]. lia.
    + rewrite andb_false_r. destruct (a && negb gl).
      { replace (M =? v) with false by lia. cbn [negb andb]. replace (M >=? M) with true by lia. cbn [orb]. lia. }
      replace (v + 1 =? v) with false by lia. cbn [negb andb]. replace (v + 1 >? v) with true by lia. cbn [negb].
      rewrite orb_false_r. destruct (v + 1 >=? M) eqn:?; lia.
  - destruct (negb (0 =? turnupM s1)) eqn:EB.
    { rewrite Z.eqb_refl. cbn [negb andb]. destruct (v <? 50) eqn:E; lia. }
    destruct (0 =? v) eqn:EV. { rewrite Z.eqb_refl. cbn [negb andb orb]. replace (v <? 50) with true by lia. lia. }
    rewrite HU2 by lia.
    destruct (negb gl && (fastResponse i || wb) && (slew >? 0)) eqn:Efast.
    { specialize (HC slew ltac:(lia)). set (n := u8 (fnconstrain (v - slew) 0 (50 - 1))) in *. clearbody n. destruct (n =? v) eqn:EN; cbn [negb]; [replace (v <? 50) with true by lia; lia|replace (n <? 50) with true by lia; lia]. }
    change (0 >? 0) with false. change (0 <? 0) with false. change (0 <=? 0) with true. change (0 >=? 0) with true. rewrite !andb_false_r. cbn [negb andb].
    match goal with |- context [if negb (v >=? 50) && ?h then _ else _] => destruct (negb (v >=? 50) && h) eqn:EH end.
    + rewrite Z.eqb_refl. cbn [negb andb]. destruct (v >=? 50) eqn:E5; [discriminate|]. replace (v <? 50) with true by lia. lia.
    + replace (v - 1 =? v) with false by lia. cbn [negb andb]. replace (v - 1 >? v) with false by lia. cbn [negb].
      destruct (v - 1 <? 50) eqn:?; destruct (v <? 50) eqn:?; lia.
Qed.
Lemma settled_step s v p : settled s -> settled (fst (tick false a s v i p)).
Proof.
  intros (HL & HR & HF). split; [apply tick_live, HL|]. split; [apply recent_tick; [exact HR|reflexivity]|].
  destruct (filter_decays false s v p HL HR) as [-> _]. lia.
Qed.
End Hover.

(** The same input for at least 190 ticks, from any state: the valve is then not calling
    for heat (under 50%), or it is as far open as permitted. *)
Theorem no_hovering_call_for_heat : forall a i s v l, in_ok i -> live s -> 0 <= v <= 100 ->
  Forall (fun j => j = i) (inputs l) -> (190 <= length l)%nat ->
  snd (trun false a (s, v) l) < 50 \/ maxPCOpen i <= snd (trun false a (s, v) l).
Proof.
  intros a i s v l Hi HL Hv Hl Hlen.
  assert (HIO : forall l, Forall (fun j => j = i) (inputs l) -> Forall in_ok (inputs l)) by (intros l' H; eapply Forall_impl; [|exact H]; intros j ->; exact Hi).
  assert (HA : forall l1 c, live (fst c) -> recent (fun x => x = computeRawTemp16 i) (fst c) -> Forall (fun j => j = i) (inputs l1) ->
    recent (fun x => x = computeRawTemp16 i) (fst (trun false a c l1)) /\
    isFiltering (fst (trun false a c l1)) <= Z.max 0 (isFiltering (fst c) - Z.of_nat (length l1))).
  { clear - Hi. induction l1 as [|x l1 IH]; intros c HL HR Hl; [cbn [trun fold_left length]; split; [exact HR|lia]|].
    apply Forall_cons_iff in Hl as [H1 H2]. rewrite trun_cons. cbn [length].
    assert (HF : isFiltering (fst (tick false a (fst c) (snd c) (fst x) (snd x))) = Z.max 0 (isFiltering (fst c) - 1)) by (rewrite H1; apply (filter_decays a i false (fst c) (snd c) (snd x) HL HR)).
    destruct (IH (tick false a (fst c) (snd c) (fst x) (snd x)) (tick_live _ _ _ _ _ _ HL)) as [R1 R2]; [|exact H2|split; [exact R1|lia]].
    apply recent_tick; [exact HR|]. rewrite H1. reflexivity. }
  assert (HB : forall l1 s v, settled i s -> 0 <= v <= 100 -> Forall (fun j => j = i) (inputs l1) ->
    steps i (alwaysGlacial s) (fst (trun false a (s, v) l1)) (snd (trun false a (s, v) l1)) <= Z.max 0 (steps i (alwaysGlacial s) s v - Z.of_nat (length l1))).
  { clear - Hi. induction l1 as [|x l1 IH]; intros s v HS Hv Hl; [cbn [trun fold_left length fst snd]; lia|].
    apply Forall_cons_iff in Hl as [H1 H2]. rewrite trun_cons. cbn [length fst snd].
    pose proof (settled_tick a i (alwaysGlacial s) Hi s v (snd x) eq_refl HS Hv) as HD. rewrite <- H1 in HD at 2 3.
    pose proof (settled_step a i s v (snd x) HS) as HS'. rewrite <- H1 in HS' at 2.
    pose proof (tick_pos false a s v (fst x) (snd x) Hv ltac:(rewrite H1; exact Hi)) as [HP _].
    assert (alwaysGlacial (fst (tick false a s v (fst x) (snd x))) = alwaysGlacial s) as HG by reflexivity.
    destruct (tick false a s v (fst x) (snd x)) as [s' v']. cbn [fst snd] in *. specialize (IH s' v' HS' HP H2). rewrite HG in IH. lia. }
  assert (exists l1 l2 l3, l = l1 ++ l2 ++ l3 /\ length l1 = 15%nat /\ length l2 = 64%nat) as (l1 & l2 & l3 & -> & L1 & L2).
  { exists (firstn 15 l), (firstn 64 (skipn 15 l)), (skipn 64 (skipn 15 l)). rewrite !firstn_skipn, !firstn_length, skipn_length. split; [reflexivity|lia]. }
  rewrite !app_length, L1, L2 in Hlen. unfold inputs in Hl. rewrite !map_app in Hl. apply Forall_app in Hl as [Hl1 Hl]. apply Forall_app in Hl as [Hl2 Hl3].
  rewrite !trun_app.
  pose proof (valve_position_in_range false a l1 s v Hv (HIO l1 Hl1)) as P1.
  pose proof (run_live false a l1 (s, v) HL) as L1'.
  assert (R1 : recent (fun x => x = computeRawTemp16 i) (fst (trun false a (s, v) l1))).
  { apply recent_run; [exact HL| |exact L1]. eapply Forall_impl; [|exact Hl1]. intros j ->. reflexivity. }
  destruct (trun false a (s, v) l1) as [s1 v1]. cbn [fst snd] in *.
  pose proof (valve_position_in_range false a l2 s1 v1 P1 (HIO l2 Hl2)) as P2.
  destruct (HA l2 (s1, v1) L1' R1 Hl2) as [R2 F2]. pose proof (run_live false a l2 (s1, v1) L1') as L2'.
  destruct (trun false a (s1, v1) l2) as [s2 v2]. cbn [fst snd] in *.
  assert (HS2 : settled i s2). { split; [exact L2'|]. split; [exact R2|]. destruct L1' as (_ & _ & _ & Q1). destruct L2' as (_ & _ & _ & Q2). lia. }
  pose proof (valve_position_in_range false a l3 s2 v2 P2 (HIO l3 Hl3)) as P3.
  pose proof (HB l3 s2 v2 HS2 P2 Hl3) as HZ. pose proof (steps_bound i (alwaysGlacial s2) Hi s2 v2 L2' P2) as HBd.
  apply (steps_zero i (alwaysGlacial s2) (fst (trun false a (s2, v2) l3))); lia.
Qed.
(** A valve stuck at 60% just under target: opens to the maximum; just over: drops to 49%. *)
Example no_hover_example : let s := mkVS false true 0 true 11 10 0 60 (repeat 300 16) in
  snd (trun false true (s, 60) (repeat (mkVIn 19 19 90 false false false false (19 * 16 + 8), None) 190)) = 90 /\
  snd (trun false true (s, 60) (repeat (mkVIn 19 19 90 false false false false (20 * 16), None) 190)) = 49 /\ live s.
Proof. split; [vm_compute; reflexivity|]. split; [vm_compute; reflexivity|]. unfold live. cbn. split; [reflexivity|lia]. Qed.
(** Binary operation does hover: within the target degree it never moves. *)
Theorem binary_hovers_refuted : exists i s v, in_ok i /\ live s /\ 0 <= v <= 100 /\
  forall n, snd (trun true true (s, v) (repeat (i, None) n)) = 60 /\ 60 < maxPCOpen i.
Proof.
  exists (mkVIn 19 19 90 false false false false (19 * 16 + 8)), (mkVS false true 0 true 0 0 0 60 (repeat 304 16)), 60.
  split; [unfold in_ok; cbn; lia|]. split; [unfold live; cbn; split; [reflexivity|lia]|]. split; [lia|]. intros n. split; [|cbn; lia].
  assert (HH : forall n, forall m, trun true true (mkVS false true 0 m 0 0 0 60 (repeat 304 16), 60) (repeat (mkVIn 19 19 90 false false false false (19 * 16 + 8), None) n) =
     (mkVS false true 0 (if (0 <? n)%nat then false else m) 0 0 0 60 (repeat 304 16), 60)); [|rewrite HH; reflexivity].
  clear. induction n as [|n IH]; intros m; [reflexivity|].
  set (i := mkVIn _ _ _ _ _ _ _ _) in *. set (ts := repeat 304 16) in *.
  change (repeat (i, @None (Z * Z)) (S n)) with ((i, @None (Z * Z)) :: repeat (i, None) n). rewrite trun_cons. cbn [fst snd].
  assert (tick true true (mkVS false true 0 m 0 0 0 60 ts) 60 i None = (mkVS false true 0 false 0 0 0 60 ts, 60)) as -> by reflexivity.
  rewrite IH. destruct n; reflexivity.
Qed.
