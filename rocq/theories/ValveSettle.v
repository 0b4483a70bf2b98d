(** C28 - C30, C57 - C59: filter, frost protection, saturation, no hovering. *)
From Verif Require Import Base TempModel TempProps ValveModel ValveProps.

(** ** C30: the filter *)
Definition sum (l : list Z) := fold_right Z.add 0 l.
Lemma sum_bounds lo hi : forall l, Forall (fun x => lo <= x <= hi) l -> lo * Zlen l <= sum l <= hi * Zlen l.
Proof.
  induction l as [|x l IH]; intros H; [change (Zlen (@nil Z)) with 0; cbn; lia|]. apply Forall_cons_iff in H as [H1 H2].
  specialize (IH H2). rewrite Zlen_cons. change (sum (x :: l)) with (x + sum l). lia.
Qed.
Lemma quot_bounds z : 0 <= z -> 16 * Z.quot z 16 <= z < 16 * Z.quot z 16 + 16.
Proof. intros. rewrite Z.quot_div_nonneg by lia. Z.div_mod_to_equations. lia. Qed.
Lemma quot_neg z : z <= 0 -> 16 * Z.quot z 16 - 16 < z <= 16 * Z.quot z 16.
Proof. intros. pose proof (quot_bounds (- z) ltac:(lia)) as HH. rewrite Z.quot_opp_l in HH by lia. lia. Qed.
Lemma mean_sum l : smallIntMean l = Z.quot (sum l + 8) 16. Proof. reflexivity. Qed.
(** Non-negative readings: between the smallest and the largest, and within half a unit of the true mean. *)
Theorem mean_between_partial : forall l lo hi, length l = 16%nat -> 0 <= lo -> Forall (fun x => lo <= x <= hi) l ->
  lo <= smallIntMean l <= hi.
Proof.
  intros l lo hi HL H0 H. apply sum_bounds in H. unfold Zlen in H. rewrite HL in H. rewrite mean_sum.
  pose proof (quot_bounds (sum l + 8) ltac:(lia)). lia.
Qed.
Theorem mean_rounds_partial : forall l, length l = 16%nat -> Forall (fun x => 0 <= x) l ->
  -8 < 16 * smallIntMean l - sum l <= 8.
Proof.
  intros l HL H. assert (0 <= sum l) by (clear HL; induction H; [cbn; lia|change (sum (x :: l)) with (x + sum l); lia]).
  rewrite mean_sum. pose proof (quot_bounds (sum l + 8) ltac:(lia)). lia.
Qed.
(** Any readings: never below the smallest, at most one unit above the largest, and within
    one and a half units of the true mean. *)
Theorem mean_between_any : forall l lo hi, length l = 16%nat -> Forall (fun x => lo <= x <= hi) l ->
  lo <= smallIntMean l <= hi + 1.
Proof.
  intros l lo hi HL H. apply sum_bounds in H. unfold Zlen in H. rewrite HL in H. rewrite mean_sum.
  destruct (Z_le_gt_dec 0 (sum l + 8)); [pose proof (quot_bounds (sum l + 8) ltac:(lia))|pose proof (quot_neg (sum l + 8) ltac:(lia))]; lia.
Qed.
Theorem mean_rounds_any : forall l, length l = 16%nat -> -8 < 16 * smallIntMean l - sum l < 24.
Proof.
  intros l HL. rewrite mean_sum.
  destruct (Z_le_gt_dec 0 (sum l + 8)); [pose proof (quot_bounds (sum l + 8) ltac:(lia))|pose proof (quot_neg (sum l + 8) ltac:(lia))]; lia.
Qed.
(** Below freezing it can be outside the range of the readings, and more than one unit off. *)
Theorem mean_negative_refuted : smallIntMean (repeat (-1) 16) = 0 /\
  16 * smallIntMean (-8 :: repeat (-1) 15) - sum (-8 :: repeat (-1) 15) = 23.
Proof. vm_compute. auto. Qed.
(** Readings within +-127C keep every intermediate value of the mean in a 16-bit int:
    each partial sum starting from 8, and the rounded mean with the offset. *)
Theorem mean_no_overflow : forall l k, length l = 16%nat -> Forall (fun x => -2040 <= x <= 2040) l ->
  -32768 <= sum (skipn k l) + 8 <= 32767 /\ -32768 <= smallIntMean l + refTempOffsetC16 <= 32767.
Proof.
  intros l k HL H. split.
  - assert (H' : Forall (fun x => -2040 <= x <= 2040) (skipn k l)) by (rewrite <- (firstn_skipn k l) in H; apply Forall_app in H; apply H).
    apply sum_bounds in H'. unfold Zlen in H'. rewrite skipn_length, HL in H'. lia.
  - pose proof (mean_between_any l (-2040) 2040 HL H). unfold refTempOffsetC16. lia.
Qed.

(** The filter memory of a live valve. *)
Definition live (s : VState) : Prop :=
  (initialised s = true -> length (temps s) = 16%nat) /\ 0 <= turndownM s <= 11 /\ 0 <= turnupM s <= 10 /\ 0 <= isFiltering s <= 64.
Lemma live_new g junk : live (VS_new g junk).
Proof. unfold live, VS_new. cbn. split; [discriminate|lia]. Qed.
Lemma tick_temps b a s v i p : temps (fst (tick b a s v i p)) =
  computeRawTemp16 i :: firstn 15 (if initialised s then temps s else backfill (computeRawTemp16 i)).
Proof. reflexivity. Qed.
Lemma tick_live b a s v i p : live s -> live (fst (tick b a s v i p)).
Proof.
  intros (H1 & H2 & H3 & H4). unfold live. rewrite tick_temps. split.
  { intros _. cbn [length]. rewrite firstn_length. destruct (initialised s); [rewrite H1 by reflexivity; reflexivity|reflexivity]. }
  unfold tick, tick_pre, REOPEN_DELAY_M, RECLOSE_DELAY_M, filter_minimum_ON, filterLength. cbn [fst turndownM turnupM isFiltering].
  set (ch := computeRequired _ _ _ _ _). clearbody ch. set (tst := fnabsdiff _ _ <=? _). clearbody tst.
  split; [destruct (_ && _); [lia|destruct (turndownM s >? 0) eqn:?; lia]|].
  split; [destruct (_ && _); [lia|destruct (turnupM s >? 0) eqn:?; lia]|].
  set (f1 := if negb (isFiltering s =? 0) then _ else _).
  assert (0 <= f1 <= 64) as Hf.
  { unfold f1. destruct (negb (isFiltering s =? 0)); [|lia]. destruct (isFiltering s >? 1) eqn:E; [lia|]. destruct tst; lia. }
  destruct (f1 =? 0); [|lia]. destruct (_ >? 8); lia.
Qed.
Lemma run_live b a : forall l c, live (fst c) -> live (fst (trun b a c l)).
Proof. induction l as [|x l IH]; intros c H; [exact H|]. rewrite trun_cons. apply IH, tick_live, H. Qed.
(** On first use the whole memory is the first reading, so the smoothed value is that reading. *)
Theorem filter_fills_at_once : forall b a g junk v i p,
  let s := fst (tick b a (VS_new g junk) v i p) in
  temps s = repeat (computeRawTemp16 i) 16 /\ (0 <= computeRawTemp16 i -> getSmoothedRecent s = computeRawTemp16 i).
Proof.
  intros. assert (temps s = repeat (computeRawTemp16 i) 16) as HT by reflexivity. split; [exact HT|]. intros.
  unfold getSmoothedRecent. rewrite HT.
  assert (computeRawTemp16 i <= smallIntMean (repeat (computeRawTemp16 i) 16) <= computeRawTemp16 i); [|lia].
  apply mean_between_partial; [reflexivity|lia|]. apply Forall_forall. intros x Hx. apply repeat_spec in Hx. lia.
Qed.
(** After any history the memory is the last 16 readings, latest first (padded with the
    first reading when there have been fewer than 16). *)
Definition readings (l : hist) : list Z := map computeRawTemp16 (inputs l).
Theorem filter_memory : forall b a g junk v x l,
  let s := fst (trun b a (VS_new g junk, v) (x :: l)) in
  temps s = firstn 16 (rev (readings (x :: l)) ++ repeat (computeRawTemp16 (fst x)) 15).
Proof.
  intros b a g junk v x l. cbv zeta. rewrite trun_cons. cbn [fst snd].
  set (c := tick b a (VS_new g junk) v (fst x) (snd x)).
  assert (HI : initialised (fst c) = true) by reflexivity.
  assert (HT : temps (fst c) = firstn 16 (rev (readings [x]) ++ repeat (computeRawTemp16 (fst x)) 15)) by reflexivity.
  change (x :: l) with ([x] ++ l). revert HT. generalize [x] as l0. revert HI. clearbody c.
  revert c. induction l as [|y l IH]; intros c HI l0 HT; [rewrite app_nil_r; exact HT|].
  rewrite trun_cons. replace (l0 ++ y :: l) with ((l0 ++ [y]) ++ l) by (rewrite <- app_assoc; reflexivity).
  apply IH; [reflexivity|]. rewrite tick_temps, HI, HT. unfold readings, inputs. rewrite !map_app, rev_app_distr. cbn [map rev app].
  rewrite firstn_firstn. reflexivity.
Qed.
(** Hence the smoothed temperature lies within the last 16 readings (0C and above). *)
Theorem smoothed_within_recent : forall b a g junk v x l lo hi,
  0 <= lo -> Forall (fun t => lo <= t <= hi) (firstn 16 (rev (readings (x :: l)))) ->
  lo <= getSmoothedRecent (fst (trun b a (VS_new g junk, v) (x :: l))) <= hi.
Proof.
  intros b a g junk v x l lo hi H0 HF. pose proof (filter_memory b a g junk v x l) as HM. cbv zeta in HM.
  unfold getSmoothedRecent. rewrite HM. apply mean_between_partial; [|exact H0|].
  - rewrite firstn_length, app_length, rev_length, repeat_length. unfold readings, inputs. rewrite !map_length. cbn [length]. lia.
  - rewrite firstn_app. apply Forall_app. split; [exact HF|]. apply Forall_forall. intros t Ht.
    rewrite rev_length in Ht. unfold readings, inputs in Ht. rewrite !map_length in Ht. cbn [length] in Ht.
    destruct (Nat.lt_ge_cases (length l) 16) as [H | H].
    + assert (In t (repeat (computeRawTemp16 (fst x)) 15)) as Hi.
      { rewrite <- (firstn_skipn (16 - S (length l)) (repeat _ 15)). apply in_or_app. left. exact Ht. }
      apply repeat_spec in Hi. subst t. rewrite Forall_forall in HF. apply HF.
      rewrite firstn_all2 by (rewrite rev_length; unfold readings, inputs; rewrite !map_length; cbn [length]; lia).
      apply -> in_rev. left. reflexivity.
    + replace (16 - S (length l))%nat with 0%nat in Ht by lia. destruct Ht.
Qed.
Example filter_memory_example : temps (fst (trun false true (VS_new false [], 0)
   (map (fun t => (mkVIn 19 19 80 false false false false t, None)) [208; 210; 220]))) = [212; 202] ++ repeat 200 14.
Proof. vm_compute. reflexivity. Qed.

(** ** C57: when the filter is engaged and for how long *)
Definition jump (l : list Z) : Prop := 8 < Z.abs (nth 0 l 0 - nth 5 l 0).
Lemma jump_test l : (fnabs (rawDelta5 l) >? 8) = true <-> jump l.
Proof. unfold fnabs, rawDelta5, temp_at, jump. destruct (_ - _ <? 0) eqn:E; lia. Qed.
Theorem filter_on_after_jump : forall b a s v i p, live s ->
  jump (temps (fst (tick b a s v i p))) -> isFiltering (fst (tick b a s v i p)) <> 0.
Proof.
  intros b a s v i p HL HJ. rewrite tick_temps in HJ. apply jump_test in HJ.
  unfold tick, tick_pre. cbn [fst isFiltering]. rewrite HJ.
  match goal with |- context [if ?c =? 0 then _ else _] => destruct (c =? 0) eqn:E end; [unfold filter_minimum_ON, filterLength; lia|lia].
Qed.
Theorem filter_on_only_after_jump : forall b a s v i p, live s -> isFiltering s = 0 ->
  isFiltering (fst (tick b a s v i p)) <> 0 -> jump (temps (fst (tick b a s v i p))).
Proof.
  intros b a s v i p HL H0. rewrite tick_temps. intros HF. apply jump_test. revert HF.
  unfold tick, tick_pre. cbn [fst isFiltering]. rewrite H0. cbn [Z.eqb negb].
  destruct (fnabs _ >? 8); [reflexivity|congruence].
Qed.
Lemma filter_count b a s v i p : live s -> 1 < isFiltering s -> isFiltering (fst (tick b a s v i p)) = isFiltering s - 1.
Proof.
  intros HL H. unfold tick, tick_pre. cbn [fst isFiltering]. replace (isFiltering s =? 0) with false by lia. cbn [negb].
  replace (isFiltering s >? 1) with true by lia. replace (isFiltering s - 1 =? 0) with false by lia. reflexivity.
Qed.
Lemma filter_hold b a : forall l c, live (fst c) -> Z.of_nat (length l) < isFiltering (fst c) -> 0 < isFiltering (fst (trun b a c l)).
Proof.
  induction l as [|x l IH]; intros c HL H; [cbn [trun fold_left]; cbn in H; lia|]. rewrite trun_cons. cbn [length] in H.
  apply IH; [apply tick_live, HL|]. rewrite filter_count; [lia|exact HL|lia].
Qed.
(** Once engaged it stays engaged for at least another 63 ticks ... *)
Theorem filter_minimum_time : forall b a s v i p l, live s -> isFiltering s = 0 ->
  let c := tick b a s v i p in isFiltering (fst c) <> 0 -> (length l <= 63)%nat -> isFiltering (fst (trun b a c l)) <> 0.
Proof.
  cbv zeta. intros b a s v i p l HL H0 HF Hl.
  assert (isFiltering (fst (tick b a s v i p)) = 64) as H64.
  { revert HF. unfold tick, tick_pre. cbn [fst isFiltering]. rewrite H0. cbn [Z.eqb negb]. destruct (_ >? 8); [reflexivity|congruence]. }
  pose proof (filter_hold b a l (tick b a s v i p) (tick_live _ _ _ _ _ _ HL) ltac:(lia)). lia.
Qed.
(** ... and is dropped only when the raw reading is within 3/16C of the smoothed one. *)
Theorem filter_released_close : forall b a s v i p, live s -> isFiltering s <> 0 ->
  let s' := fst (tick b a s v i p) in isFiltering s' = 0 -> Z.abs (getSmoothedRecent s' - computeRawTemp16 i) <= 3.
Proof.
  intros b a s v i p (_ & _ & _ & HL) HF. cbv zeta. unfold getSmoothedRecent. rewrite tick_temps.
  set (ts := computeRawTemp16 i :: _). unfold tick, tick_pre. cbn [fst isFiltering]. fold ts.
  replace (isFiltering s =? 0) with false by lia. cbn [negb].
  destruct (isFiltering s >? 1) eqn:E.
  - replace (isFiltering s - 1 =? 0) with false by lia. lia.
  - unfold MAX_TEMP_JUMP_C16, fnabsdiff. destruct (smallIntMean ts <? computeRawTemp16 i) eqn:E2.
    + destruct (computeRawTemp16 i - smallIntMean ts <=? 3) eqn:E3; [lia|]. replace (isFiltering s =? 0) with false by lia. lia.
    + destruct (smallIntMean ts - computeRawTemp16 i <=? 3) eqn:E3; [lia|]. replace (isFiltering s =? 0) with false by lia. lia.
Qed.
Definition rd_in t := (mkVIn 19 19 80 false false false false (t + 8), @None (Z * Z)).
Example filter_engages : map (fun k => isFiltering (fst (trun false true (VS_new false [], 0) (map rd_in ([300; 300] ++ repeat 309 k))))) [0; 1; 64; 65; 70]%nat = [0; 64; 1; 0; 0].
Proof. vm_compute. reflexivity. Qed.

(** ** C58: cumulative movement *)
Fixpoint travel (v : Z) (ps : list Z) : Z := match ps with [] => 0 | p :: r => Z.abs (p - v) + travel p r end.
Fixpoint trace b a (c : VState * Z) (l : list VIn) : list Z :=
  match l with [] => [] | i :: r => let c' := tick b a (fst c) (snd c) i None in snd c' :: trace b a c' r end.
Theorem movement_is_total_travel : forall b a l g junk v, 0 <= v <= 100 -> Forall in_ok l ->
  cumulativeMovementPC (fst (trun b a (VS_new g junk, v) (map (fun i => (i, None)) l))) = travel v (trace b a (VS_new g junk, v) l) mod 1024.
Proof.
  intros b a l g junk v Hv Hl.
  assert (HH : forall l s v, Forall in_ok l -> 0 <= v <= 100 -> (initialised s = true -> prevValvePC s = v) -> 0 <= cumulativeMovementPC s ->
    cumulativeMovementPC (fst (trun b a (s, v) (map (fun i => (i, None)) l))) mod 1024 = (cumulativeMovementPC s + travel v (trace b a (s, v) l)) mod 1024 /\
    (l <> [] -> 0 <= cumulativeMovementPC (fst (trun b a (s, v) (map (fun i => (i, None)) l))) < 1024)).
  { clear. induction l as [|i l IH]; intros s v Hl Hv Hp H0; [cbn; rewrite Z.add_0_r; tauto|].
    apply Forall_cons_iff in Hl as [Hi Hl]. pose proof (tick_pos b a s v i None Hv Hi) as [HP _].
    cbn [map trace]. rewrite trun_cons. cbn [fst snd travel].
    assert (HC : cumulativeMovementPC (fst (tick b a s v i None)) = (cumulativeMovementPC s + Z.abs (snd (tick b a s v i None) - v)) mod 1024).
    { unfold tick. cbv zeta. cbn [fst snd cumulativeMovementPC]. change 1023 with (Z.ones 10). rewrite Z.land_ones by lia. change (2 ^ 10) with 1024. f_equal. 
      unfold tick_pre at 1. cbn [cumulativeMovementPC]. f_equal.
      assert (prevValvePC (tick_pre s v i) = v) as -> by (unfold tick_pre; cbn [prevValvePC]; destruct (initialised s); auto).
      set (n := computeRequired _ _ _ _ _). clearbody n. unfold fnabsdiff. destruct (n =? v) eqn:E; cbn [negb]; destruct (v <? n) eqn:E2; lia. }
    assert (HQ : prevValvePC (fst (tick b a s v i None)) = snd (tick b a s v i None)).
    { unfold tick. cbv zeta. cbn [fst snd prevValvePC]. set (n := computeRequired _ _ _ _ _). clearbody n. destruct (n =? v) eqn:E; cbn [negb]; lia. }
    destruct (tick b a s v i None) as [s' v']. cbn [fst snd] in *.
    pose proof (Z.mod_pos_bound (cumulativeMovementPC s + Z.abs (v' - v)) 1024 ltac:(lia)).
    destruct (IH s' v' Hl HP ltac:(auto) ltac:(lia)) as [IH1 IH2]. split.
    - rewrite IH1, HC, Zplus_mod_idemp_l. f_equal. lia.
    - intros _. destruct l; [cbn; lia|]. apply IH2. discriminate. }
  destruct l as [|i l]; [reflexivity|].
  destruct (HH (i :: l) (VS_new g junk) v Hl Hv ltac:(discriminate) ltac:(cbn; lia)) as [H1 H2].
  rewrite <- (Z.mod_small (cumulativeMovementPC _) 1024) by (apply H2; discriminate). rewrite H1. reflexivity.
Qed.
(** Valves passed from 0 to 80 and back by target changes: 160. *)
Example movement_example : cumulativeMovementPC (fst (trun true true (VS_new false [], 0)
   (map (fun i => (i, None)) (repeat cold_in 2 ++ repeat (mkVIn 5 5 80 false false false false (10 * 16 + 8)) 12)))) = 160.
Proof. vm_compute. reflexivity. Qed.
