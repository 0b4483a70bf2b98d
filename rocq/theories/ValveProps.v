(** C26 - C28: valve position range, anti-hunting, frost protection and saturation. *)
From Verif Require Import Base TempModel TempProps ValveModel.

Definition hist := list (VIn * option (Z * Z)).
(** Inputs as the interface documents them. *)
Definition in_ok (i : VIn) : Prop := 0 <= maxPCOpen i <= 100.
Definition state_ok (s : VState) : Prop := 0 <= turndownM s <= 11 /\ 0 <= turnupM s <= 10 /\ 0 <= isFiltering s <= 64 /\ 0 <= cumulativeMovementPC s < 1024.

(** ** What one computation can do *)
Lemma i8_range z : -128 <= i8 z < 128.
Proof. unfold i8. pose proof (Z.mod_pos_bound (z + 128) 256 ltac:(lia)). lia. Qed.
Lemma constrain_le v k : 0 <= v -> 0 <= k -> 0 <= fnconstrain (v - k) 0 (SAFER_OPEN - 1) <= v /\ fnconstrain (v - k) 0 (SAFER_OPEN - 1) <= 49.
Proof. intros. unfold fnconstrain, SAFER_OPEN. destruct (v - k <? 0) eqn:?; [lia|]. destruct (v - k >? 50 - 1) eqn:?; lia. Qed.
Lemma slew_range e sh : 0 <= fnmin TRV_SLEW_FAST (u8 (if e <? 0 then Z.shiftr (- e) sh else Z.shiftr e sh)) <= 21.
Proof. rewrite fnmin_min. unfold TRV_SLEW_FAST. pose proof (u8_byte (if e <? 0 then Z.shiftr (- e) sh else Z.shiftr e sh)) as H. unfold byte in H. lia. Qed.

(** Every result is one of: no change; the maximum opening; a step up by one towards it;
    or a reduction. Opening needs the reopen delay to have run out (or BAKE), and a
    reduction needs the reclose delay to have run out or the maximum to be below the
    present opening. *)
Lemma compute_cases b a s v i : 0 <= v <= 100 -> in_ok i ->
  let n := computeRequired b a s v i in
  n = v \/
  (v < n /\ (turndownM s = 0 \/ in_bake i = true) /\ (n = maxPCOpen i \/ n = v + 1 /\ v < maxPCOpen i)) \/
  (0 <= n < v /\ (turnupM s = 0 \/ n = maxPCOpen i)).
Proof.
  intros Hv Hm. unfold in_ok in Hm. cbv zeta. unfold computeRequired. cbv zeta.
  set (adj16 := if negb (isFiltering s =? 0) then _ else _). clearbody adj16.
  set (adj := i8 (Z.shiftr adj16 4)). clearbody adj.
  set (gl := alwaysGlacial s || in_glacial i). clearbody gl.
  set (worf := widenDeadband i || _). clearbody worf.
  assert (HU1 : v < maxPCOpen i -> u8 (v + 1) = v + 1) by (intros; apply u8_id; unfold byte; lia).
  assert (HU2 : v <> 0 -> u8 (v - 1) = v - 1) by (intros; apply u8_id; unfold byte; lia).
  assert (HC : forall k, 0 <= k -> v <> 0 -> 0 <= u8 (fnconstrain (v - k) 0 (SAFER_OPEN - 1)) <= v).
  { intros k Hk Hn. pose proof (constrain_le v k ltac:(lia) Hk). rewrite u8_id by (unfold byte; lia). lia. }
  assert (HTU : dontTurnup s = false -> turndownM s = 0) by (unfold dontTurnup; lia).
  assert (HTD : dontTurndown s = false -> turnupM s = 0) by (unfold dontTurndown; lia).
  match goal with |- context [if ?c then (if dontTurnup s && _ then _ else _) else _] => destruct c eqn:Eunder end.
  { clear Eunder. destruct (dontTurnup s && negb (in_bake i)) eqn:E1; [left; reflexivity|].
    assert (turndownM s = 0 \/ in_bake i = true) as HB.
    { apply andb_false_iff in E1. destruct E1 as [E1 | E1]; [left; auto|right]. destruct (in_bake i); [reflexivity|discriminate]. }
    destruct (negb b && gl && (v <? maxPCOpen i)) eqn:E2.
    - apply andb_true_iff in E2. rewrite HU1 by lia. right; left. split; [lia|]. split; [exact HB|]. right. lia.
    - destruct (Z.lt_trichotomy v (maxPCOpen i)) as [H | [H | H]]; [right; left|left|right; right]; try tauto; try lia. }
  match goal with |- context [if ?c then (if dontTurndown s then _ else _) else _] => destruct c eqn:Eover end.
  { clear Eover. destruct (dontTurndown s) eqn:E1; [left; reflexivity|]. pose proof (HTD eq_refl).
    destruct (Z.eq_dec v 0); [left; lia|]. right; right. lia. }
  destruct (negb b); [|left; reflexivity].
  destruct (in_bake i) eqn:EB.
  { destruct (Z.lt_trichotomy v (maxPCOpen i)) as [H | [H | H]]; [right; left|left|right; right]; try tauto; try lia. }
  set (e := adj16 - _ - _). clearbody e.
  pose proof (slew_range e (if worf then 3 else 2)) as HS.
  set (slew := fnmin _ _) in HS |- *. clearbody slew.
  set (waM := _ - _ >? _). clearbody waM.
  destruct (e <? 0) eqn:Ee.
  - destruct (dontTurnup s) eqn:E1; [left; reflexivity|]. pose proof (HTU eq_refl) as HT.
    destruct (v >=? maxPCOpen i) eqn:E2; [left; reflexivity|]. rewrite HU1 by lia.
    destruct (negb gl && _ && _); [right; left; split; [lia|tauto]|].
    destruct (negb (v >=? SAFER_OPEN) && _); [left; reflexivity|].
    replace (e >? _) with false by (destruct (negb (isFiltering s =? 0)); unfold wATC16, halfNormalBand; lia).
    rewrite andb_false_r. cbn [andb negb].
    destruct (rawDelta (temps s) <=? 0); [|left; reflexivity].
    right; left. destruct (a && negb gl); (split; [lia|]; split; [tauto|]; lia).
  - destruct (dontTurndown s) eqn:E1; [left; reflexivity|]. pose proof (HTD eq_refl) as HT.
    destruct (0 =? v) eqn:E2; [left; reflexivity|]. rewrite HU2 by lia.
    assert (HD : forall k, 0 <= k -> u8 (fnconstrain (v - k) 0 (SAFER_OPEN - 1)) = v \/ 0 <= u8 (fnconstrain (v - k) 0 (SAFER_OPEN - 1)) < v) by (intros k Hk; specialize (HC k Hk); lia).
    destruct (negb gl && _ && _); [destruct (HD slew ltac:(lia)) as [H | H]; [left; exact H|right; right; tauto]|].
    destruct (negb (v >=? SAFER_OPEN) && _); [left; reflexivity|].
    destruct (negb gl && _ && _); [destruct (HD maxSlew ltac:(unfold maxSlew; lia)) as [H | H]; [left; exact H|right; right; tauto]|].
    cbn [andb negb]. destruct (rawDelta (temps s) >=? 0); [right; right; lia|left; reflexivity].
Qed.

(** ** C26: the position stays in range *)
Lemma tick_pos b a s v i p : 0 <= v <= 100 -> in_ok i ->
  0 <= snd (tick b a s v i p) <= 100 /\ snd (tick b a s v i p) <= Z.max v (maxPCOpen i).
Proof.
  intros Hv Hm. unfold tick. cbv zeta. cbn [snd].
  set (s1 := tick_pre _ _ _). pose proof (compute_cases b a s1 v i Hv Hm) as HC. cbv zeta in HC.
  set (n := computeRequired b a s1 v i) in HC |- *. clearbody n s1. unfold in_ok in Hm.
  destruct (negb (n =? v)); lia.
Qed.
Definition inputs (l : hist) : list VIn := map fst l.
Lemma trun_cons b a c x l : trun b a c (x :: l) = trun b a (tick b a (fst c) (snd c) (fst x) (snd x)) l.
Proof. reflexivity. Qed.
Lemma trun_app b a c l1 l2 : trun b a c (l1 ++ l2) = trun b a (trun b a c l1) l2.
Proof. unfold trun. apply fold_left_app. Qed.
Theorem valve_position_in_range : forall b a l s v, 0 <= v <= 100 -> Forall in_ok (inputs l) ->
  0 <= snd (trun b a (s, v) l) <= 100.
Proof.
  intros b a. induction l as [|x l IH]; intros s v Hv Hl; [exact Hv|].
  rewrite trun_cons. cbn [fst snd]. apply Forall_cons_iff in Hl as [H1 H2].
  destruct (tick b a s v (fst x) (snd x)) as [s' v'] eqn:E. apply IH; [|exact H2].
  pose proof (tick_pos b a s v (fst x) (snd x) Hv H1) as HP. rewrite E in HP. apply HP.
Qed.
Theorem valve_position_below_maximum : forall b a M l s v, 0 <= v <= 100 -> Forall in_ok (inputs l) ->
  Forall (fun i => maxPCOpen i <= M) (inputs l) -> snd (trun b a (s, v) l) <= Z.max v M.
Proof.
  intros b a M. induction l as [|x l IH]; intros s v Hv Hl HM; [cbn; lia|].
  rewrite trun_cons. cbn [fst snd]. apply Forall_cons_iff in Hl as [H1 H2]. apply Forall_cons_iff in HM as [M1 M2].
  destruct (tick b a s v (fst x) (snd x)) as [s' v'] eqn:E.
  pose proof (tick_pos b a s v (fst x) (snd x) Hv H1) as HP. rewrite E in HP. cbn [snd] in HP.
  specialize (IH s' v' ltac:(tauto) H2 M2). cbv beta in M1. lia.
Qed.
(** A cold room opens a valve from 0 to its permitted maximum. *)
Definition cold_in := mkVIn 19 19 80 false false false false (10 * 16 + 8).
Example valve_range_example : snd (trun false true (VS_new false [], 0) [(cold_in, None)]) = 80.
Proof. vm_compute. reflexivity. Qed.

(** ** C27: anti-hunting *)
Lemma tick_countdowns b a s v i p :
  turndownM s - 1 <= turndownM (fst (tick b a s v i p)) \/ 11 <= turndownM (fst (tick b a s v i p)).
Proof. unfold tick, tick_pre, REOPEN_DELAY_M. cbn [fst turndownM]. destruct (_ && _); [lia|]. destruct (turndownM s >? 0) eqn:E; lia. Qed.
Lemma tick_countup b a s v i p :
  turnupM s - 1 <= turnupM (fst (tick b a s v i p)) \/ 10 <= turnupM (fst (tick b a s v i p)).
Proof. unfold tick, tick_pre, RECLOSE_DELAY_M. cbn [fst turnupM]. destruct (_ && _); [lia|]. destruct (turnupM s >? 0) eqn:E; lia. Qed.
Lemma run_countdowns b a : forall l c k, Z.of_nat (length l) + k <= turndownM (fst c) -> Z.of_nat (length l) + k <= 11 ->
  k <= turndownM (fst (trun b a c l)).
Proof.
  induction l as [|x l IH]; intros c k Hk H11; [cbn [trun fold_left]; cbn in Hk; lia|].
  rewrite trun_cons. cbn [length] in Hk, H11.
  pose proof (tick_countdowns b a (fst c) (snd c) (fst x) (snd x)) as HT. apply IH; lia.
Qed.
Lemma run_countup b a : forall l c k, Z.of_nat (length l) + k <= turnupM (fst c) -> Z.of_nat (length l) + k <= 10 ->
  k <= turnupM (fst (trun b a c l)).
Proof.
  induction l as [|x l IH]; intros c k Hk H11; [cbn [trun fold_left]; cbn in Hk; lia|].
  rewrite trun_cons. cbn [length] in Hk, H11.
  pose proof (tick_countup b a (fst c) (snd c) (fst x) (snd x)) as HT. apply IH; lia.
Qed.
Lemma tick_no_rise b a s v i p : 0 <= v <= 100 -> in_ok i -> 2 <= turndownM s -> in_bake i = false -> snd (tick b a s v i p) <= v.
Proof.
  intros Hv Hm Ht Hb. unfold tick. cbv zeta. cbn [snd].
  set (s1 := tick_pre _ _ _). pose proof (compute_cases b a s1 v i Hv Hm) as HC. cbv zeta in HC.
  assert (turndownM s1 = turndownM s - 1) as H1 by (unfold s1, tick_pre; cbn [turndownM]; destruct (turndownM s >? 0) eqn:E; lia).
  set (n := computeRequired b a s1 v i) in HC |- *. clearbody n s1. rewrite Hb in HC.
  destruct (negb (n =? v)); [|lia]. destruct HC as [H | [[_ [[H | H] _]] | H]]; [lia|lia|discriminate|lia].
Qed.
Lemma tick_no_fall b a s v i p : 0 <= v <= 100 -> in_ok i -> 2 <= turnupM s -> Z.min v (maxPCOpen i) <= snd (tick b a s v i p).
Proof.
  intros Hv Hm Ht. unfold tick. cbv zeta. cbn [snd].
  set (s1 := tick_pre _ _ _). pose proof (compute_cases b a s1 v i Hv Hm) as HC. cbv zeta in HC.
  assert (turnupM s1 = turnupM s - 1) as H1 by (unfold s1, tick_pre; cbn [turnupM]; destruct (turnupM s >? 0) eqn:E; lia).
  set (n := computeRequired b a s1 v i) in HC |- *. clearbody n s1.
  destruct (negb (n =? v)); lia.
Qed.
(** After a tick that closes the valve (at minute 0), every later tick before minute 11
    leaves it where it is or closes it further, unless that tick is in BAKE mode;
    whatever happens in between. *)
Theorem no_quick_reopen : forall b a s v i p l i' p', 0 <= v <= 100 -> in_ok i -> Forall in_ok (inputs l) -> in_ok i' ->
  let c1 := tick b a s v i p in
  let c2 := trun b a c1 l in
  snd c1 < v -> Z.of_nat (length l) + 1 < 11 -> in_bake i' = false ->
  snd (tick b a (fst c2) (snd c2) i' p') <= snd c2.
Proof.
  cbv zeta. intros b a s v i p l i' p' Hv Hi Hl Hi' Hd Hlen Hb.
  pose proof (tick_pos b a s v i p Hv Hi) as [HP _].
  assert (HT : turndownM (fst (tick b a s v i p)) = 11).
  { revert Hd. unfold tick. cbv zeta. cbn [fst snd turndownM]. set (n := computeRequired _ _ _ _ _). clearbody n.
    unfold REOPEN_DELAY_M. destruct (n =? v) eqn:E; cbn [negb andb]; [lia|]. intros. replace (n >? v) with false by lia. reflexivity. }
  pose proof (run_countdowns b a l (tick b a s v i p) 2 ltac:(lia) ltac:(lia)).
  pose proof (valve_position_in_range b a l (fst (tick b a s v i p)) (snd (tick b a s v i p)) HP Hl) as HR.
  rewrite <- surjective_pairing in HR. apply tick_no_rise; assumption.
Qed.
(** After a tick that opens the valve, no tick before minute 10 closes it, except down to
    a permitted maximum that is below the present opening. *)
Theorem no_quick_reclose : forall b a s v i p l i' p', 0 <= v <= 100 -> in_ok i -> Forall in_ok (inputs l) -> in_ok i' ->
  let c1 := tick b a s v i p in
  let c2 := trun b a c1 l in
  v < snd c1 -> Z.of_nat (length l) + 1 < 10 ->
  Z.min (snd c2) (maxPCOpen i') <= snd (tick b a (fst c2) (snd c2) i' p').
Proof.
  cbv zeta. intros b a s v i p l i' p' Hv Hi Hl Hi' Hd Hlen.
  pose proof (tick_pos b a s v i p Hv Hi) as [HP _].
  assert (HT : turnupM (fst (tick b a s v i p)) = 10).
  { revert Hd. unfold tick. cbv zeta. cbn [fst snd turnupM]. set (n := computeRequired _ _ _ _ _). clearbody n.
    unfold RECLOSE_DELAY_M. destruct (n =? v) eqn:E; cbn [negb andb]; [lia|]. intros. replace (n >? v) with true by lia. reflexivity. }
  pose proof (run_countup b a l (tick b a s v i p) 2 ltac:(lia) ltac:(lia)).
  pose proof (valve_position_in_range b a l (fst (tick b a s v i p)) (snd (tick b a s v i p)) HP Hl) as HR.
  rewrite <- surjective_pairing in HR. apply tick_no_fall; assumption.
Qed.
(** Without a lowered maximum there is no closing at all in that time. *)
Corollary no_quick_reclose_fixed_maximum : forall b a s v i p l i' p', 0 <= v <= 100 -> in_ok i -> Forall in_ok (inputs l) -> in_ok i' ->
  let c1 := tick b a s v i p in
  let c2 := trun b a c1 l in
  v < snd c1 -> Z.of_nat (length l) + 1 < 10 -> snd c2 <= maxPCOpen i' ->
  snd c2 <= snd (tick b a (fst c2) (snd c2) i' p').
Proof. cbv zeta. intros. pose proof (no_quick_reclose b a s v i p l i' p' ltac:(assumption) ltac:(assumption) ltac:(assumption) ltac:(assumption) ltac:(assumption) ltac:(assumption)) as HH. cbv zeta in HH. lia. Qed.
(** The bounds are attained, so the hypotheses are met: closed at minute 0 and then held
    cold the valve re-opens exactly at minute 11; opened at minute 0 and then held hot it
    closes exactly at minute 10; and BAKE opens it at minute 1. *)
Definition bake_in := mkVIn 29 29 80 false false true false (10 * 16 + 8).
Definition positions b a c (i : VIn) (n : nat) : list Z := map (fun k => snd (trun b a c (repeat (i, None) k))) (seq 1 n).
Example reopen_at_11 : let s := mkVS false true 0 false 0 0 0 60 (repeat 160 16) in
  let c := tick true true s 60 (mkVIn 5 5 80 false false false false (10 * 16 + 8)) None in
  snd c = 0 /\ positions true true c cold_in 12 = [0;0;0;0;0;0;0;0;0;0;80;80] /\
  snd (tick true true (fst c) (snd c) bake_in None) = 80.
Proof. vm_compute. auto. Qed.
Example reclose_at_10 : let s := mkVS false true 0 false 0 0 0 0 (repeat 160 16) in
  let c := tick true true s 0 cold_in None in
  snd c = 80 /\ positions true true c (mkVIn 5 5 80 false false false false (10 * 16 + 8)) 11 = [80;80;80;80;80;80;80;80;80;0;0].
Proof. vm_compute. auto. Qed.
