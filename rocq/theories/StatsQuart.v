(** Hourly statistics: minimum, maximum, counting and quartiles (C52). *)
From Verif Require Import Base EepromModel StatsModel.

(** ** Specification: the day as a function of the hour. *)
Definition day (v : Z -> Z) : Prop := forall hh, 0 <= hh < 24 -> byte (v hh).
(** Number of hours from [k] to 23 whose value satisfies [P]. *)
Fixpoint num_upto (P : Z -> bool) (n : nat) : Z :=
  match n with O => 0 | S k => (if P (Z.of_nat k) then 1 else 0) + num_upto P k end.
Definition num_hours (P : Z -> bool) : Z := num_upto P 24.
Definition num_hours_from (k : Z) (P : Z -> bool) : Z := num_hours (fun h => (k <=? h) && P h).

Definition full_day (v : Z -> Z) : Prop := forall hh, 0 <= hh < 24 -> v hh <> 255.

Lemma num_upto_range P n : 0 <= num_upto P n <= Z.of_nat n.
Proof. induction n; cbn [num_upto]; [lia|]. destruct (P _); lia. Qed.
Lemma num_upto_ext P Q n : (forall h, 0 <= h < Z.of_nat n -> P h = Q h) -> num_upto P n = num_upto Q n.
Proof.
  induction n; intros H; [reflexivity|]. cbn [num_upto]. rewrite H by lia. rewrite IHn; [reflexivity|].
  intros; apply H; lia.
Qed.
Lemma num_upto_le P Q n : (forall h, 0 <= h < Z.of_nat n -> P h = true -> Q h = true) -> num_upto P n <= num_upto Q n.
Proof.
  induction n; intros H; [cbn; lia|]. cbn [num_upto].
  assert (num_upto P n <= num_upto Q n) by (apply IHn; intros; apply H; auto; lia).
  destruct (P (Z.of_nat n)) eqn:E; [rewrite (H (Z.of_nat n) ltac:(lia) E); lia|]. destruct (Q _); lia.
Qed.
Lemma num_upto_disj P Q n : (forall h, 0 <= h < Z.of_nat n -> P h = true -> Q h = false) ->
  num_upto P n + num_upto Q n <= Z.of_nat n.
Proof.
  induction n; intros H; [cbn; lia|]. cbn [num_upto].
  assert (num_upto P n + num_upto Q n <= Z.of_nat n) by (apply IHn; intros; apply H; auto; lia).
  destruct (P (Z.of_nat n)) eqn:E; [rewrite (H (Z.of_nat n) ltac:(lia) E); lia|]. destruct (Q _); lia.
Qed.

(** ** Counting *)
Lemma count_loop v value n : forall r, 0 <= r -> r + Z.of_nat n < 256 ->
  fold_left (fun r hh => if v hh <? value then u8 (r + 1) else r) (hours_from n) r
  = r + num_upto (fun h => v h <? value) n.
Proof.
  induction n; intros r Hr Hn; [cbn; lia|]. cbn [hours_from fold_left num_upto].
  destruct (v (Z.of_nat n) <? value) eqn:E.
  - rewrite u8_id by (unfold byte; lia). rewrite IHn by lia. lia.
  - rewrite IHn by lia. lia.
Qed.
Theorem countBelow_correct : forall m set value,
  day (sget m set) -> 0 <= value ->
  countBelow m set value = num_hours (fun h => sget m set h <? value).
Proof.
  intros m set value HD Hv. unfold countBelow. destruct (0 =? value) eqn:E.
  - apply Z.eqb_eq in E. subst. unfold num_hours. symmetry.
    assert (num_upto (fun h => sget m set h <? 0) 24 <= num_upto (fun _ => false) 24).
    { apply num_upto_le. intros h Hh HP. specialize (HD h ltac:(lia)). unfold byte in HD. lia. }
    pose proof (num_upto_range (fun h => sget m set h <? 0) 24). change (num_upto (fun _ => false) 24) with 0 in H. lia.
  - unfold hours_desc. rewrite count_loop by lia. reflexivity.
Qed.
Example countBelow_ex :
  let m : Store := fun s h => if h =? 3 then 255 else 10 * h in
  countBelow m 0 255 = 23 /\ countBelow m 0 50 = 4 /\ countBelow m 14 255 = 0.
Proof. vm_compute. auto. Qed.

(** ** Minimum and maximum of the values that are set *)
Lemma min_loop v n : forall r, (forall hh, 0 <= hh < Z.of_nat n -> 0 <= v hh) -> 0 <= r ->
  let x := fold_left (fun r hh => let y := v hh in if y <? r then y else r) (hours_from n) r in
  x <= r /\ (forall hh, 0 <= hh < Z.of_nat n -> x <= v hh) /\
  (x = r \/ exists hh, 0 <= hh < Z.of_nat n /\ x = v hh).
Proof.
  induction n; intros r HD Hr x.
  - cbn in x. subst x. split; [lia|]. split; [intros; lia|auto].
  - subst x. cbn [hours_from fold_left]. cbv zeta.
    set (r' := if v (Z.of_nat n) <? r then v (Z.of_nat n) else r).
    assert (0 <= r') by (unfold r'; specialize (HD (Z.of_nat n) ltac:(lia)); destruct (_ <? _); lia).
    destruct (IHn r' ltac:(intros; apply HD; lia) H) as (A & B & C).
    set (x := fold_left _ (hours_from n) r') in *. clearbody x.
    assert (r' <= r /\ r' <= v (Z.of_nat n)) by (unfold r'; destruct (v (Z.of_nat n) <? r) eqn:?; lia).
    split; [lia|]. split.
    + intros hh Hh. destruct (Z.eq_dec hh (Z.of_nat n)) as [->|]; [lia|apply B; lia].
    + destruct C as [C|(hh & Hh & C)]; [|right; exists hh; split; [lia|exact C]].
      unfold r' in C. destruct (v (Z.of_nat n) <? r) eqn:E; [|auto].
      right. exists (Z.of_nat n). split; [lia|exact C].
Qed.
Theorem getMin_correct : forall m set, day (sget m set) ->
  (getMin m set = 255 <-> forall hh, 0 <= hh < 24 -> sget m set hh = 255) /\
  (forall hh, 0 <= hh < 24 -> getMin m set <= sget m set hh) /\
  (getMin m set = 255 \/ exists hh, 0 <= hh < 24 /\ getMin m set = sget m set hh).
Proof.
  intros m set HD. unfold getMin, hours_desc.
  assert (HP : forall hh, 0 <= hh < Z.of_nat 24 -> 0 <= sget m set hh).
  { intros hh Hh. specialize (HD hh ltac:(lia)). unfold byte in HD. lia. }
  destruct (min_loop (sget m set) 24 UNSET_BYTE HP ltac:(unfold UNSET_BYTE; lia)) as (A & B & C).
  set (x := fold_left _ _ _) in *. clearbody x. unfold UNSET_BYTE in *.
  change (Z.of_nat 24) with 24 in *. split; [|split; [exact B|exact C]].
  split.
  - intros ->. intros hh Hh. specialize (B hh Hh). specialize (HD hh Hh). unfold byte in HD. lia.
  - intros H. destruct C as [C|(hh & Hh & C)]; [exact C|]. rewrite (H hh Hh) in C. exact C.
Qed.

Lemma max_loop v n : forall r,
  let x := fold_left (fun r hh => let y := v hh in
    if negb (255 =? y) && ((255 =? r) || (r <? y)) then y else r) (hours_from n) r in
  (x = 255 <-> r = 255 /\ forall hh, 0 <= hh < Z.of_nat n -> v hh = 255) /\
  (r <> 255 -> r <= x) /\
  (forall hh, 0 <= hh < Z.of_nat n -> v hh <> 255 -> v hh <= x) /\
  (x = r \/ exists hh, 0 <= hh < Z.of_nat n /\ x = v hh).
Proof.
  induction n; intros r x.
  - cbn in x. subst x. split; [split; [intros ->; split; [reflexivity|intros; lia]|tauto]|]. split; [lia|]. split; [intros; lia|auto].
  - subst x. cbn [hours_from fold_left]. cbv zeta.
    set (y := v (Z.of_nat n)).
    set (r' := if negb (255 =? y) && ((255 =? r) || (r <? y)) then y else r).
    destruct (IHn r') as (A & B & C & D).
    set (x := fold_left _ (hours_from n) r') in *. clearbody x.
    assert (HR : (r' = 255 <-> r = 255 /\ y = 255) /\ (r <> 255 -> r <= r') /\ (y <> 255 -> y <= r') /\ (r' = r \/ r' = y)).
    { unfold r'. destruct (255 =? y) eqn:E1; destruct (255 =? r) eqn:E2; destruct (r <? y) eqn:E3; cbn [negb andb orb]; lia. }
    destruct HR as (R1 & R2 & R3 & R4). clearbody r'.
    split; [|split; [|split]].
    + rewrite A, R1. split.
      * intros ((-> & Hy) & H). split; [reflexivity|]. intros hh Hh.
        destruct (Z.eq_dec hh (Z.of_nat n)) as [->|]; [exact Hy|apply H; lia].
      * intros (-> & H). split; [split; [reflexivity|apply H; lia]|]. intros hh Hh. apply H. lia.
    + intros H. specialize (R2 H). assert (r' <> 255) by tauto. specialize (B H0). lia.
    + intros hh Hh Hv. destruct (Z.eq_dec hh (Z.of_nat n)) as [->|]; [|apply C; auto; lia].
      specialize (R3 Hv). assert (r' <> 255) by tauto. specialize (B H). fold y. lia.
    + destruct D as [D|(hh & Hh & D)]; [|right; exists hh; split; [lia|exact D]].
      destruct R4 as [R4|R4]; [left; congruence|]. right. exists (Z.of_nat n). split; [lia|]. unfold y in *. congruence.
Qed.
Theorem getMax_correct : forall m set,
  (getMax m set = 255 <-> forall hh, 0 <= hh < 24 -> sget m set hh = 255) /\
  (forall hh, 0 <= hh < 24 -> sget m set hh <> 255 -> sget m set hh <= getMax m set) /\
  (getMax m set = 255 \/ exists hh, 0 <= hh < 24 /\ getMax m set = sget m set hh).
Proof.
  intros m set. destruct (max_loop (sget m set) 24 255) as (A & B & C & D).
  unfold getMax, hours_desc, UNSET_BYTE. set (x := fold_left _ _ _) in *. clearbody x.
  change (Z.of_nat 24) with 24 in *. tauto.
Qed.
Example minmax_ex :
  let m : Store := fun s h => if h <? 3 then 255 else 10 * h in
  getMin m 0 = 30 /\ getMax m 0 = 230 /\ getMin (fun _ _ => 255) 0 = 255 /\ getMax (fun _ _ => 255) 0 = 255.
Proof. vm_compute. auto. Qed.

(** ** Quartiles *)
Lemma quart_exact m set test n : forall cnt, 0 <= cnt < 18 -> (n <= 24)%nat ->
  (quart_loop m set test (hours_from n) cnt = true <->
   exists k, 0 <= k <= Z.of_nat n /\ (forall hh, k <= hh < Z.of_nat n -> sget m set hh <> 255) /\
     18 <= cnt + num_upto (fun h => (k <=? h) && test (sget m set h)) n).
Proof.
  induction n; intros cnt Hc Hn.
  - cbn. split; [discriminate|]. intros (k & _ & _ & H). lia.
  - cbn [hours_from quart_loop num_upto]. cbv zeta. unfold UNSET_BYTE.
    set (v := sget m set (Z.of_nat n)).
    assert (NEXT : forall c, cnt <= c <= cnt + 1 -> c = cnt + (if test v then 1 else 0) -> c < 18 -> v <> 255 ->
      (quart_loop m set test (hours_from n) c = true <->
       exists k, 0 <= k <= Z.of_nat (S n) /\ (forall hh, k <= hh < Z.of_nat (S n) -> sget m set hh <> 255) /\
        18 <= cnt + ((if (k <=? Z.of_nat n) && test v then 1 else 0) + num_upto (fun h => (k <=? h) && test (sget m set h)) n))).
    { intros c Hcc Ec Hlt Hv. rewrite IHn by lia. split.
      - intros (k & Hk & HA & HB). exists k. split; [lia|]. split.
        + intros hh Hh. destruct (Z.eq_dec hh (Z.of_nat n)) as [->|]; [exact Hv|apply HA; lia].
        + replace (k <=? Z.of_nat n) with true by lia. cbn [andb]. lia.
      - intros (k & Hk & HA & HB). destruct (Z.eq_dec k (Z.of_nat (S n))) as [->|].
        + exfalso. replace (Z.of_nat (S n) <=? Z.of_nat n) with false in HB by lia. cbn [andb] in HB.
          rewrite (num_upto_ext _ (fun _ => false)) in HB by (intros; replace (Z.of_nat (S n) <=? h) with false by lia; reflexivity).
          assert (num_upto (fun _ => false) n = 0) by (clear; induction n; cbn; lia). lia.
        + exists k. split; [lia|]. split; [intros; apply HA; lia|].
          replace (k <=? Z.of_nat n) with true in HB by lia. cbn [andb] in HB. lia. }
    destruct (255 =? v) eqn:EV.
    + split; [discriminate|]. intros (k & Hk & HA & HB). exfalso.
      assert (Hv : v = 255) by lia. destruct (Z.eq_dec k (Z.of_nat (S n))) as [->|].
      * replace (Z.of_nat (S n) <=? Z.of_nat n) with false in HB by lia. cbn [andb] in HB.
        rewrite (num_upto_ext _ (fun _ => false)) in HB by (intros; replace (Z.of_nat (S n) <=? h) with false by lia; reflexivity).
        assert (num_upto (fun _ => false) n = 0) by (clear; induction n; cbn; lia). lia.
      * apply (HA (Z.of_nat n) ltac:(lia)). exact Hv.
    + assert (Hv : v <> 255) by lia. destruct (test v) eqn:ET.
      * rewrite u8_id by (unfold byte; lia). destruct (18 <=? cnt + 1) eqn:E18.
        -- split; [intros _|reflexivity]. exists (Z.of_nat n). split; [lia|]. split.
           ++ intros hh Hh. assert (hh = Z.of_nat n) as -> by lia. exact Hv.
           ++ replace (Z.of_nat n <=? Z.of_nat n) with true by lia. cbn [andb].
              pose proof (num_upto_range (fun h => (Z.of_nat n <=? h) && test (sget m set h)) n). lia.
        -- apply NEXT; lia || exact Hv.
      * apply NEXT; lia || exact Hv.
Qed.

(** Exact meaning of the quartile tests: there is an hour k such that every hour
    from k to 23 is set and at least 18 of these are beyond the sample. *)
Theorem inBottomQuartile_exact : forall m set sample,
  inBottomQuartile m set sample = true <->
  exists k, 0 <= k <= 24 /\ (forall hh, k <= hh < 24 -> sget m set hh <> 255) /\
    18 <= num_hours_from k (fun h => sample <? sget m set h).
Proof.
  intros m set sample. unfold inBottomQuartile, hours_desc.
  rewrite quart_exact by lia. change (Z.of_nat 24) with 24. reflexivity.
Qed.
Theorem inTopQuartile_exact : forall m set sample, sample <> 255 ->
  inTopQuartile m set sample = true <->
  exists k, 0 <= k <= 24 /\ (forall hh, k <= hh < 24 -> sget m set hh <> 255) /\
    18 <= num_hours_from k (fun h => sget m set h <? sample).
Proof.
  intros m set sample Hs. unfold inTopQuartile, hours_desc, UNSET_BYTE. replace (255 =? sample) with false by lia.
  rewrite quart_exact by lia. change (Z.of_nat 24) with 24. reflexivity.
Qed.

Lemma from_le k P : num_hours_from k P <= num_hours P.
Proof. apply num_upto_le. intros h _ H. apply andb_prop in H. tauto. Qed.
Lemma from_0 P : num_hours_from 0 P = num_hours P.
Proof. apply num_upto_ext. intros h H. replace (0 <=? h) with true by lia. reflexivity. Qed.

(** With a full day of statistics the tests are exactly "at least three quarters
    of the day's values are beyond the sample". *)
Theorem quartiles_full_day_partial : forall m set sample, full_day (sget m set) -> sample <> 255 ->
  (inBottomQuartile m set sample = true <-> 18 <= num_hours (fun h => sample <? sget m set h)) /\
  (inTopQuartile m set sample = true <-> 18 <= num_hours (fun h => sget m set h <? sample)).
Proof.
  intros m set sample HF Hs. rewrite inBottomQuartile_exact, (inTopQuartile_exact _ _ _ Hs).
  split; (split; [intros (k & _ & _ & H)|intros H]).
  - pose proof (from_le k (fun h => sample <? sget m set h)). lia.
  - exists 0. split; [lia|]. split; [exact HF|]. rewrite from_0. exact H.
  - pose proof (from_le k (fun h => sget m set h <? sample)). lia.
  - exists 0. split; [lia|]. split; [exact HF|]. rewrite from_0. exact H.
Qed.
Example quartiles_ex :
  let m : Store := fun s h => 10 * h in
  inBottomQuartile m 0 50 = true /\ inBottomQuartile m 0 60 = false /\
  inTopQuartile m 0 180 = true /\ inTopQuartile m 0 170 = false /\
  inOutlierQuartile true m 0 255 20 = true /\ inOutlierQuartile false m 0 254 23 = true.
Proof. vm_compute. auto 8. Qed.

(** Without a full day the answer can be 'yes' although hours are unset: the
    documented "none unset" is not guaranteed (hours 0 to 5 are not looked at once
    18 later hours have decided). *)
Theorem quartile_needs_full_day_refuted : exists m set sample,
  day (sget m set) /\ inBottomQuartile m set sample = true /\ ~ full_day (sget m set).
Proof.
  exists (fun s h => if h <? 6 then 255 else 100), 0, 50. split; [|split].
  - intros hh _. unfold sget, byte, UNSET_BYTE. destruct (_ || _); [lia|]. destruct (hh <? 6); lia.
  - reflexivity.
  - intros H. apply (H 0); [lia|reflexivity].
Qed.
(** Still at least 18 hours must be set. *)
Theorem quartile_at_least_18_set : forall m set sample,
  inBottomQuartile m set sample = true \/ inTopQuartile m set sample = true ->
  18 <= num_hours (fun h => negb (sget m set h =? 255)).
Proof.
  intros m set sample [H|H].
  - apply inBottomQuartile_exact in H. destruct H as (k & Hk & HA & HB).
    assert (num_hours_from k (fun h => sample <? sget m set h) <= num_hours (fun h => negb (sget m set h =? 255))); [|lia].
    apply num_upto_le. intros h Hh HP. apply andb_prop in HP. destruct HP as [HP _]. specialize (HA h ltac:(lia)). lia.
  - destruct (Z.eq_dec sample 255) as [->|Hs]; [discriminate H|].
    apply inTopQuartile_exact in H; [|exact Hs]. destruct H as (k & Hk & HA & HB).
    assert (num_hours_from k (fun h => sget m set h <? sample) <= num_hours (fun h => negb (sget m set h =? 255))); [|lia].
    apply num_upto_le. intros h Hh HP. apply andb_prop in HP. destruct HP as [HP _]. specialize (HA h ltac:(lia)). lia.
Qed.

(** No hour is both in the top and in the bottom quartile; with all values equal
    it is in neither; an unset or invalid hour or set is in neither. *)
Theorem outlier_exclusive : forall m set hh cur,
  ~ (inOutlierQuartile true m set hh cur = true /\ inOutlierQuartile false m set hh cur = true).
Proof.
  intros m set hh cur [H1 H2]. unfold inOutlierQuartile in *. cbv zeta in *.
  set (x := if 23 <? hh then getByHourStatRTC m set hh cur else sget m set hh) in *. clearbody x.
  unfold UNSET_BYTE in *. destruct (255 =? x) eqn:E; [discriminate H1|].
  apply inTopQuartile_exact in H1; [|lia]. apply inBottomQuartile_exact in H2.
  destruct H1 as (k1 & _ & _ & N1). destruct H2 as (k2 & _ & _ & N2).
  pose proof (from_le k1 (fun h => sget m set h <? x)). pose proof (from_le k2 (fun h => x <? sget m set h)).
  assert (num_upto (fun h => sget m set h <? x) 24 + num_upto (fun h => x <? sget m set h) 24 <= Z.of_nat 24).
  { apply num_upto_disj. intros h _ Hp. lia. }
  unfold num_hours in *. lia.
Qed.
(** On a flat day (every hour the same) no hour is an outlier. *)
Theorem outlier_flat_day : forall inTop m set hh cur c,
  0 <= hh < 256 -> 0 <= cur < 24 ->
  (forall h, 0 <= h < 24 -> sget m set h = c) -> inOutlierQuartile inTop m set hh cur = false.
Proof.
  intros inTop m set hh cur c Hh Hcur HC. unfold inOutlierQuartile. cbv zeta.
  set (x := if 23 <? hh then getByHourStatRTC m set hh cur else sget m set hh).
  assert (Hx : x = c \/ x = 255).
  { unfold x, getByHourStatRTC. destruct (23 <? hh) eqn:E23.
    - assert (G : 0 <= getSpecialHour hh cur).
      { unfold getSpecialHour. destruct (hh =? 255); [lia|]. destruct (hh =? 254).
        - destruct (23 <=? cur); [lia|]. unfold u8. apply Z.mod_pos_bound; lia.
        - destruct (hh =? 253); [|lia]. destruct (0 =? cur); [lia|]. unfold u8. apply Z.mod_pos_bound; lia. }
      destruct (Z_lt_dec (getSpecialHour hh cur) 24); [left; apply HC; lia|].
      right. unfold sget. replace (24 <=? getSpecialHour hh cur) with true by lia.
      rewrite orb_true_r. reflexivity.
    - left. apply HC. lia. }
  clearbody x. unfold UNSET_BYTE. destruct (255 =? x) eqn:E; [reflexivity|].
  assert (x = c) as -> by lia.
  assert (Z0 : forall k P, (forall h, 0 <= h < 24 -> P h = false) -> num_hours_from k P <= 0).
  { intros k P HP. unfold num_hours_from, num_hours.
    rewrite (num_upto_ext _ (fun _ => false)); [vm_compute; discriminate|].
    intros h H. rewrite HP by (change (Z.of_nat 24) with 24 in H; lia). apply andb_false_r. }
  apply not_true_is_false. intros HT. destruct inTop.
  - apply inTopQuartile_exact in HT; [|lia]. destruct HT as (k & _ & _ & N).
    specialize (Z0 k (fun h => sget m set h <? c)).
    assert (forall h, 0 <= h < 24 -> (sget m set h <? c) = false) by (intros h H; rewrite HC by lia; lia).
    specialize (Z0 H). lia.
  - apply inBottomQuartile_exact in HT. destruct HT as (k & _ & _ & N).
    specialize (Z0 k (fun h => c <? sget m set h)).
    assert (forall h, 0 <= h < 24 -> (c <? sget m set h) = false) by (intros h H; rewrite HC by lia; lia).
    specialize (Z0 H). lia.
Qed.
Example outlier_flat_ex :
  inOutlierQuartile true (fun _ _ => 7) 2 254 23 = false /\
  (forall h, 0 <= h < 24 -> sget (fun _ _ => 7) 2 h = 7).
Proof.
  split; [reflexivity|]. intros h H. unfold sget, STATS_SETS. replace (24 <=? h) with false by lia. reflexivity.
Qed.
