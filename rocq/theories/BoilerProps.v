(** C33, C34: boiler minimum on/off times and freshness of calls for heat. *)
From Verif Require Import Base BoilerModel.

(** Pin level after tick [i] (low when there is no such tick). *)
Definition pin_at (pins : list bool) (i : nat) : bool := nth i pins false.
Definition tick_ok (t : BTick) : Prop := bt_hub t = true /\ byte (bt_min t).
(** Number of minute boundaries among ticks [i, j). *)
Definition minutes_in (l : list BTick) (i j : nat) : Z :=
  Zlen (filter bt_second0 (firstn (j - i) (skipn i l))).

Lemma calls_effect cs : forall b,
  let b' := fold_left (fun b c => remoteCallForHeatRX b (fst c) (snd c)) cs b in
  boilerNoCallM b' = boilerNoCallM b /\ boilerCountdownTicks b' = boilerCountdownTicks b /\
  (callForHeatRX b' = true -> callForHeatRX b = true \/ exists c, In c cs /\ 50 <= fst c) /\
  (callForHeatRX b = true -> callForHeatRX b' = true) /\
  ((exists c, In c cs /\ 66 <= fst c) -> callForHeatRX b' = true).
Proof.
  induction cs as [|c cs IH]; intros b; cbn [fold_left].
  - repeat split; auto. intros (c & [] & _).
  - specialize (IH (remoteCallForHeatRX b (fst c) (snd c))). cbv zeta in *.
    destruct IH as (I1 & I2 & I3 & I4 & I5). rewrite I1, I2.
    assert (HT : exists th, 50 <= th <= 66 /\ remoteCallForHeatRX b (fst c) (snd c) =
        if fst c >=? th then mkBoiler true (boilerNoCallM b) (boilerCountdownTicks b) else b).
    { eexists. split; [|reflexivity]. destruct (_ && _); unfold getMinValveReallyOpen, MODERATELY_OPEN; lia. }
    destruct HT as (th & Hth & HR). rewrite HR in *. clear HR.
    destruct (fst c >=? th) eqn:E; cbn [boilerNoCallM boilerCountdownTicks callForHeatRX] in *.
    + repeat split; auto.
      intros H. right. exists c. split; [left; reflexivity|lia].
    + repeat split; auto.
      * intros H. destruct (I3 H) as [H1|(c' & H1 & H2)]; [auto|]. right. exists c'. split; [right; exact H1|exact H2].
      * intros (c' & [<-|H1] & H2); [lia|]. apply I5. exists c'. auto.
Qed.

(** State invariant. *)
Definition BInv (b : Boiler) : Prop := 0 <= boilerCountdownTicks b <= 7650 /\ 0 <= boilerNoCallM b <= 255.

(** One hub-mode tick, summarised. *)
Lemma step_cases b t : BInv b -> tick_ok t ->
  let (b', p) := boiler_step b t in
  BInv b' /\ callForHeatRX b' = false /\ p = (0 <? boilerCountdownTicks b') /\
  ((* a call for heat (re)starts the countdown *)
   ((callForHeatRX b = true \/ exists c, In c (bt_calls t) /\ 50 <= fst c) /\
    (0 < boilerCountdownTicks b \/ Z.min 254 (bt_min t) < boilerNoCallM b) /\
    boilerCountdownTicks b' = Z.max 0 (30 * bt_min t - 1) /\
    boilerNoCallM b' <= (if bt_second0 t then 1 else 0) /\ (0 < bt_min t -> boilerNoCallM b' = 0))
   \/ (* the countdown continues *)
   (0 < boilerCountdownTicks b /\ boilerCountdownTicks b' = boilerCountdownTicks b - 1 /\
    boilerNoCallM b' = boilerNoCallM b /\ (forall c, In c (bt_calls t) -> fst c < 66))
   \/ (* off and stays off *)
   (boilerCountdownTicks b = 0 /\ boilerCountdownTicks b' = 0 /\
    boilerNoCallM b <= boilerNoCallM b' <= boilerNoCallM b + (if bt_second0 t then 1 else 0) /\
    ((exists c, In c (bt_calls t) /\ 66 <= fst c) -> boilerNoCallM b <= Z.min 254 (bt_min t)))).
Proof.
  intros [HC HN] [Hhub Hm]. unfold boiler_step, byte in *.
  destruct (calls_effect (bt_calls t) b) as (I1 & I2 & I3 & I4 & I5).
  set (b1 := fold_left _ _ b) in *. unfold processCallsForHeat. rewrite Hhub. unfold isBoilerOn.
  cbn [boilerCountdownTicks boilerNoCallM].
  assert (Hu : u16 (bt_min t * 30) = 30 * bt_min t) by (rewrite u16_id; lia).
  destruct (callForHeatRX b1) eqn:EC.
  - destruct (negb (negb (0 =? boilerCountdownTicks b1)) && (boilerNoCallM b1 <=? Z.min 254 (bt_min t))) eqn:EI;
      cbn [boilerCountdownTicks boilerNoCallM callForHeatRX].
    + replace (0 =? boilerCountdownTicks b1) with true by lia. cbn [negb].
      destruct (bt_second0 t && (boilerNoCallM b1 <? 255)) eqn:ES; unfold BInv; cbn [boilerCountdownTicks boilerNoCallM callForHeatRX].
      * split; [lia|]. split; [auto|]. split; [lia|]. right. right. destruct (bt_second0 t); lia.
      * split; [lia|]. split; [auto|]. split; [lia|]. right. right. destruct (bt_second0 t); lia.
    + rewrite Hu. destruct (0 =? 30 * bt_min t) eqn:EZ; cbn [negb].
      * destruct (bt_second0 t && (0 <? 255)) eqn:ES; unfold BInv; cbn [boilerCountdownTicks boilerNoCallM callForHeatRX];
          (split; [lia|]); (split; [reflexivity|]); (split; [lia|]); left;
          (split; [auto|]); (split; [lia|]); lia.
      * unfold BInv; cbn [boilerCountdownTicks boilerNoCallM callForHeatRX].
        split; [lia|]. split; [reflexivity|]. split; [lia|]. left. split; [auto|]. split; [lia|]. destruct (bt_second0 t); lia.
  - assert (HNo : forall c, In c (bt_calls t) -> fst c < 66).
    { intros c Hc. destruct (Z_lt_ge_dec (fst c) 66); [assumption|]. exfalso.
      enough (callForHeatRX b1 = true) by congruence. rewrite EC. apply I5. exists c. split; [exact Hc|lia]. }
    destruct (0 =? boilerCountdownTicks b1) eqn:EZ; cbn [negb].
    + destruct (bt_second0 t && (boilerNoCallM b1 <? 255)) eqn:ES; unfold BInv; cbn [boilerCountdownTicks boilerNoCallM callForHeatRX].
      * split; [lia|]. split; [exact EC|]. split; [lia|]. right. right. split; [lia|]. split; [lia|].
        split; [destruct (bt_second0 t); lia|]. intros (c & Hc & H). specialize (HNo c Hc). lia.
      * split; [lia|]. split; [exact EC|]. split; [lia|]. right. right. split; [lia|]. split; [lia|].
        split; [destruct (bt_second0 t); lia|]. intros (c & Hc & H). specialize (HNo c Hc). lia.
    + unfold BInv; cbn [boilerCountdownTicks boilerNoCallM callForHeatRX].
      split; [lia|]. split; [exact EC|]. split; [lia|]. right. left. repeat (split; [lia|]). exact HNo.
Qed.

Definition bstate (b : Boiler) (l : list BTick) (i : nat) : Boiler :=
  fold_left (fun b t => fst (boiler_step b t)) (firstn i l) b.
Lemma bstate_S b l i t : nth_error l i = Some t -> bstate b l (S i) = fst (boiler_step (bstate b l i) t).
Proof.
  intros H. unfold bstate. destruct (nth_error_split l i H) as (l1 & l2 & -> & <-).
  rewrite firstn_app, firstn_all2 by lia. replace (S (length l1) - length l1)%nat with 1%nat by lia. cbn [firstn].
  rewrite fold_left_app. cbn [fold_left]. rewrite firstn_app, firstn_all, Nat.sub_diag, firstn_O, app_nil_r. reflexivity.
Qed.
Lemma run_pin l : forall b i t, nth_error l i = Some t ->
  pin_at (boiler_run b l) i = snd (boiler_step (bstate b l i) t).
Proof.
  induction l as [|t0 l IH]; intros b i t H; [destruct i; discriminate|]. cbn [boiler_run].
  destruct (boiler_step b t0) as [b' p] eqn:E. destruct i as [|i]; cbn [nth_error] in H.
  - injection H as <-. unfold bstate. cbn [firstn fold_left]. rewrite E. reflexivity.
  - unfold pin_at in *. cbn [nth]. rewrite (IH b' i t H). unfold bstate. cbn [firstn fold_left]. rewrite E. reflexivity.
Qed.
Lemma run_length l : forall b, length (boiler_run b l) = length l.
Proof. induction l as [|t l IH]; intros b; cbn [boiler_run]; [reflexivity|]. destruct (boiler_step b t). simpl. rewrite IH. reflexivity. Qed.

Lemma bstate_inv l b i : Forall tick_ok l -> BInv b -> BInv (bstate b l i).
Proof.
  intros HF HB. induction i as [|i IH]; [exact HB|].
  destruct (nth_error l i) as [t|] eqn:E.
  - rewrite (bstate_S _ _ _ _ E). pose proof (step_cases (bstate b l i) t IH (proj1 (Forall_forall _ _) HF t (nth_error_In _ _ E))) as H.
    destruct (boiler_step _ t). apply H.
  - apply nth_error_None in E. unfold bstate in *. rewrite firstn_all2 in * by lia. exact IH.
Qed.
(** The pin is high exactly while the countdown runs. *)
Lemma pin_state l b i : Forall tick_ok l -> BInv b -> (i < length l)%nat ->
  pin_at (boiler_run b l) i = (0 <? boilerCountdownTicks (bstate b l (S i))).
Proof.
  intros HF HB Hi. destruct (nth_error l i) as [t|] eqn:E; [|apply nth_error_None in E; lia].
  rewrite (run_pin l b i t E), (bstate_S _ _ _ _ E).
  pose proof (step_cases _ t (bstate_inv l b i HF HB) (proj1 (Forall_forall _ _) HF t (nth_error_In _ _ E))) as H.
  destruct (boiler_step _ t) as [b' p]. apply H.
Qed.

Lemma BInv0 : BInv Boiler0. Proof. unfold BInv; cbn; lia. Qed.

(** Hub mode throughout, minimum on-time [m] minutes throughout. *)
Definition hub_life (m : Z) (l : list BTick) : Prop :=
  byte m /\ Forall (fun t => bt_hub t = true /\ bt_min t = m) l.
Lemma hub_life_ok m l : hub_life m l -> Forall tick_ok l.
Proof. intros [Hm H]. eapply Forall_impl; [|exact H]. intros t [A B]. split; [exact A|congruence]. Qed.
Lemma hub_life_at m l i t : hub_life m l -> nth_error l i = Some t -> bt_hub t = true /\ bt_min t = m.
Proof. intros [_ H] E. apply (proj1 (Forall_forall _ _) H t (nth_error_In _ _ E)). Qed.

(** ** C33 *)
(** Minimum on time.  In hub mode, if the pin goes high at tick [i] (low at the tick
    before, or first tick) it stays high for 30 ticks of 2s per configured
    minute less one tick.  Missing from the full claim: the last tick (see the
    refutation). *)
Theorem C33_min_on_partial : forall m l i k,
  hub_life m l ->
  pin_at (boiler_run Boiler0 l) i = true ->
  (i = 0%nat \/ pin_at (boiler_run Boiler0 l) (i - 1) = false) ->
  (i <= k < length l)%nat -> Z.of_nat (k - i) < 30 * m - 1 ->
  pin_at (boiler_run Boiler0 l) k = true.
Proof.
  intros m l i k HL Hp Hprev Hk Hd. pose proof (hub_life_ok m l HL) as HF.
  destruct (nth_error l i) as [ti|] eqn:Hi; [|apply nth_error_None in Hi; lia].
  destruct (hub_life_at m l i ti HL Hi) as [_ Hmi].
  assert (H0 : boilerCountdownTicks (bstate Boiler0 l i) = 0).
  { destruct Hprev as [->|Hprev]; [reflexivity|]. destruct i; [reflexivity|].
    rewrite Nat.sub_succ, Nat.sub_0_r in Hprev. rewrite pin_state in Hprev by (auto using BInv0; lia).
    pose proof (bstate_inv l Boiler0 (S i) HF BInv0) as [H _]. lia. }
  assert (H1 : forall d, (i + d < length l)%nat -> Z.of_nat d < 30 * m - 1 ->
     boilerCountdownTicks (bstate Boiler0 l (S (i + d))) >= 30 * m - 1 - Z.of_nat d).
  { induction d as [|d IH]; intros Hlt Hdm.
    - rewrite Nat.add_0_r. rewrite pin_state in Hp by (auto using BInv0; lia).
      pose proof (step_cases _ ti (bstate_inv l Boiler0 i HF BInv0) (proj1 (Forall_forall _ _) HF ti (nth_error_In _ _ Hi))) as H.
      rewrite (bstate_S _ _ _ _ Hi) in *. destruct (boiler_step (bstate Boiler0 l i) ti) as [b' p]. cbn [fst] in *.
      destruct H as (_ & _ & _ & [H|[H|H]]); lia.
    - specialize (IH ltac:(lia) ltac:(lia)). replace (i + S d)%nat with (S (i + d)) in * by lia.
      destruct (nth_error l (S (i + d))) as [t|] eqn:Ht; [|apply nth_error_None in Ht; lia].
      destruct (hub_life_at m l _ t HL Ht) as [_ Hmt].
      pose proof (step_cases _ t (bstate_inv l Boiler0 (S (i + d)) HF BInv0) (proj1 (Forall_forall _ _) HF t (nth_error_In _ _ Ht))) as H.
      rewrite (bstate_S _ _ _ _ Ht). destruct (boiler_step _ t) as [b' p]. cbn [fst] in *.
      destruct H as (_ & _ & _ & [H|[H|H]]); lia. }
  rewrite pin_state by (auto using BInv0; lia). specialize (H1 (k - i)%nat ltac:(lia) ltac:(lia)).
  replace (i + (k - i))%nat with k in H1 by lia. lia.
Qed.

(** One minute configured, one valve calling 100% once after two minutes of
    quiet: the boiler is on for 29 ticks (58s) only. *)
Definition call_tick (s0 : bool) (m : Z) : BTick := mkBTick [(100, 20)] s0 true m.
Definition quiet_tick (s0 : bool) (m : Z) : BTick := mkBTick [] s0 true m.
Definition quiet_minute (m : Z) : list BTick := quiet_tick true m :: repeat (quiet_tick false m) 29.
Theorem C33_min_on_refuted :
  let l := quiet_minute 1 ++ quiet_minute 1 ++ [call_tick false 1] ++ quiet_minute 1 in
  hub_life 1 l /\
  boiler_run Boiler0 l = repeat false 60 ++ repeat true 29 ++ repeat false 2.
Proof.
  split; [|vm_compute; reflexivity]. split; [unfold byte; lia|].
  apply Forall_forall. intros t Ht. vm_compute in Ht. repeat (destruct Ht as [<-|Ht]; [split; reflexivity|]). destruct Ht.
Qed.

Lemma minutes_in_S l i j t : (i <= j)%nat -> nth_error l j = Some t ->
  minutes_in l i (S j) = minutes_in l i j + (if bt_second0 t then 1 else 0).
Proof.
  intros Hij Ht. unfold minutes_in. replace (S j - i)%nat with (S (j - i)) by lia.
  assert (HE : nth_error (skipn i l) (j - i) = Some t).
  { rewrite <- (firstn_skipn i l) in Ht. rewrite nth_error_app2 in Ht by (rewrite firstn_length; lia).
    rewrite firstn_length in Ht. assert ((i <= length l)%nat).
    { destruct (le_lt_dec i (length l)); [assumption|]. rewrite skipn_all2 in Ht by lia. destruct (j - _)%nat; discriminate. }
    replace (Nat.min i (length l)) with i in Ht by lia. exact Ht. }
  destruct (nth_error_split _ _ HE) as (a & b & Hab & Ha). rewrite Hab, <- Ha.
  rewrite !firstn_app, firstn_all2 by lia. replace (S (length a) - length a)%nat with 1%nat by lia.
  rewrite firstn_all, Nat.sub_diag. cbn [firstn]. rewrite filter_app, app_nil_r, Zlen_app. cbn [filter].
  destruct (bt_second0 t); autorewrite with zlen; lia.
Qed.
Lemma minutes_in_same l i : minutes_in l i i = 0.
Proof. unfold minutes_in. rewrite Nat.sub_diag. reflexivity. Qed.

(** Between two moments with the boiler off throughout, the quiet time counts at
    most the minute boundaries passed. *)
Lemma off_count m l i : hub_life m l -> forall j, (i <= j <= length l)%nat ->
  (forall k, (i <= k < j)%nat -> pin_at (boiler_run Boiler0 l) k = false) ->
  boilerCountdownTicks (bstate Boiler0 l i) = 0 ->
  boilerNoCallM (bstate Boiler0 l j) <= Z.max (boilerNoCallM (bstate Boiler0 l i)) 0 + minutes_in l i j.
Proof.
  intros HL. pose proof (hub_life_ok m l HL) as HF. induction j as [|j IH]; intros Hij Hoff H0.
  - replace i with 0%nat in * by lia. rewrite minutes_in_same. lia.
  - destruct (Nat.eq_dec i (S j)) as [->|Hne]; [rewrite minutes_in_same; lia|].
    specialize (IH ltac:(lia) ltac:(intros; apply Hoff; lia) H0).
    destruct (nth_error l j) as [t|] eqn:Ht; [|apply nth_error_None in Ht; lia].
    rewrite (minutes_in_S l i j t) by (auto; lia).
    assert (HC : boilerCountdownTicks (bstate Boiler0 l j) = 0).
    { destruct (Nat.eq_dec i j) as [->|Hn2]; [exact H0|]. destruct j; [lia|].
      pose proof (Hoff j ltac:(lia)) as Hp. rewrite pin_state in Hp by (auto using BInv0; lia).
      pose proof (bstate_inv l Boiler0 (S j) HF BInv0) as [Hx _]. lia. }
    pose proof (step_cases _ t (bstate_inv l Boiler0 j HF BInv0) (proj1 (Forall_forall _ _) HF t (nth_error_In _ _ Ht))) as H.
    pose proof (Hoff j ltac:(lia)) as Hp. rewrite pin_state in Hp by (auto using BInv0; lia).
    pose proof (bstate_inv l Boiler0 j HF BInv0) as [_ Hx].
    assert (Hs0 : 0 <= minutes_in l i j) by apply Zlen_nonneg.
    destruct (hub_life_at m l _ t HL Ht) as [_ Hmt].
    rewrite (bstate_S _ _ _ _ Ht) in *. destruct (boiler_step _ t) as [b' p]. cbn [fst] in *.
    destruct H as (_ & _ & _ & [H|[H|H]]); [|lia|destruct (bt_second0 t); lia].
    (* a call accepted with a zero on-time *)
    destruct H as (_ & _ & _ & H3 & _). destruct (bt_second0 t); lia.
Qed.

(** While the boiler is on, no quiet time is recorded. *)
Lemma on_no_quiet m l i : hub_life m l -> 0 < boilerCountdownTicks (bstate Boiler0 l i) -> boilerNoCallM (bstate Boiler0 l i) = 0.
Proof.
  intros HL. pose proof (hub_life_ok m l HL) as HF. induction i as [|i IH]; [reflexivity|].
  destruct (nth_error l i) as [t|] eqn:E.
  - pose proof (step_cases _ t (bstate_inv l Boiler0 i HF BInv0) (proj1 (Forall_forall _ _) HF t (nth_error_In _ _ E))) as H.
    rewrite (bstate_S _ _ _ _ E). destruct (boiler_step _ t) as [b' p]. cbn [fst] in *. intros Hc.
    destruct H as (_ & _ & _ & [H|[H|H]]); [|rewrite (proj1 (proj2 (proj2 H))); apply IH; lia|lia].
    destruct H as (_ & _ & H2 & _ & H4). apply H4. lia.
  - apply nth_error_None in E. unfold bstate in *. rewrite !firstn_all2 in * by lia. exact IH.
Qed.

(** To come on from off, the boiler must have been quiet for longer than the minimum. *)
Lemma turn_on_quiet m l j : hub_life m l -> (j < length l)%nat ->
  boilerCountdownTicks (bstate Boiler0 l j) = 0 -> pin_at (boiler_run Boiler0 l) j = true ->
  Z.min 254 m < boilerNoCallM (bstate Boiler0 l j).
Proof.
  intros HL Hj H0 Hp. pose proof (hub_life_ok m l HL) as HF. rewrite pin_state in Hp by (auto using BInv0).
  destruct (nth_error l j) as [t|] eqn:E; [|apply nth_error_None in E; lia].
  destruct (hub_life_at m l _ t HL E) as [_ Hmt].
  pose proof (step_cases _ t (bstate_inv l Boiler0 j HF BInv0) (proj1 (Forall_forall _ _) HF t (nth_error_In _ _ E))) as H.
  rewrite (bstate_S _ _ _ _ E) in Hp. destruct (boiler_step _ t) as [b' p]. cbn [fst] in *.
  destruct H as (_ & _ & _ & [H|[H|H]]); lia.
Qed.

(** Minimum off time: more minute boundaries than the configured minimum pass
    between the tick at which the boiler goes off and the tick at which it next
    comes on; likewise after power-up. *)
Theorem C33_min_off : forall m l i j,
  hub_life m l -> (S i < j < length l)%nat ->
  pin_at (boiler_run Boiler0 l) i = true ->
  (forall k, (i < k < j)%nat -> pin_at (boiler_run Boiler0 l) k = false) ->
  pin_at (boiler_run Boiler0 l) j = true ->
  Z.min 254 m < minutes_in l (S (S i)) j.
Proof.
  intros m l i j HL Hij Hon Hoff Hj. pose proof (hub_life_ok m l HL) as HF.
  assert (HC2 : boilerCountdownTicks (bstate Boiler0 l (S (S i))) = 0 /\ boilerNoCallM (bstate Boiler0 l (S (S i))) = 0).
  { pose proof (Hoff (S i) ltac:(lia)) as H1. rewrite pin_state in H1, Hon by (auto using BInv0; lia).
    destruct (nth_error l (S i)) as [t|] eqn:E; [|apply nth_error_None in E; lia].
    destruct (hub_life_at m l _ t HL E) as [_ Hmt].
    pose proof (on_no_quiet m l (S i) HL ltac:(lia)) as HQ.
    pose proof (step_cases _ t (bstate_inv l Boiler0 (S i) HF BInv0) (proj1 (Forall_forall _ _) HF t (nth_error_In _ _ E))) as H.
    rewrite (bstate_S _ _ _ _ E) in *. destruct (boiler_step _ t) as [b' p]. cbn [fst] in *.
    destruct H as ([HX _] & _ & _ & [H|[H|H]]); [|lia|lia].
    (* m = 0: impossible, the boiler was on *)
    exfalso. assert (Hm0 : m = 0) by (destruct HL as [Hm _]; unfold byte in Hm; destruct H as (_ & _ & H & _); lia). rewrite Hm0 in HL, Hmt.
    assert (HZ : forall n, boilerCountdownTicks (bstate Boiler0 l n) = 0).
    { clear - HL HF. intros n. induction n as [|n IH]; [reflexivity|]. destruct (nth_error l n) as [t0|] eqn:E0.
      - destruct (hub_life_at 0 l _ t0 HL E0) as [_ Hmt].
        pose proof (step_cases _ t0 (bstate_inv l Boiler0 n HF BInv0) (proj1 (Forall_forall _ _) HF t0 (nth_error_In _ _ E0))) as H.
        rewrite (bstate_S _ _ _ _ E0). destruct (boiler_step _ t0) as [b' p]. cbn [fst] in *. destruct H as (_ & _ & _ & [H|[H|H]]); lia.
      - apply nth_error_None in E0. unfold bstate in *. rewrite !firstn_all2 in * by lia. exact IH. }
    rewrite HZ in Hon. lia. }
  destruct HC2 as [HC HN].
  pose proof (off_count m l (S (S i)) HL j ltac:(lia) ltac:(intros; apply Hoff; lia) HC) as H.
  assert (HCj : boilerCountdownTicks (bstate Boiler0 l j) = 0).
  { destruct j as [|j]; [lia|]. pose proof (Hoff j ltac:(lia)) as H1. rewrite pin_state in H1 by (auto using BInv0; lia).
    pose proof (bstate_inv l Boiler0 (S j) HF BInv0) as [Hx _]. lia. }
  pose proof (turn_on_quiet m l j HL ltac:(lia) HCj Hj). rewrite HN in H. lia.
Qed.
Theorem C33_min_off_power_up : forall m l j,
  hub_life m l -> (j < length l)%nat ->
  (forall k, (k < j)%nat -> pin_at (boiler_run Boiler0 l) k = false) ->
  pin_at (boiler_run Boiler0 l) j = true ->
  Z.min 254 m < minutes_in l 0 j.
Proof.
  intros m l j HL Hlt Hoff Hj. pose proof (hub_life_ok m l HL) as HF.
  pose proof (off_count m l 0 HL j ltac:(lia) ltac:(intros; apply Hoff; lia) eq_refl) as H.
  assert (HCj : boilerCountdownTicks (bstate Boiler0 l j) = 0).
  { destruct j as [|j]; [reflexivity|]. pose proof (Hoff j ltac:(lia)) as H1. rewrite pin_state in H1 by (auto using BInv0; lia).
    pose proof (bstate_inv l Boiler0 (S j) HF BInv0) as [Hx _]. lia. }
  pose proof (turn_on_quiet m l j HL ltac:(lia) HCj Hj).
  change (boilerNoCallM (bstate Boiler0 l 0)) with 0 in H. lia.
Qed.

(** In ticks: when minute boundaries are 30 ticks apart or more, the boiler is off for
    more than 30 ticks per configured minute. *)
Definition minute_spaced (l : list BTick) : Prop :=
  forall a b ta tb, (a < b)%nat -> nth_error l a = Some ta -> nth_error l b = Some tb ->
    bt_second0 ta = true -> bt_second0 tb = true -> 30 <= Z.of_nat (b - a).
Lemma filter_second0_length l : minute_spaced l -> filter bt_second0 l <> [] ->
  30 * (Zlen (filter bt_second0 l) - 1) + 1 <= Zlen l.
Proof.
  assert (HT : forall t l, minute_spaced (t :: l) -> minute_spaced l).
  { intros t l' H a b ta tb Hab. apply (H (S a) (S b)); simpl; lia. }
  (* stronger: distance to the end from the first boundary *)
  assert (HS : forall l t, minute_spaced (t :: l) -> bt_second0 t = true ->
     30 * Zlen (filter bt_second0 l) <= Zlen l).
  { clear l. intros l. remember (length l) as n eqn:En. revert l En.
    induction n as [n IH] using (well_founded_induction lt_wf). intros l -> t H Ht.
    destruct (filter bt_second0 l) as [|t2 r] eqn:E; [change (Zlen (@nil BTick)) with 0; pose proof (Zlen_nonneg l); lia|].
    assert (HSplit : exists l1 l2, l = l1 ++ t2 :: l2 /\ bt_second0 t2 = true /\ filter bt_second0 l2 = r /\ filter bt_second0 l1 = []).
    { clear - E. induction l as [|x l IHl]; [discriminate|]. cbn [filter] in E. destruct (bt_second0 x) eqn:Ex.
      - injection E as <- <-. exists [], l. repeat split; auto.
      - destruct (IHl E) as (l1 & l2 & -> & A & B & C). exists (x :: l1), l2. repeat split; auto. cbn [filter]. rewrite Ex. exact C. }
    destruct HSplit as (l1 & l2 & -> & H2 & <- & _).
    assert (HG : 30 <= Z.of_nat (S (length l1) - 0)).
    { apply (H 0%nat (S (length l1)) t t2); auto; [lia|]. cbn [nth_error]. rewrite nth_error_app2, Nat.sub_diag by lia. reflexivity. }
    assert (HM : minute_spaced (t2 :: l2)).
    { intros a b ta tb Hab Ha Hb. assert (Ha2 : nth_error (t :: l1 ++ t2 :: l2) (S (length l1) + a) = Some ta).
      { cbn [nth_error Nat.add]. rewrite nth_error_app2 by lia. replace (length l1 + a - length l1)%nat with a by lia. exact Ha. }
      assert (Hb2 : nth_error (t :: l1 ++ t2 :: l2) (S (length l1) + b) = Some tb).
      { cbn [nth_error Nat.add]. rewrite nth_error_app2 by lia. replace (length l1 + b - length l1)%nat with b by lia. exact Hb. }
      intros Hsa Hsb. pose proof (H (S (length l1) + a)%nat (S (length l1) + b)%nat ta tb ltac:(lia) Ha2 Hb2 Hsa Hsb). lia. }
    specialize (IH (length l2) ltac:(rewrite app_length; simpl; lia) l2 eq_refl t2 HM H2).
    rewrite Zlen_app, !Zlen_cons. unfold Zlen at 2. lia. }
  induction l as [|t l IH]; intros H HN; [destruct HN; reflexivity|]. cbn [filter] in *.
  destruct (bt_second0 t) eqn:Et.
  - specialize (HS l t H Et). rewrite !Zlen_cons. lia.
  - specialize (IH (HT _ _ H) HN). rewrite Zlen_cons. lia.
Qed.
Theorem C33_min_off_ticks : forall m l i j,
  hub_life m l -> minute_spaced l -> (S i < j < length l)%nat ->
  pin_at (boiler_run Boiler0 l) i = true ->
  (forall k, (i < k < j)%nat -> pin_at (boiler_run Boiler0 l) k = false) ->
  pin_at (boiler_run Boiler0 l) j = true ->
  30 * Z.min 254 m + 1 < Z.of_nat (j - S i).
Proof.
  intros m l i j HL HSp Hij Hon Hoff Hj. pose proof (C33_min_off m l i j HL Hij Hon Hoff Hj) as H.
  unfold minutes_in in H. set (w := firstn (j - S (S i)) (skipn (S (S i)) l)) in *.
  assert (HM : minute_spaced w).
  { assert (HN : forall a t, nth_error w a = Some t -> nth_error l (S (S i) + a) = Some t).
    { intros a t Ha. unfold w in Ha. rewrite <- (firstn_skipn (S (S i)) l). rewrite nth_error_app2 by (rewrite firstn_length; lia).
      rewrite firstn_length. replace (S (S i) + a - Nat.min (S (S i)) (length l))%nat with a by lia.
      rewrite <- (firstn_skipn (j - S (S i)) (skipn (S (S i)) l)). rewrite nth_error_app1; [exact Ha|].
      apply nth_error_Some. congruence. }
    intros a b ta tb Hab Ha Hb Hsa Hsb. pose proof (HSp (S (S i) + a)%nat (S (S i) + b)%nat ta tb ltac:(lia) (HN a ta Ha) (HN b tb Hb) Hsa Hsb). lia. }
  assert (HW : Zlen w <= Z.of_nat (j - S (S i))) by (unfold w; rewrite Zlen_firstn; lia).
  destruct HL as [Hm _]. unfold byte in Hm.
  destruct (filter bt_second0 w) as [|x r] eqn:E; [change (Zlen (@nil BTick)) with 0 in H; lia|].
  pose proof (filter_second0_length w HM ltac:(rewrite E; discriminate)) as HL2. rewrite E in HL2. lia.
Qed.

(** With 255 minutes configured the off-time is one minute short of the claim. *)
Fixpoint minutes (n : nat) (m : Z) : list BTick := match n with O => [] | S k => quiet_minute m ++ minutes k m end.
Theorem C33_min_off_255_refuted :
  let l := minutes 254 255 ++ [quiet_tick true 255; call_tick false 255] in
  boiler_run Boiler0 l = repeat false 7621 ++ [true].
Proof. vm_compute. reflexivity. Qed.

(** The pin shows the logical state in hub mode, and is low otherwise. *)
Theorem C33_pin_follows_state : forall b s0 m,
  snd (processCallsForHeat b s0 true m) = isBoilerOn (fst (processCallsForHeat b s0 true m)).
Proof. reflexivity. Qed.

(** ** C34 *)
(** In hub mode a high pin is always due to a call of at least 50% received within
    the minimum on-time. *)
Theorem C34_recent_call_partial : forall m l k,
  hub_life m l -> pin_at (boiler_run Boiler0 l) k = true ->
  exists i ti c, (i <= k)%nat /\ nth_error l i = Some ti /\ In c (bt_calls ti) /\ 50 <= fst c /\
    Z.of_nat (k - i) < 30 * m - 1.
Proof.
  intros m l k HL Hp. pose proof (hub_life_ok m l HL) as HF.
  assert (Hk : (k < length l)%nat).
  { destruct (le_lt_dec (length l) k); [|assumption]. unfold pin_at in Hp. rewrite nth_overflow in Hp by (rewrite run_length; lia). discriminate. }
  assert (HI : forall n, (n <= length l)%nat -> callForHeatRX (bstate Boiler0 l n) = false /\
     (0 < boilerCountdownTicks (bstate Boiler0 l n) ->
      exists i ti c, (i < n)%nat /\ nth_error l i = Some ti /\ In c (bt_calls ti) /\ 50 <= fst c /\
        boilerCountdownTicks (bstate Boiler0 l n) = 30 * m - Z.of_nat (n - i))).
  { induction n as [|n IH]; intros Hn; [split; [reflexivity|cbn; lia]|].
    destruct (IH ltac:(lia)) as [IH1 IH2].
    destruct (nth_error l n) as [t|] eqn:E; [|apply nth_error_None in E; lia].
    destruct (hub_life_at m l _ t HL E) as [_ Hmt].
    pose proof (step_cases _ t (bstate_inv l Boiler0 n HF BInv0) (proj1 (Forall_forall _ _) HF t (nth_error_In _ _ E))) as H.
    rewrite (bstate_S _ _ _ _ E). destruct (boiler_step _ t) as [b' p]. cbn [fst] in *.
    destruct H as (_ & H0 & _ & H). split; [exact H0|]. intros Hc. destruct H as [H|[H|H]]; [| |lia].
    - destruct H as ([H|(c & Hin & Hc50)] & _ & H2 & _); [congruence|].
      exists n, t, c. split; [lia|]. repeat (split; [assumption|]). lia.
    - destruct H as (H1 & H2 & _). destruct (IH2 H1) as (i & ti & c & Hi & Hti & Hin & Hc50 & HE).
      exists i, ti, c. split; [lia|]. repeat (split; [assumption|]). lia. }
  rewrite pin_state in Hp by (auto using BInv0). destruct (HI (S k) ltac:(lia)) as [_ H].
  destruct (H ltac:(lia)) as (i & ti & c & Hi & Hti & Hin & Hc & HE).
  exists i, ti, c. split; [lia|]. repeat (split; [assumption|]). lia.
Qed.

(** A call below 50% has no effect at all; one of 66% or more is always counted. *)
Theorem C34_thresholds : forall b pct mc,
  (pct < 50 -> remoteCallForHeatRX b pct mc = b) /\
  (66 <= pct -> callForHeatRX (remoteCallForHeatRX b pct mc) = true).
Proof.
  intros b pct mc. unfold remoteCallForHeatRX, getMinValveReallyOpen, MODERATELY_OPEN.
  assert (HT : exists th, 50 <= th <= 66 /\ (if negb (Z.land mc 63 <? Z.shiftr 63 2) &&
      (negb (Z.land mc 63 <? Z.shiftr 63 2) && (Z.land mc 63 <? Z.shiftr 63 1) || isBoilerOn b) then 50 else Z.max 50 (67 - 1)) = th)
    by (eexists; split; [|reflexivity]; destruct (_ && _); lia).
  destruct HT as (th & Hth & ->). split; intros H.
  - replace (pct >=? th) with false by lia. reflexivity.
  - replace (pct >=? th) with true by lia. reflexivity.
Qed.
(** Counted calls keep a running boiler on for the full time from then. *)
Theorem C34_call_extends : forall m l i ti c k,
  hub_life m l -> nth_error l i = Some ti -> In c (bt_calls ti) -> 66 <= fst c ->
  (exists i', i = S i' /\ pin_at (boiler_run Boiler0 l) i' = true) ->
  (i <= k < length l)%nat -> Z.of_nat (k - i) < 30 * m - 1 ->
  pin_at (boiler_run Boiler0 l) k = true.
Proof.
  intros m l i ti c k HL Hi Hin Hc (i' & -> & Hp) Hk Hd. pose proof (hub_life_ok m l HL) as HF.
  destruct (hub_life_at m l _ ti HL Hi) as [_ Hmi].
  rewrite pin_state in Hp by (auto using BInv0; lia).
  assert (H1 : forall d, (S i' + d < length l)%nat -> Z.of_nat d < 30 * m - 1 ->
     boilerCountdownTicks (bstate Boiler0 l (S (S i' + d))) >= 30 * m - 1 - Z.of_nat d).
  { induction d as [|d IH]; intros Hlt Hdm.
    - rewrite Nat.add_0_r.
      pose proof (step_cases _ ti (bstate_inv l Boiler0 (S i') HF BInv0) (proj1 (Forall_forall _ _) HF ti (nth_error_In _ _ Hi))) as H.
      rewrite (bstate_S _ _ _ _ Hi) in *. destruct (boiler_step (bstate Boiler0 l (S i')) ti) as [b' p]. cbn [fst] in *.
      destruct H as (_ & _ & _ & [H|[H|H]]); [lia| |lia].
      destruct H as (_ & _ & _ & H). specialize (H c Hin). lia.
    - specialize (IH ltac:(lia) ltac:(lia)). replace (S i' + S d)%nat with (S (S i' + d)) in * by lia.
      destruct (nth_error l (S (S i' + d))) as [t|] eqn:Ht; [|apply nth_error_None in Ht; lia].
      destruct (hub_life_at m l _ t HL Ht) as [_ Hmt].
      pose proof (step_cases _ t (bstate_inv l Boiler0 (S (S i' + d)) HF BInv0) (proj1 (Forall_forall _ _) HF t (nth_error_In _ _ Ht))) as H.
      rewrite (bstate_S _ _ _ _ Ht). destruct (boiler_step _ t) as [b' p]. cbn [fst] in *.
      destruct H as (_ & _ & _ & [H|[H|H]]); lia. }
  rewrite pin_state by (auto using BInv0; lia). specialize (H1 (k - S i')%nat ltac:(lia) ltac:(lia)).
  replace (S i' + (k - S i'))%nat with k in H1 by lia. lia.
Qed.
(** Outside hub mode the pin is low. *)
Theorem C34_not_hub_low : forall b t, bt_hub t = false -> snd (boiler_step b t) = false.
Proof. intros b t H. unfold boiler_step, processCallsForHeat. rewrite H. reflexivity. Qed.

(** With changes of mode the claim fails: the countdown is frozen while out of hub
    mode, so after any time without calls the boiler fires again on re-entry. *)
Definition off_hub : BTick := mkBTick [] false false 5.
Theorem C34_mode_change_refuted : forall n,
  let l := minutes 6 5 ++ [call_tick false 5] ++ repeat off_hub n ++ [quiet_tick false 5] in
  boiler_run Boiler0 l = repeat false 180 ++ [true] ++ repeat false n ++ [true].
Proof.
  intros n. cbv zeta.
  assert (HA : forall l1 b l2, boiler_run b (l1 ++ l2) = boiler_run b l1 ++ boiler_run (fold_left (fun b t => fst (boiler_step b t)) l1 b) l2).
  { induction l1 as [|t l1 IH]; intros b l2; [reflexivity|]. cbn [app boiler_run fold_left]. destruct (boiler_step b t) as [b' p].
    cbn [fst app]. rewrite IH. reflexivity. }
  assert (HO : forall b, fold_left (fun b t => fst (boiler_step b t)) (repeat off_hub n) b = b).
  { induction n as [|k IH]; intros b; [reflexivity|]. cbn [repeat fold_left]. exact (IH b). }
  assert (HP : forall b, boiler_run b (repeat off_hub n) = repeat false n).
  { clear HO. induction n as [|k IH]; intros b; [reflexivity|]. cbn [repeat boiler_run]. unfold boiler_step at 1, off_hub at 1. cbn. rewrite IH. reflexivity. }
  rewrite app_assoc, (HA (minutes 6 5 ++ [call_tick false 5])).
  rewrite (HA (repeat off_hub n)), HO, HP. rewrite (app_assoc (repeat false 180)).
  f_equal.
Qed.

(** A life with a call at an idle time (accepted), one just after the boiler went off
    (ignored), and one after the minimum off time (accepted): on for 89 ticks, off for
    123, then on again. *)
Definition boundaries (l : list BTick) : list nat :=
  filter (fun i => match nth_error l i with Some t => bt_second0 t | None => false end) (seq 0 (length l)).
Definition spacedb (l : list BTick) : bool :=
  forallb (fun a => forallb (fun b => negb (a <? b)%nat || (30 <=? b - a)%nat) (boundaries l)) (boundaries l).
Lemma spacedb_ok l : spacedb l = true -> minute_spaced l.
Proof.
  intros H a b ta tb Hab Ha Hb Hsa Hsb.
  assert (HB : forall a ta, nth_error l a = Some ta -> bt_second0 ta = true -> In a (boundaries l)).
  { intros c tc Hc Hs. apply filter_In. rewrite Hc. split; [|exact Hs]. apply in_seq.
    assert (nth_error l c <> None) as Hn by congruence. apply nth_error_Some in Hn. lia. }
  unfold spacedb in H. rewrite forallb_forall in H. specialize (H a (HB a ta Ha Hsa)).
  rewrite forallb_forall in H. specialize (H b (HB b tb Hb Hsb)). lia.
Qed.
Example C33_nonvacuous :
  let l := minutes 4 3 ++ [call_tick false 3] ++ minutes 3 3 ++ [call_tick false 3] ++ minutes 4 3 ++ [call_tick false 3] in
  hub_life 3 l /\ minute_spaced l /\
  boiler_run Boiler0 l = repeat false 120 ++ repeat true 89 ++ repeat false 123 ++ [true].
Proof.
  cbv zeta. split; [|split; [|vm_compute; reflexivity]].
  - split; [unfold byte; lia|]. apply Forall_forall. intros t Ht.
    repeat (apply in_app_or in Ht; destruct Ht as [Ht|Ht]);
      vm_compute in Ht; repeat (destruct Ht as [<-|Ht]; [split; reflexivity|]); destruct Ht.
  - apply spacedb_ok. vm_compute. reflexivity.
Qed.

Print Assumptions C33_min_on_partial.
Print Assumptions C33_min_off_ticks.
Print Assumptions C34_recent_call_partial.
Print Assumptions C34_call_extends.
Print Assumptions C34_mode_change_refuted.
