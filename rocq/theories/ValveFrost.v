(** C28, C29, C59: frost protection, saturation outside the proportional band, no hovering. *)
From Verif Require Import Base TempModel TempProps ValveModel ValveProps ValveSettle.

(** Temperature below which the valve is to be opened as far as permitted (whole C):
    never less than the minimum 5C in proportional operation. *)
Definition open_below (binary : bool) (i : VIn) : Z := if binary then targetTempC i else Z.max (targetTempC i - 7) 5.
(** Temperature above which the valve is to be closed (whole C). *)
Definition close_above (binary : bool) (i : VIn) : Z :=
  if binary then targetTempC i else Z.min (Z.max (targetTempC i) (maxTargetTempC i) + 7) 95.
(** A room that is at least -128C and under [T] C (in the code's terms: with its half degree offset). *)
Definition colder (T : Z) (i : VIn) : Prop := -2048 + 8 <= refTempC16 i < 16 * T.
Definition hotter (T : Z) (i : VIn) : Prop := 16 * (T + 1) <= refTempC16 i <= 2047.

(** ** What the filter sees *)
Lemma firstn_temps (P : Z -> Prop) b a s v i p k : P (computeRawTemp16 i) -> (k <= 15)%nat -> (initialised s = true -> Forall P (firstn k (temps s))) ->
  Forall P (firstn (S k) (temps (fst (tick b a s v i p)))).
Proof.
  intros HP Hk H. rewrite tick_temps, firstn_cons. constructor; [exact HP|]. rewrite firstn_firstn, Nat.min_l by lia.
  destruct (initialised s); [apply H; reflexivity|]. apply Forall_forall. intros x Hx.
  assert (In x (backfill (computeRawTemp16 i))) as Hi.
  { unfold backfill in *. rewrite <- (firstn_skipn k (repeat _ 16)). apply in_or_app. left. exact Hx. }
  apply repeat_spec in Hi. subst. exact HP.
Qed.
Lemma run_temps (P : Z -> Prop) b a : forall l c, Forall (fun i => P (computeRawTemp16 i)) (inputs l) -> (length l <= 15)%nat ->
  forall k, (k + length l <= 15)%nat -> (initialised (fst c) = true -> Forall P (firstn k (temps (fst c)))) ->
  initialised (fst (trun b a c l)) = true -> Forall P (firstn (k + length l) (temps (fst (trun b a c l)))).
Proof.
  induction l as [|x l IH]; intros c Hl Hlen k Hk H HI; [rewrite Nat.add_0_r; apply H, HI|].
  apply Forall_cons_iff in Hl as [H1 H2]. rewrite trun_cons in *. cbn [length] in *.
  replace (k + S (length l))%nat with (S k + length l)%nat by lia. apply IH; [exact H2|lia|lia| |exact HI].
  intros _. apply firstn_temps; [exact H1|lia|exact H].
Qed.
Lemma run_init b a : forall l c, l <> [] -> initialised (fst (trun b a c l)) = true.
Proof.
  intros l c Hl. destruct (exists_last Hl) as (l' & x & ->). rewrite trun_app. reflexivity.
Qed.

(** The temperature used in a tick. *)
Definition used_temp16 (s1 : VState) (i : VIn) : Z := if negb (isFiltering s1 =? 0) then getSmoothedRecent s1 + refTempOffsetC16 else refTempC16 i.
Lemma used_bounds s1 i lo hi : length (temps s1) = 16%nat -> Forall (fun t => lo <= t <= hi) (temps s1) -> 0 <= hi ->
  lo <= computeRawTemp16 i <= hi -> lo + 8 <= used_temp16 s1 i <= hi + 8.
Proof.
  intros HL HF Hh HR. unfold used_temp16, getSmoothedRecent, refTempOffsetC16. unfold computeRawTemp16, refTempOffsetC16 in HR.
  destruct (negb _); [|lia]. apply sum_bounds in HF. unfold Zlen in HF. rewrite HL in HF. rewrite mean_sum.
  destruct (Z_le_gt_dec 0 (sum (temps s1) + 8)); [pose proof (quot_bounds (sum (temps s1) + 8) ltac:(lia))|pose proof (quot_neg (sum (temps s1) + 8) ltac:(lia))]; lia.
Qed.
Lemma pre_temps s v0 i : temps (tick_pre s v0 i) = computeRawTemp16 i :: firstn 15 (if initialised s then temps s else backfill (computeRawTemp16 i)).
Proof. reflexivity. Qed.
(** [recent P s]: the next tick will only see readings in P, given that its own is. *)
Definition recent (P : Z -> Prop) (s : VState) : Prop := initialised s = true /\ length (temps s) = 16%nat /\ Forall P (firstn 15 (temps s)).
Lemma recent_pre P s v0 i : recent P s -> P (computeRawTemp16 i) ->
  length (temps (tick_pre s v0 i)) = 16%nat /\ Forall P (temps (tick_pre s v0 i)).
Proof.
  intros (HI & HL & HF) HP. rewrite pre_temps, HI. cbn [length]. rewrite firstn_length, HL. split; [reflexivity|]. constructor; assumption.
Qed.
Lemma recent_tick P b a s v i p : recent P s -> P (computeRawTemp16 i) -> recent P (fst (tick b a s v i p)).
Proof.
  intros (HI & HL & HF) HP. split; [reflexivity|]. rewrite tick_temps, HI. cbn [length]. rewrite firstn_length, HL. split; [reflexivity|].
  rewrite firstn_cons. constructor; [exact HP|]. rewrite firstn_firstn. change (Nat.min 14 15) with 14%nat. 
  rewrite <- (firstn_skipn 14 (firstn 15 (temps s))) in HF. apply Forall_app in HF as [HF _]. rewrite firstn_firstn in HF. exact HF.
Qed.
Lemma recent_run P b a l c : live (fst c) -> Forall (fun i => P (computeRawTemp16 i)) (inputs l) -> length l = 15%nat -> recent P (fst (trun b a c l)).
Proof.
  intros HL Hl Hlen. assert (initialised (fst (trun b a c l)) = true) as HI by (apply run_init; destruct l; discriminate).
  split; [exact HI|]. split; [apply (run_live b a l c HL); exact HI|].
  pose proof (run_temps P b a l c Hl ltac:(lia) 0 ltac:(lia)) as HH. cbn [Nat.add] in HH. rewrite Hlen in HH. apply HH; [|exact HI].
  intros _. cbn [firstn]. constructor.
Qed.

(** ** One tick outside the band *)
Definition unbounded_under (b : bool) (i : VIn) (adj : Z) : bool := if b then adj <? targetTempC i else adj <? fnmax (targetTempC i - 7) 5.
Lemma compute_under b a s v i : i8 (Z.shiftr (used_temp16 s i) 4) < open_below b i ->
  computeRequired b a s v i =
    if dontTurnup s && negb (in_bake i) then v
    else if negb b && (alwaysGlacial s || in_glacial i) && (v <? maxPCOpen i) then u8 (v + 1) else maxPCOpen i.
Proof.
  intros H. unfold computeRequired. cbv zeta. fold (used_temp16 s i).
  match goal with |- (if ?c then _ else _) = _ => replace c with true; [reflexivity|] end.
  unfold open_below in H. destruct b; [lia|]. rewrite fnmax_max. unfold proportionalRange, MIN_TARGET_C. lia.
Qed.
Lemma compute_over b a s v i : 0 <= targetTempC i <= 100 -> 0 <= maxTargetTempC i <= 100 ->
  close_above b i < i8 (Z.shiftr (used_temp16 s i) 4) ->
  computeRequired b a s v i = if dontTurndown s then v else 0.
Proof.
  intros Ht Hm H. unfold computeRequired. cbv zeta. fold (used_temp16 s i). set (adj := i8 _) in *. clearbody adj. unfold close_above in H.
  destruct b.
  - replace (adj <? targetTempC i) with false by lia. replace (adj >? targetTempC i) with true by lia. reflexivity.
  - rewrite !fnmax_max, fnmin_min. unfold proportionalRange, MIN_TARGET_C, MAX_TARGET_C in *. rewrite (u8_id (Z.max (targetTempC i) (maxTargetTempC i) + 7)) by (unfold byte; lia).
    replace (adj <? _) with false by lia. replace (adj >? _) with true by lia. reflexivity.
Qed.
Lemma shiftr4_lt z T : z < 16 * T -> -2048 <= z -> T <= 128 -> i8 (Z.shiftr z 4) < T.
Proof. intros. rewrite Z.shiftr_div_pow2 by (clear; discriminate). change (2 ^ 4) with 16. pose proof (Z.div_mod z 16 ltac:(lia)). pose proof (Z.mod_pos_bound z 16 ltac:(lia)). rewrite i8_id; lia. Qed.
Lemma shiftr4_ge z T : 16 * T <= z -> 0 <= T -> z <= 2047 -> T <= i8 (Z.shiftr z 4).
Proof. intros. rewrite Z.shiftr_div_pow2 by (clear; discriminate). change (2 ^ 4) with 16. pose proof (Z.div_mod z 16 ltac:(lia)). pose proof (Z.mod_pos_bound z 16 ltac:(lia)). rewrite i8_id; lia. Qed.

(** ** C28, C29: opening *)
(** Ticks needed once the filter has only cold readings: those left before re-opening is
    allowed, and one (or in glacial operation one per percent). *)
Definition to_open (slow : bool) (M : Z) (s : VState) (v : Z) : Z :=
  if v =? M then 0 else Z.max 0 (turndownM s - 1) + (if slow && (v <? M) then M - v else 1).
Definition lowT (T x : Z) : Prop := -2048 <= x <= 16 * T - 9.
Lemma under_tick b a slow M T s v i p : 0 <= M <= 100 -> 0 <= v <= 100 -> 1 <= T <= 128 -> live s -> recent (lowT T) s ->
  colder T i -> T <= open_below b i -> maxPCOpen i = M -> (slow = false -> alwaysGlacial s = false /\ in_glacial i = false \/ b = true) ->
  to_open slow M (fst (tick b a s v i p)) (snd (tick b a s v i p)) <= Z.max 0 (to_open slow M s v - 1) /\
  (v = M -> snd (tick b a s v i p) = M).
Proof.
  intros HM Hv HT HL HR HC HO HX HG.
  assert (HP : lowT T (computeRawTemp16 i)) by (unfold lowT, computeRawTemp16, refTempOffsetC16; unfold colder in HC; lia).
  set (v0 := match p with None => v | Some (g, _) => g end).
  pose proof (recent_pre _ s v0 i HR HP) as [HL16 HF]. unfold lowT in HF, HP.
  pose proof (used_bounds _ i _ _ HL16 HF ltac:(lia) HP) as HUB.
  assert (i8 (Z.shiftr (used_temp16 (tick_pre s v0 i) i) 4) < open_below b i) as HU.
  { pose proof (shiftr4_lt (used_temp16 (tick_pre s v0 i) i) T ltac:(lia) ltac:(lia) ltac:(lia)). lia. }
  pose proof (compute_under b a (tick_pre s v0 i) v i HU) as HE. rewrite HX in HE.
  destruct HL as (_ & HD & _ & _).
  unfold tick. cbv zeta. fold v0. cbn [fst snd]. unfold to_open. cbn [turndownM].
  rewrite HE. clear HE HU HUB HF HL16. unfold dontTurnup. unfold tick_pre. cbn [turndownM alwaysGlacial]. unfold REOPEN_DELAY_M.
  assert (HU1 : v < M -> u8 (v + 1) = v + 1) by (intros; apply u8_id; unfold byte; lia).
  destruct (in_bake i); cbn [negb]; rewrite ?andb_true_r, ?andb_false_r.
  - destruct (negb b && (alwaysGlacial s || in_glacial i) && (v <? M)) eqn:EG.
    + assert (v < M) as Hlt by lia. rewrite HU1 by exact Hlt. replace (v + 1 =? v) with false by lia. cbn [negb andb]. replace (v + 1 >? v) with true by lia. cbn [negb].
      destruct slow; [|exfalso; specialize (HG eq_refl); destruct b, (alwaysGlacial s), (in_glacial i); cbn in *; intuition congruence].
      cbn [andb]. replace (v =? M) with false by lia. replace (v <? M) with true by lia.
      destruct (v + 1 =? M) eqn:E1; [lia|]. replace (v + 1 <? M) with true by lia. destruct (turndownM s >? 0) eqn:?; lia.
    + destruct (M =? v) eqn:E1; cbn [negb]; [replace (v =? M) with true by lia; lia|]. rewrite Z.eqb_refl. lia.
  - set (td := if turndownM s >? 0 then turndownM s - 1 else turndownM s).
    assert (Htd : td = Z.max 0 (turndownM s - 1)) by (unfold td; destruct (turndownM s >? 0) eqn:?; lia).
    destruct (0 =? td) eqn:ETD; cbn [negb].
    + destruct (negb b && (alwaysGlacial s || in_glacial i) && (v <? M)) eqn:EG.
      * assert (v < M) as Hlt by lia. rewrite HU1 by exact Hlt. replace (v + 1 =? v) with false by lia. cbn [negb andb]. replace (v + 1 >? v) with true by lia. cbn [negb].
        destruct slow; [|exfalso; specialize (HG eq_refl); destruct b, (alwaysGlacial s), (in_glacial i); cbn in *; intuition congruence].
        cbn [andb]. replace (v =? M) with false by lia. replace (v <? M) with true by lia.
        destruct (v + 1 =? M) eqn:E1; [lia|]. replace (v + 1 <? M) with true by lia. lia.
      * destruct (M =? v) eqn:E1; cbn [negb]; [replace (v =? M) with true by lia; lia|]. rewrite Z.eqb_refl. lia.
    + rewrite Z.eqb_refl. cbn [negb andb]. destruct (v =? M) eqn:E1; [lia|]. destruct (slow && (v <? M)); lia.
Qed.
Lemma under_run b a slow M T : 0 <= M <= 100 -> 1 <= T <= 128 -> forall l s v, 0 <= v <= 100 -> live s -> recent (lowT T) s ->
  Forall (fun i => colder T i /\ T <= open_below b i /\ maxPCOpen i = M /\ (slow = false -> alwaysGlacial s = false /\ in_glacial i = false \/ b = true)) (inputs l) ->
  to_open slow M (fst (trun b a (s, v) l)) (snd (trun b a (s, v) l)) <= Z.max 0 (to_open slow M s v - Z.of_nat (length l)).
Proof.
  intros HM HT. induction l as [|x l IH]; intros s v Hv HL HR Hl.
  - cbn [trun fold_left fst snd length]. lia.
  - rewrite trun_cons. cbn [fst snd length]. apply Forall_cons_iff in Hl as [(C1 & C2 & C3 & C4) H2].
    pose proof (under_tick b a slow M T s v (fst x) (snd x) HM Hv HT HL HR C1 C2 C3 C4) as [HD _].
    pose proof (tick_pos b a s v (fst x) (snd x) Hv ltac:(unfold in_ok; lia)) as [HP _].
    assert (HR' : recent (lowT T) (fst (tick b a s v (fst x) (snd x)))) by (apply recent_tick; [exact HR|unfold lowT, computeRawTemp16, refTempOffsetC16; unfold colder in C1; lia]).
    pose proof (tick_live b a s v (fst x) (snd x) HL) as HL'.
    assert (alwaysGlacial (fst (tick b a s v (fst x) (snd x))) = alwaysGlacial s) as HA by reflexivity.
    destruct (tick b a s v (fst x) (snd x)) as [s' v']. cbn [fst snd] in *. rewrite <- HA in H2.
    specialize (IH s' v' HP HL' HR' H2). lia.
Qed.
Lemma run_glacial b a : forall l c, alwaysGlacial (fst (trun b a c l)) = alwaysGlacial (fst c).
Proof. induction l as [|x l IH]; intros c; [reflexivity|]. rewrite trun_cons, IH. reflexivity. Qed.

Lemma cold_general b a slow M T l s v : live s -> 0 <= v <= 100 -> 0 <= M <= 100 -> 1 <= T <= 128 ->
  Forall (fun i => colder T i /\ T <= open_below b i /\ maxPCOpen i = M /\ (slow = false -> alwaysGlacial s = false /\ in_glacial i = false \/ b = true)) (inputs l) ->
  15 + (if slow then 110 else 11) <= Z.of_nat (length l) ->
  snd (trun b a (s, v) l) = M.
Proof.
  intros HL Hv HM HT Hl Hlen. assert (exists l1 l2, l = l1 ++ l2 /\ length l1 = 15%nat) as (l1 & l2 & -> & L1).
  { exists (firstn 15 l), (skipn 15 l). rewrite firstn_skipn, firstn_length. split; [reflexivity|]. destruct slow; lia. }
  rewrite trun_app. unfold inputs in Hl. rewrite map_app in Hl. apply Forall_app in Hl as [Hl1 Hl2].
  rewrite app_length, L1 in Hlen.
  pose proof (valve_position_in_range b a l1 s v Hv) as HP.
  assert (Forall in_ok (inputs l1)) as HI by (eapply Forall_impl; [|exact Hl1]; intros i (_ & _ & H & _); unfold in_ok; lia).
  specialize (HP HI). pose proof (run_live b a l1 (s, v) HL) as HL'.
  assert (HR : recent (lowT T) (fst (trun b a (s, v) l1))).
  { apply recent_run; [exact HL| |exact L1]. eapply Forall_impl; [|exact Hl1]. intros i (H & _). unfold colder, lowT, computeRawTemp16, refTempOffsetC16 in *. lia. }
  pose proof (run_glacial b a l1 (s, v)) as HGl. cbn [fst] in HGl. rewrite <- HGl in Hl2.
  destruct (trun b a (s, v) l1) as [s1 v1]. cbn [fst snd] in *.
  pose proof (under_run b a slow M T HM HT l2 s1 v1 HP HL' HR Hl2) as HD.
  destruct HL' as (_ & HD1 & _ & _).
  assert (to_open slow M s1 v1 <= (if slow then 110 else 11)) as HB.
  { unfold to_open. destruct (v1 =? M); [destruct slow; lia|]. destruct slow; cbn [andb]; [destruct (v1 <? M); lia|lia]. }
  assert (HZ : to_open slow M (fst (trun b a (s1, v1) l2)) (snd (trun b a (s1, v1) l2)) <= 0) by (destruct slow; lia).
  unfold to_open in HZ. destruct (snd (trun b a (s1, v1) l2) =? M) eqn:E; [lia|]. exfalso. destruct (slow && _) eqn:E2; lia.
Qed.

(** While the room stays under the opening threshold of every input given, and the
    permitted maximum is M, the valve is at M after 26 ticks and from then on. *)
Theorem cold_room_opens_fully : forall b a s v l M T, live s -> 0 <= v <= 100 -> 0 <= M <= 100 -> 1 <= T <= 128 ->
  Forall (fun i => colder T i /\ T <= open_below b i /\ maxPCOpen i = M) (inputs l) ->
  (b = false -> alwaysGlacial s = false /\ Forall (fun i => in_glacial i = false) (inputs l)) ->
  (26 <= length l)%nat -> snd (trun b a (s, v) l) = M.
Proof.
  intros b a s v l M T HL Hv HM HT Hl HG Hlen. apply (cold_general b a false M T); try assumption; [|lia].
  rewrite Forall_forall in *. intros i Hi. destruct (Hl i Hi) as (H1 & H2 & H3). repeat split; try apply H1; try assumption.
  intros _. destruct b; [right; reflexivity|left]. destruct (HG eq_refl) as [HG1 HG2]. split; [exact HG1|]. apply HG2, Hi.
Qed.
(** The same with glacial operation at any time: after 125 ticks. *)
Theorem cold_room_opens_fully_glacial : forall b a s v l M T, live s -> 0 <= v <= 100 -> 0 <= M <= 100 -> 1 <= T <= 128 ->
  Forall (fun i => colder T i /\ T <= open_below b i /\ maxPCOpen i = M) (inputs l) ->
  (125 <= length l)%nat -> snd (trun b a (s, v) l) = M.
Proof.
  intros b a s v l M T HL Hv HM HT Hl Hlen. apply (cold_general b a true M T); try assumption; [|lia].
  eapply Forall_impl; [|exact Hl]. intros i (H1 & H2 & H3). repeat split; try apply H1; try assumption; discriminate.
Qed.
(** Frost protection: under the minimum 5C, whatever the targets (and whatever the other flags). *)
Theorem frost_protection : forall a s v l M, live s -> 0 <= v <= 100 -> 0 <= M <= 100 ->
  Forall (fun i => colder 5 i /\ maxPCOpen i = M) (inputs l) ->
  (125 <= length l)%nat \/ (26 <= length l)%nat /\ alwaysGlacial s = false /\ Forall (fun i => in_glacial i = false) (inputs l) ->
  snd (trun false a (s, v) l) = M.
Proof.
  intros a s v l M HL Hv HM Hl HN.
  assert (HF : Forall (fun i => colder 5 i /\ 5 <= open_below false i /\ maxPCOpen i = M) (inputs l)).
  { eapply Forall_impl; [|exact Hl]. intros i (H1 & H2). unfold open_below. split; [exact H1|]. lia. }
  destruct HN as [HN | (HN & H1 & H2)].
  - apply (cold_room_opens_fully_glacial false a s v l M 5); try assumption; lia.
  - apply (cold_room_opens_fully false a s v l M 5); try assumption; [lia|]. intros _. split; assumption.
Qed.
(** Binary operation protects down to its own target, which must then be at least 5C. *)
Theorem frost_protection_binary : forall a s v l M, live s -> 0 <= v <= 100 -> 0 <= M <= 100 ->
  Forall (fun i => colder 5 i /\ 5 <= targetTempC i /\ maxPCOpen i = M) (inputs l) ->
  (26 <= length l)%nat -> snd (trun true a (s, v) l) = M.
Proof.
  intros a s v l M HL Hv HM Hl HN. apply (cold_room_opens_fully true a s v l M 5); try assumption; [lia|discriminate].
Qed.
(** A frozen room with target 5C and a just-closed valve; also the bound is tight. *)
Example frost_example : let i := mkVIn 5 5 90 false false false false 60 in
  let s := mkVS false true 0 true 11 0 0 0 (repeat 60 16) in
  positions false true (s, 0) i 12 = [0;0;0;0;0;0;0;0;0;0;90;90] /\ live s /\ colder 5 i.
Proof. split; [vm_compute; reflexivity|]. split; [|unfold colder; cbn; lia]. unfold live. cbn. split; [reflexivity|lia]. Qed.

(** ** C29: closing *)
Definition to_close (s : VState) (v : Z) : Z := if v =? 0 then 0 else Z.max 0 (turnupM s - 1) + 1.
Definition hiT (T x : Z) : Prop := 16 * T + 8 <= x <= 2039.
Definition targets_ok (i : VIn) : Prop := 0 <= targetTempC i <= 100 /\ 0 <= maxTargetTempC i <= 100 /\ in_ok i.
Lemma over_tick b a T s v i p : 0 <= v <= 100 -> 0 <= T <= 128 -> live s -> recent (hiT T) s ->
  hotter T i -> close_above b i <= T -> targets_ok i ->
  to_close (fst (tick b a s v i p)) (snd (tick b a s v i p)) <= Z.max 0 (to_close s v - 1).
Proof.
  intros Hv HT HL HR HC HO (HX1 & HX2 & HX3).
  assert (HP : hiT T (computeRawTemp16 i)) by (unfold hiT, computeRawTemp16, refTempOffsetC16; unfold hotter in HC; lia).
  set (v0 := match p with None => v | Some (g, _) => g end).
  pose proof (recent_pre _ s v0 i HR HP) as [HL16 HF]. unfold hiT in HF, HP.
  pose proof (used_bounds _ i _ _ HL16 HF ltac:(lia) HP) as HUB.
  assert (close_above b i < i8 (Z.shiftr (used_temp16 (tick_pre s v0 i) i) 4)) as HU.
  { pose proof (shiftr4_ge (used_temp16 (tick_pre s v0 i) i) (T + 1) ltac:(lia) ltac:(lia) ltac:(lia)). lia. }
  pose proof (compute_over b a (tick_pre s v0 i) v i HX1 HX2 HU) as HE.
  destruct HL as (_ & _ & HD & _).
  unfold tick. cbv zeta. fold v0. cbn [fst snd]. unfold to_close. cbn [turnupM].
  rewrite HE. clear HE HU HUB HF HL16. unfold dontTurndown. unfold tick_pre. cbn [turnupM]. unfold RECLOSE_DELAY_M.
  set (td := if turnupM s >? 0 then turnupM s - 1 else turnupM s).
  assert (Htd : td = Z.max 0 (turnupM s - 1)) by (unfold td; destruct (turnupM s >? 0) eqn:?; lia). clearbody td.
  destruct (0 =? td) eqn:ETD; cbn [negb].
  - destruct (0 =? v) eqn:E1; cbn [negb]; [replace (v =? 0) with true by lia; lia|]. change (0 =? 0) with true. replace (v =? 0) with false by lia. lia.
  - rewrite Z.eqb_refl. cbn [negb andb]. destruct (v =? 0) eqn:E1; lia.
Qed.
Lemma over_run b a T : 0 <= T <= 128 -> forall l s v, 0 <= v <= 100 -> live s -> recent (hiT T) s ->
  Forall (fun i => hotter T i /\ close_above b i <= T /\ targets_ok i) (inputs l) ->
  to_close (fst (trun b a (s, v) l)) (snd (trun b a (s, v) l)) <= Z.max 0 (to_close s v - Z.of_nat (length l)).
Proof.
  intros HT. induction l as [|x l IH]; intros s v Hv HL HR Hl.
  - cbn [trun fold_left fst snd length]. lia.
  - rewrite trun_cons. cbn [fst snd length]. apply Forall_cons_iff in Hl as [(C1 & C2 & C3) H2].
    pose proof (over_tick b a T s v (fst x) (snd x) Hv HT HL HR C1 C2 C3) as HD.
    pose proof (tick_pos b a s v (fst x) (snd x) Hv ltac:(apply C3)) as [HP _].
    assert (HR' : recent (hiT T) (fst (tick b a s v (fst x) (snd x)))) by (apply recent_tick; [exact HR|unfold hiT, computeRawTemp16, refTempOffsetC16; unfold hotter in C1; lia]).
    pose proof (tick_live b a s v (fst x) (snd x) HL) as HL'.
    destruct (tick b a s v (fst x) (snd x)) as [s' v']. cbn [fst snd] in *.
    specialize (IH s' v' HP HL' HR' H2). lia.
Qed.
(** While the room stays above the closing threshold of every input given, the valve is
    closed after 25 ticks and from then on, even in BAKE mode. *)
Theorem hot_room_closes_fully : forall b a s v l T, live s -> 0 <= v <= 100 -> 0 <= T <= 128 ->
  Forall (fun i => hotter T i /\ close_above b i <= T /\ targets_ok i) (inputs l) ->
  (25 <= length l)%nat -> snd (trun b a (s, v) l) = 0.
Proof.
  intros b a s v l T HL Hv HT Hl Hlen. assert (exists l1 l2, l = l1 ++ l2 /\ length l1 = 15%nat) as (l1 & l2 & -> & L1).
  { exists (firstn 15 l), (skipn 15 l). rewrite firstn_skipn, firstn_length. split; [reflexivity|]. lia. }
  rewrite trun_app. unfold inputs in Hl. rewrite map_app in Hl. apply Forall_app in Hl as [Hl1 Hl2].
  rewrite app_length, L1 in Hlen.
  pose proof (valve_position_in_range b a l1 s v Hv) as HP.
  assert (Forall in_ok (inputs l1)) as HI by (eapply Forall_impl; [|exact Hl1]; intros i (_ & _ & H); apply H).
  specialize (HP HI). pose proof (run_live b a l1 (s, v) HL) as HL'.
  assert (HR : recent (hiT T) (fst (trun b a (s, v) l1))).
  { apply recent_run; [exact HL| |exact L1]. eapply Forall_impl; [|exact Hl1]. intros i (H & _). unfold hotter, hiT, computeRawTemp16, refTempOffsetC16 in *. lia. }
  destruct (trun b a (s, v) l1) as [s1 v1]. cbn [fst snd] in *.
  pose proof (over_run b a T HT l2 s1 v1 HP HL' HR Hl2) as HD.
  destruct HL' as (_ & _ & HD1 & _).
  assert (to_close s1 v1 <= 10) as HB by (unfold to_close; destruct (v1 =? 0); lia).
  assert (HZ : to_close (fst (trun b a (s1, v1) l2)) (snd (trun b a (s1, v1) l2)) <= 0) by lia.
  unfold to_close in HZ. destruct (snd (trun b a (s1, v1) l2) =? 0) eqn:E; [lia|]. exfalso. lia.
Qed.
Example hot_example : let i := mkVIn 19 19 90 false false false false (28 * 16) in
  let s := mkVS false true 0 true 0 10 0 90 (repeat 440 16) in
  positions false true (s, 90) i 11 = [90;90;90;90;90;90;90;90;90;0;0] /\ live s /\ hotter 26 i /\ close_above false i = 26.
Proof. split; [vm_compute; reflexivity|]. split; [|unfold hotter; cbn; split; [lia|reflexivity]]. unfold live. cbn. split; [reflexivity|lia]. Qed.
