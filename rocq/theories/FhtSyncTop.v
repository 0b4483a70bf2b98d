(** FHT8V valve driver: the properties, for every history. *)
From Verif Require Import Base FhtModel FhtSyncModel FhtSyncProps.

(** A state the main loop can bring the driver to, from power-up with any EEPROM content and with
    any operations in any slot. *)
Definition reachable (m : msys) : Prop :=
  exists e1 e2 l, m = after (MS (fv_init e1 e2) 0 false) l.

(** ** Effect of the other operations *)
Definition op_effect (s s' : fv) : Prop :=
  hsc s' = hsc s /\
  ((synced s' = false /\ sstate s' = 0 /\ vopen s' = false) \/
   (hc1 s' = hc1 s /\ hc2 s' = hc2 s /\ sstate s' = sstate s /\ hsnext s' = hsnext s /\ synced s' = synced s /\
    vopen s' = vopen s /\
    (cbuf s = Some (CValve (hc1 s) (hc2 s) (value s)) -> cbuf s' = Some (CValve (hc1 s) (hc2 s) (value s'))))).
Lemma op_any : forall s o, op_effect s (do_op s o).
Proof.
  assert (R : forall s, op_effect s s) by (intros; split; [reflexivity | right; cj; auto]).
  assert (RR : forall s s', hsc s' = hsc s -> op_effect s (resync s')) by (intros; split; [assumption | left; cj; reflexivity]).
  assert (H1 : forall s h, op_effect s (setHC1 s h)) by (intros; unfold setHC1; destruct (h =? hc1 s); auto).
  assert (H2 : forall s h, op_effect s (setHC2 s h)) by (intros; unfold setHC2; destruct (h =? hc2 s); auto).
  assert (N : forall s s' a b, op_effect s s' -> op_effect s (setNv s' a b)) by (intros s s' a b E; exact E).
  assert (T : forall s s1 s2, op_effect s s1 -> op_effect s1 s2 -> op_effect s s2).
  { intros s s1 s2 (A0 & A) (B0 & B). split; [congruence|].
    destruct B as [B | (B1&B2&B3&B4&B5&B6&B7)]; [left; exact B|].
    destruct A as [(A1&A2&A3) | (A1&A2&A3&A4&A5&A6&A7)]; [left; cj; congruence | right].
    cj; try congruence. intros C. rewrite A1, A2 in B7. apply B7. rewrite A7 by exact C. reflexivity. }
  intros s [v | b | h | h | | | h | h | |]; cbn [do_op]; auto.
  - unfold set_pc, createValveCmd. destruct (100 <? v); cbn [fst]; [apply R|]. split; [reflexivity|]. right. cbn. cj; auto.
  - split; [reflexivity|]. right. cbn. cj; auto.
  - unfold clearHC. apply RR. reflexivity.
  - unfold nvSetHC1. auto.
  - unfold nvSetHC2. auto.
  - unfold nvClearHC. apply N. apply RR. reflexivity.
  - unfold nvLoadHC.
    assert (G1 : op_effect s (fst (nvGetHC1 s))).
    { unfold nvGetHC1. destruct (valid_hc (hc1 s)); cbn [fst]; [apply R|]. destruct (valid_hc (nv1 s)); auto. }
    eapply T; [exact G1|]. set (s1 := fst (nvGetHC1 s)). unfold nvGetHC2.
    destruct (valid_hc (hc2 s1)); cbn [fst]; [apply R|]. destruct (valid_hc (nv2 s1)); auto.
Qed.
Lemma op_effect_trans : forall s s1 s2, op_effect s s1 -> op_effect s1 s2 -> op_effect s s2.
Proof.
  intros s s1 s2 (A0 & A) (B0 & B). split; [congruence|].
  destruct B as [B | (B1&B2&B3&B4&B5&B6&B7)]; [left; exact B|].
  destruct A as [(A1&A2&A3) | (A1&A2&A3&A4&A5&A6&A7)]; [left; cj; congruence | right].
  cj; try congruence. intros C. rewrite A1, A2 in B7. apply B7. rewrite A7 by exact C. reflexivity.
Qed.
Lemma ops_any : forall ops s, op_effect s (fold_left do_op ops s).
Proof.
  induction ops as [|o ops IH]; intros; cbn [fold_left].
  - split; [reflexivity | right; cj; auto].
  - eapply op_effect_trans; [apply op_any | apply IH].
Qed.

(** ** Invariant of reachable states *)
Definition RI (m : msys) : Prop :=
  let s := ms_fv m in
  phase_ok m /\ (synced s = false -> 0 <= sstate s <= 241) /\
  (synced s = true -> cbuf s = Some (CValve (hc1 s) (hc2 s) (value s)) /\ exists n, 0 <= n < period (hc2 s) /\ CD n m) /\
  (synced s = false -> sstate s = 1 -> 1 <= hsnext s <= 15).

Lemma RI_ops : forall s ph act ops, RI (MS s ph act) -> RI (MS (fold_left do_op ops s) ph act).
Proof.
  intros s ph act ops ((PH & PA) & SR & S & U). fld.
  destruct (ops_any ops s) as (H & [(A1&A2&A3) | (A1&A2&A3&A4&A5&A6&A7)]);
    set (s1 := fold_left do_op ops s) in *; clearbody s1.
  - unfold RI, phase_ok. fld. refine (conj (conj PH _) (conj _ (conj _ _))).
    + rewrite H. exact PA.
    + intros _. lia.
    + congruence.
    + intros _ E. exfalso. lia.
  - unfold RI, phase_ok. fld. refine (conj (conj PH _) (conj _ (conj _ _))).
    + rewrite H. exact PA.
    + rewrite A5, A3. exact SR.
    + intros E. rewrite A5 in E. destruct (S E) as (C & n & N & D). rewrite A1, A2. split; [auto|].
      exists n. split; [exact N|]. unfold CD in *. fld. rewrite A4. exact D.
    + intros E F. rewrite A4. apply U; congruence.
Qed.

Lemma slot_split : forall s ph act ops r d,
  slot (MS s ph act) (SI ops r d) = slot (MS (fold_left do_op ops s) ph act) (SI [] r d).
Proof. reflexivity. Qed.

Lemma slot_unavail : forall s ph act r d, synced s = false -> isAvailable s = false ->
  exists s' act', slot (MS s ph act) (SI [] r d) = (MS s' (if ph =? 3 then 0 else ph + 1) act', []) /\
  act' = false /\ synced s' = false /\ sstate s' = sstate s /\ hsnext s' = hsnext s /\ value s' = value s /\
  hc1 s' = hc1 s /\ hc2 s' = hc2 s /\ radio s' = radio s /\ vopen s' = vopen s /\ cbuf s' = cbuf s.
Proof.
  intros s ph act r d SY AV. unfold slot. fld. cbn [fold_left].
  assert (D : forall c, doSync (setHsc s c) r true = (setSync (setHsc s c) (sstate s) (hsnext s) false (vopen s), [], false)).
  { intros. unfold doSync. change (isAvailable (setHsc s c)) with (isAvailable s). rewrite AV. reflexivity. }
  destruct (ph =? 0); [|destruct act].
  - unfold poll_first. fld. rewrite SY. cbn [negb]. rewrite D. do 2 eexists. split; [reflexivity|]. cj; auto.
  - unfold poll_next. fld. rewrite SY. cbn [negb]. rewrite D. do 2 eexists. split; [reflexivity|]. cj; auto.
  - do 2 eexists. split; [reflexivity|]. cj; auto.
Qed.
Lemma slot_unlucky : forall s ph act r d, synced s = false -> sstate s = 0 -> Z.land 0x1e r <> 0 ->
  exists s' act', slot (MS s ph act) (SI [] r d) = (MS s' (if ph =? 3 then 0 else ph + 1) act', []) /\
  act' = false /\ synced s' = false /\ sstate s' = sstate s /\ hsnext s' = hsnext s /\ value s' = value s /\
  hc1 s' = hc1 s /\ hc2 s' = hc2 s /\ radio s' = radio s /\ vopen s' = vopen s /\ cbuf s' = cbuf s.
Proof.
  intros s ph act r d SY SS L. destruct (isAvailable s) eqn:AV; [|apply slot_unavail; assumption].
  unfold slot. fld. cbn [fold_left].
  assert (D : forall c, doSync (setHsc s c) r true = (setSync (setHsc s c) (sstate s) (hsnext s) false (vopen s), [], false)).
  { intros. unfold doSync. change (isAvailable (setHsc s c)) with (isAvailable s). rewrite AV. cbn [negb]. fld. rewrite SS.
    replace (Z.land 30 r =? 0) with false by lia. reflexivity. }
  destruct (ph =? 0); [|destruct act].
  - unfold poll_first. fld. rewrite SY. cbn [negb]. rewrite D. do 2 eexists. split; [reflexivity|]. cj; auto.
  - unfold poll_next. fld. rewrite SY. cbn [negb]. rewrite D. do 2 eexists. split; [reflexivity|]. cj; auto.
  - do 2 eexists. split; [reflexivity|]. cj; auto.
Qed.
Lemma slot_inactive : forall s ph r d, ph <> 0 ->
  slot (MS s ph false) (SI [] r d) = (MS s (if ph =? 3 then 0 else ph + 1) false, []).
Proof. intros. unfold slot. fld. cbn [fold_left]. replace (ph =? 0) with false by lia. reflexivity. Qed.

Lemma RI_slot : forall m i, RI m -> RI (fst (slot m i)).
Proof.
  intros [s ph act] [ops r d] I. rewrite slot_split. apply RI_ops with (ops := ops) in I.
  set (s1 := fold_left do_op ops s) in *. clearbody s1. clear s ops.
  destruct I as (PO & SR & S & U). fld. assert (OR := off_range (hc2 s1)).
  assert (Q : quiet (SI [] r d)) by (apply Forall_nil).
  assert (PH := proj1 PO). fld.
  destruct (synced s1) eqn:SY.
  - destruct (S eq_refl) as (C & n & N & D).
    destruct (slot_synced (MS s1 ph act) (SI [] r d) n PO D Q SY C) as (B1&B2&B3&B4&B5&B6&B7&B8). fld.
    unfold target in *. cbn [fold_left] in *.
    set (m' := fst (slot (MS s1 ph act) (SI [] r d))) in *. clearbody m'.
    unfold RI. refine (conj B1 (conj _ (conj _ _))).
    + congruence.
    + intros _. rewrite B4, B5, B6. split; [exact B7|]. destruct (n =? 0) eqn:N0.
      * exists (period (hc2 s1) - 1). unfold period in *. split; [lia | apply B8].
      * exists (n - 1). split; [lia | apply B8].
    + congruence.
  - specialize (U eq_refl).
    assert (PN : phase_ok (MS s1 ph act) -> forall s' , phase_ok (MS s' (if ph =? 3 then 0 else ph + 1) false)).
    { intros _ s'. unfold phase_ok. fld. split; [destruct (ph =? 3) eqn:P3; lia | discriminate]. }
    assert (ST : forall s' act', act' = false -> synced s' = false -> sstate s' = sstate s1 -> hsnext s' = hsnext s1 ->
      RI (MS s' (if ph =? 3 then 0 else ph + 1) act')).
    { intros s' act' -> E1 E2 E3. unfold RI. fld. refine (conj (PN PO s') (conj _ (conj _ _))).
      - rewrite E2. intros _. apply SR. reflexivity.
      - congruence.
      - intros _ X. rewrite E3. apply U. congruence. }
    specialize (SR eq_refl).
    destruct (isAvailable s1) eqn:AV.
    2: { destruct (slot_unavail s1 ph act r d SY AV) as (s' & act' & E & E1 & E2 & E3 & E4 & _). rewrite E. cbn [fst].
         apply ST; assumption. }
    destruct (orb (ph =? 0) act) eqn:AC.
    2: { apply Bool.orb_false_iff in AC. destruct AC as [AC ->]. rewrite slot_inactive by lia. cbn [fst]. apply ST; auto. }
    assert (AC' : ph = 0 \/ act = true) by (apply Bool.orb_true_iff in AC; destruct AC; [left; lia | right; assumption]).
    assert (SYNC : forall st, (sstate s1 = st /\ 2 <= st <= 241 \/ sstate s1 = 0 /\ lucky (SI [] r d) /\ st = 241) ->
      RI (fst (slot (MS s1 ph act) (SI [] r d)))).
    { intros st HST.
      destruct (slot_sync (MS s1 ph act) (SI [] r d) st PO Q SY AV AC' HST) as (B1&B2&B3&B4&B5&B6&B7&B8&B9&B10). fld.
      set (m' := fst (slot (MS s1 ph act) (SI [] r d))) in *. clearbody m'.
      unfold RI. refine (conj B1 (conj _ (conj _ _))).
      - intros _. lia.
      - congruence.
      - intros _ E. replace (st =? 2) with true in B10 by lia. destruct B10 as [B10 B11]. destruct B1 as [B1 _].
        destruct ((ms_phase m' =? 0) || ms_active m'); lia. }
    destruct (Z.eq_dec (sstate s1) 0) as [S0 | S0].
    + destruct (Z.eq_dec (Z.land 0x1e r) 0) as [L | L].
      * apply (SYNC 241). right. cj; auto.
      * destruct (slot_unlucky s1 ph act r d SY S0 L) as (s' & act' & E & E1 & E2 & E3 & E4 & _). rewrite E. cbn [fst].
        apply ST; assumption.
    + destruct (Z.eq_dec (sstate s1) 1) as [S1 | S1]; [|apply (SYNC (sstate s1)); left; split; [reflexivity | lia]].
      specialize (U S1).
      assert (D : CD (hsnext s1 - 1) (MS s1 ph act)).
      { unfold CD. fld. rewrite AC. split; lia. }
      destruct (slot_wait (MS s1 ph act) (SI [] r d) _ PO D Q SY S1 AV) as (B1&B2&B3&B4&B5&B6&B7). fld.
      unfold target in *. cbn [fold_left] in *.
      set (m' := fst (slot (MS s1 ph act) (SI [] r d))) in *. clearbody m'.
      destruct (hsnext s1 - 1 =? 0) eqn:H0.
      * destruct B7 as (B7&B8&B9&B10). unfold RI. refine (conj B1 (conj _ (conj _ _))).
        -- congruence.
        -- intros _. rewrite B4, B5, B6. split; [exact B10|]. exists (period (hc2 s1) - 1). split; [unfold period; lia | exact B7].
        -- congruence.
      * destruct B7 as (B7&B8&B9&B10). unfold RI. refine (conj B1 (conj _ (conj _ _))).
        -- intros _. lia.
        -- congruence.
        -- intros _ _. destruct B7 as [B7 B11]. destruct B1 as [B1 _].
           destruct ((ms_phase m' =? 0) || ms_active m'); lia.
Qed.

Lemma RI_init : forall e1 e2, RI (MS (fv_init e1 e2) 0 false).
Proof.
  intros. unfold RI, phase_ok, fv_init. fld. cj; try lia; try congruence; try discriminate.
Qed.
Lemma RI_after : forall l m, RI m -> RI (after m l).
Proof. induction l as [|i l IH]; intros m I; cbn [after]; [exact I | apply IH, RI_slot, I]. Qed.
Lemma RI_reachable : forall m, reachable m -> RI m.
Proof. intros m (e1 & e2 & l & ->). apply RI_after, RI_init. Qed.

(** ** Regular transmissions *)
Lemma period_run : forall l m n, phase_ok m -> let s := ms_fv m in
  synced s = true -> radio s = true -> cbuf s = Some (CValve (hc1 s) (hc2 s) (value s)) ->
  0 <= n < period (hc2 s) -> CD n m -> Forall quiet l ->
  forall k, (k < length l)%nat ->
  nth k (slots m l) [] =
    if (Z.of_nat k - n) mod period (hc2 s) =? 0
    then [(CValve (hc1 s) (hc2 s) (target_slots (value s) (firstn (S k) l)), false)] else [].
Proof.
  induction l as [|i l IH]; intros m n PO s SY RA BU N D F k K; [cbn [length] in K; lia|].
  inversion F as [|? ? Q F']; subst.
  destruct (slot_synced m i n PO D Q SY BU) as (B1&B2&B3&B4&B5&B6&B7&B8). fold s in B3, B4, B5, B6, B7, B8.
  rewrite RA in B8. rewrite slots_cons, firstn_cons, target_slots_cons. destruct k as [|k].
  - cbn [nth firstn]. unfold target_slots. cbn [flat_map target fold_left]. unfold target at 1. cbn [fold_left].
    destruct (n =? 0) eqn:N0.
    + replace (Z.of_nat 0 - n) with 0 by lia. rewrite Z.mod_0_l by (unfold period in *; lia). cbn [Z.eqb]. apply B8.
    + replace ((Z.of_nat 0 - n) mod period (hc2 s)) with (period (hc2 s) - n).
      2: { apply Z.mod_unique with (q := -1); lia. }
      replace (period (hc2 s) - n =? 0) with false by lia. apply B8.
  - cbn [nth]. cbn [length] in K. rewrite RA in B3.
    assert (BU' : cbuf (ms_fv (fst (slot m i))) = Some (CValve (hc1 (ms_fv (fst (slot m i)))) (hc2 (ms_fv (fst (slot m i)))) (value (ms_fv (fst (slot m i))))))
      by (rewrite B7, B4, B5, B6; reflexivity).
    destruct (n =? 0) eqn:N0; destruct B8 as [B8 _].
    + specialize (IH _ (period (hc2 s) - 1) B1 B2 B3 BU'). cbv zeta in IH. rewrite B5 in IH.
      rewrite (IH ltac:(unfold period in *; lia) B8 F') by lia. rewrite B4, B6.
      replace ((Z.of_nat k - (period (hc2 s) - 1)) mod period (hc2 s)) with ((Z.of_nat (S k) - n) mod period (hc2 s)).
      2: { replace (Z.of_nat k - (period (hc2 s) - 1)) with (Z.of_nat (S k) - n + (-1) * period (hc2 s)) by lia.
           rewrite Z.mod_add by (unfold period in *; lia). reflexivity. }
      reflexivity.
    + specialize (IH _ (n - 1) B1 B2 B3 BU'). cbv zeta in IH. rewrite B5 in IH.
      rewrite (IH ltac:(unfold period in *; lia) B8 F') by lia. rewrite B4, B6.
      replace (Z.of_nat k - (n - 1)) with (Z.of_nat (S k) - n) by lia. reflexivity.
Qed.

(** Once in sync, and as long as radio and house codes are left alone, a valve command carrying the
    house codes and the latest accepted target is sent exactly every 115 s + 0.5 s * (HC2 mod 8), to
    the slot, and nothing else is sent. *)
Theorem fht_regular : forall m l, reachable m -> let s := ms_fv m in
  synced s = true -> radio s = true -> Forall quiet l ->
  exists n, 0 <= n < period (hc2 s) /\
  forall k, (k < length l)%nat ->
  nth k (slots m l) [] =
    if (Z.of_nat k - n) mod period (hc2 s) =? 0
    then [(CValve (hc1 s) (hc2 s) (target_slots (value s) (firstn (S k) l)), false)] else [].
Proof.
  intros m l R s SY RA F. destruct (RI_reachable m R) as (PO & _ & S & _).
  destruct (S SY) as (BU & n & N & D). exists n. split; [exact N|].
  apply (period_run l m n PO SY RA BU N D F).
Qed.

(** ** Starting *)
Definition idle (m : msys) : Prop :=
  phase_ok m /\ ms_phase m = 0 /\ synced (ms_fv m) = false /\ sstate (ms_fv m) = 0.
(** Four-slot cycles in which the driver decides to wait. *)
Fixpoint waiting (c : nat) (w : list slot_in) : Prop :=
  match c with
  | O => w = []
  | S c => match w with
           | a :: b :: d :: e :: r => ~ lucky a /\ waiting c r
           | _ => False
           end
  end.
Lemma quiet_same : forall i s, quiet i -> let s' := fold_left do_op (si_ops i) s in
  same_but_value s s' /\ value s' = target (value s) (si_ops i).
Proof. intros i s Q. apply ops_quiet. exact Q. Qed.

Definition still (v : Z) (s s' : fv) : Prop :=
  synced s' = false /\ sstate s' = 0 /\ radio s' = radio s /\ hc1 s' = hc1 s /\ hc2 s' = hc2 s /\ value s' = v.
Lemma idle_slot : forall s ph act i, 0 <= ph <= 3 -> synced s = false -> sstate s = 0 -> quiet i ->
  (ph = 0 /\ ~ lucky i) \/ (ph <> 0 /\ act = false) ->
  exists s', slot (MS s ph act) i = (MS s' (if ph =? 3 then 0 else ph + 1) false, []) /\
    still (target (value s) (si_ops i)) s s'.
Proof.
  intros s ph act [ops r d] PH SY SS Q C. rewrite slot_split. unfold lucky in C. fld.
  destruct (ops_quiet ops s Q) as ((A1&A2&A3&A4&A5&A6&A7&A8&A9)&V). set (s1 := fold_left do_op ops s) in *. clearbody s1.
  rewrite SY in A7. rewrite SS in A4. destruct C as [[-> L] | [P ->]].
  - destruct (slot_unlucky s1 0 act r d A7 A4 L) as (s' & act' & E & -> & E2 & E3 & E4 & E5 & E6 & E7 & E8 & _).
    exists s'. split; [exact E|]. unfold still. cj; congruence.
  - rewrite slot_inactive by exact P. exists s1. split; [reflexivity|]. unfold still. cj; congruence.
Qed.
Lemma still_avail : forall v s s', still v s s' -> isAvailable s' = isAvailable s.
Proof. intros v s s' (_ & _ & R & A & B & _). unfold isAvailable, isValidHC. rewrite R, A, B. reflexivity. Qed.
Lemma idle_wait : forall c w s act l, synced s = false -> sstate s = 0 -> waiting c w -> Forall quiet w ->
  exists s' act', still (target_slots (value s) w) s s' /\
    slots (MS s 0 act) (w ++ l) = repeat [] (4 * c) ++ slots (MS s' 0 act') l.
Proof.
  induction c as [|c IH]; intros w s act l SY SS W F.
  - cbn [waiting] in W. subst w. exists s, act. split; [|reflexivity]. unfold still. cj; auto.
  - destruct w as [|a [|b [|d [|e r]]]]; try contradiction. destruct W as [L W].
    inversion F as [|? ? Qa F1]; subst. inversion F1 as [|? ? Qb F2]; subst. inversion F2 as [|? ? Qd F3]; subst.
    inversion F3 as [|? ? Qe F4]; subst.
    destruct (idle_slot s 0 act a ltac:(lia) SY SS Qa (or_introl (conj eq_refl L))) as (s1 & E1 & S1).
    destruct S1 as (P1 & P2 & P3 & P4 & P5 & P6).
    assert (NZ : forall z, (z =? 0) = false -> z <> 0 /\ false = false) by (intros; split; [lia | reflexivity]).
    destruct (idle_slot s1 1 false b ltac:(lia) P1 P2 Qb (or_intror (NZ 1 eq_refl))) as (s2 & E2 & (Q1 & Q2 & Q3 & Q4 & Q5 & Q6)).
    destruct (idle_slot s2 2 false d ltac:(lia) Q1 Q2 Qd (or_intror (NZ 2 eq_refl))) as (s3 & E3 & (R1 & R2 & R3 & R4 & R5 & R6)).
    destruct (idle_slot s3 3 false e ltac:(lia) R1 R2 Qe (or_intror (NZ 3 eq_refl))) as (s4 & E4 & (T1 & T2 & T3 & T4 & T5 & T6)).
    cbn [Z.eqb Pos.eqb] in E1, E2, E3, E4. change (0 + 1) with 1 in E1. change (1 + 1) with 2 in E2. change (2 + 1) with 3 in E3.
    destruct (IH r s4 false l T1 T2 W F4) as (s' & act' & (U1 & U2 & U3 & U4 & U5 & U6) & E).
    exists s', act'. split.
    + unfold still. cj; auto; try congruence. rewrite !target_slots_cons. rewrite U6, T6, R6, Q6, P6. reflexivity.
    + rewrite <- !app_comm_cons. rewrite slots_cons, E1. cbn [fst snd]. rewrite slots_cons, E2. cbn [fst snd].
      rewrite slots_cons, E3. cbn [fst snd]. rewrite slots_cons, E4. cbn [fst snd]. rewrite E.
      replace (4 * S c)%nat with (4 + 4 * c)%nat by lia. reflexivity.
Qed.

Lemma idle_timeline : forall c w i0 l s act, synced s = false -> sstate s = 0 -> isAvailable s = true ->
  waiting c w -> lucky i0 -> Forall quiet (w ++ i0 :: l) ->
  forall k, (k < length (w ++ i0 :: l))%nat ->
  nth k (slots (MS s 0 act) (w ++ i0 :: l)) [] =
  if Z.of_nat k <? 4 * Z.of_nat c then []
  else due (hc1 s) (hc2 s) (target_slots (value s) (firstn (S k) (w ++ i0 :: l))) (Z.of_nat k - 4 * Z.of_nat c).
Proof.
  intros c w i0 l s act SY SS AV W L F k K.
  apply Forall_app in F. destruct F as [F1 F2].
  assert (LW : length w = (4 * c)%nat).
  { clear - W. revert w W. induction c as [|c IH]; intros w W; cbn [waiting] in W; [subst; reflexivity|].
    destruct w as [|a [|b [|d [|e r]]]]; try contradiction. cbn [length]. rewrite (IH r) by apply W. lia. }
  destruct (idle_wait c w s act (i0 :: l) SY SS W F1) as (s' & act' & ST & E). rewrite E.
  pose proof (still_avail _ _ _ ST) as AV'. destruct ST as (U1 & U2 & U3 & U4 & U5 & U6).
  destruct (Z.of_nat k <? 4 * Z.of_nat c) eqn:KC.
  - rewrite app_nth1 by (rewrite repeat_length; lia). apply nth_repeat.
  - rewrite app_nth2 by (rewrite repeat_length; lia). rewrite repeat_length.
    rewrite app_length in K.
    assert (PO : phase_ok (MS s' 0 act')) by (unfold phase_ok; fld; split; [lia | intros; lia]).
    rewrite (sync_timeline (MS s' 0 act') (i0 :: l) i0 l PO U1 U2 ltac:(fld; congruence) (or_introl eq_refl) eq_refl L F2) by lia.
    fld. rewrite U4, U5, U6.
    replace (firstn (S k) (w ++ i0 :: l)) with (w ++ firstn (S (k - 4 * c)) (i0 :: l)).
    2: { rewrite firstn_app, LW. replace (S k - 4 * c)%nat with (S (k - 4 * c)) by lia.
         rewrite (firstn_all2 w) by lia. reflexivity. }
    unfold target_slots at 1 2 3. rewrite flat_map_app. unfold target. rewrite fold_left_app.
    f_equal. lia.
Qed.

(** From power-up: after any set-up operations that leave the driver available, nothing is sent while
    the start is (randomly, per two-second cycle) put off, and from the cycle in which it is not, the
    commands follow the timeline to the slot. *)
Theorem fht_sync_power_up : forall e1 e2 setup c w i0 l,
  let s := fold_left do_op setup (fv_init e1 e2) in isAvailable s = true ->
  waiting c w -> lucky i0 -> Forall quiet (w ++ i0 :: l) ->
  forall k, (k < length (w ++ i0 :: l))%nat ->
  nth k (slots (MS s 0 false) (w ++ i0 :: l)) [] =
  if Z.of_nat k <? 4 * Z.of_nat c then []
  else due (hc1 s) (hc2 s) (target_slots (value s) (firstn (S k) (w ++ i0 :: l))) (Z.of_nat k - 4 * Z.of_nat c).
Proof.
  intros e1 e2 setup c w i0 l s AV W L F. 
  assert (U : synced s = false /\ sstate s = 0).
  { destruct (ops_any setup (fv_init e1 e2)) as (_ & [(A & B & _) | (_ & _ & A & _ & B & _)]); fold s in A, B; unfold fv_init in A, B; fld; split; congruence. }
  apply idle_timeline; tauto.
Qed.
(** The same from a call of resyncWithValve() in any reachable state at the start of a cycle. *)
Theorem fht_sync_after_resync : forall m c w i0 l, reachable m -> ms_phase m = 0 ->
  let s := do_op (ms_fv m) OResync in isAvailable s = true ->
  waiting c w -> lucky i0 -> Forall quiet (w ++ i0 :: l) ->
  forall k, (k < length (w ++ i0 :: l))%nat ->
  nth k (slots (MS s 0 (ms_active m)) (w ++ i0 :: l)) [] =
  if Z.of_nat k <? 4 * Z.of_nat c then []
  else due (hc1 s) (hc2 s) (target_slots (value s) (firstn (S k) (w ++ i0 :: l))) (Z.of_nat k - 4 * Z.of_nat c).
Proof. intros m c w i0 l R P s AV W L F. apply idle_timeline; auto. Qed.

Example fht_sync_nonvacuous :
  let s := fold_left do_op [ORadio true; OHC1 13; OHC2 255; OSet 30] (fv_init 255 255) in
  isAvailable s = true /\ waiting 1 (repeat (SI [] 7 false) 4) /\ lucky (SI [] 0x21 true) /\
  quiet (SI [OSet 40; OSet 200] 0 false) /\
  period 255 = 237 /\ due 13 255 40 0 = [(CSync 13 255 241, true)] /\ due 13 255 40 1 = [] /\
  due 13 255 40 238 = [(CSync 13 255 3, true)] /\ due 13 255 40 254 = [(CFinal 13 255, true)] /\
  due 13 255 40 (254 + 237) = [(CValve 13 255 40, false)] /\
  slots (MS s 0 false) (repeat (SI [] 7 false) 4 ++ [SI [] 0x21 true; SI [] 1 true; SI [OSet 40] 1 true]) =
    [[]; []; []; []; [(CSync 13 255 241, true)]; []; [(CSync 13 255 239, true)]].
Proof.
  cbv zeta. cj; try (vm_compute; reflexivity).
  - cbn. split; [intro H; vm_compute in H; discriminate | reflexivity].
  - apply Forall_cons; [exact I | apply Forall_cons; [exact I | apply Forall_nil]].
Qed.

(** A synchronised state the main loop really reaches. *)
Definition ex_run : list slot_in := SI [ORadio true; OHC1 13; OSet 30] 0 false :: repeat (SI [] 0 false) 260.
Example fht_regular_nonvacuous :
  let m := after (MS (fv_init 255 255) 0 false) ex_run in
  reachable m /\ synced (ms_fv m) = true /\ radio (ms_fv m) = true /\ value (ms_fv m) = 30 /\ hc2 (ms_fv m) = 255.
Proof.
  cbv zeta. split; [exists 255, 255, ex_run; reflexivity|]. vm_compute. auto.
Qed.

(** ** Every history of calls, in any order *)
Definition is_poll (e : ev) : Prop := match e with EOp _ => False | _ => True end.
Definition op_of (e : ev) : list op := match e with EOp o => [o] | _ => [] end.
(** The latest accepted target in a history (0 before the first). *)
Definition target_evs (l : list ev) : Z := target 0 (flat_map op_of l).

(** What holds after any history. *)
Definition HI (s : fv) : Prop :=
  (synced s = true -> isValidHC s = false /\ cbuf s = Some (CValve (hc1 s) (hc2 s) (value s))) /\
  (synced s = false -> vopen s = false).
Definition tx_ok (s : fv) (t : tx) : Prop :=
  radio s = true /\ isValidHC s = false /\
  match fst t with
  | CSync h1 h2 _ | CFinal h1 h2 => h1 = hc1 s /\ h2 = hc2 s /\ snd t = true /\ synced s = false
  | CValve h1 h2 pc => h1 = hc1 s /\ h2 = hc2 s /\ pc = value s /\ snd t = false /\ synced s = true
  end.
(** The open flag after a poll, the last command sent, and everything unchanged. *)
Definition poll_ok (s s' : fv) (out : list tx) : Prop :=
  HI s' /\ radio s' = radio s /\ hc1 s' = hc1 s /\ hc2 s' = hc2 s /\ value s' = value s /\
  ((out = [] /\ (vopen s' = vopen s \/ radio s = false)) \/
   exists t, out = [t] /\ tx_ok s t /\
     (vopen s' = true -> fst t = CValve (hc1 s) (hc2 s) (value s) /\ MIN_OPEN <= value s)).

Lemma doSync_ok : forall s rnd, HI s -> synced s = false ->
  let '(s', out, _) := doSync s rnd true in poll_ok s s' out.
Proof.
  intros s rnd [_ V] SY. specialize (V SY). unfold doSync.
  assert (K : forall st n, poll_ok s (setSync s st n false (vopen s)) []).
  { intros. unfold poll_ok, HI. fld. cj; auto; try discriminate. }
  destruct (isAvailable s) eqn:AV; cbn [negb]; [|apply K].
  assert (RV : radio s = true /\ isValidHC s = false).
  { unfold isAvailable in AV. destruct (radio s), (isValidHC s); try discriminate. split; reflexivity. }
  destruct RV as [RA VH].
  destruct ((sstate s =? 0) && negb (Z.land 30 rnd =? 0)); [apply K|].
  set (st := if sstate s =? 0 then 241 else sstate s).
  destruct (2 <=? st).
  - destruct (negb (Z.land st 1 =? 0)).
    + unfold send. fld. rewrite RA.
      assert (G : forall st' n, poll_ok s (setSync (setBuf s (Some (CSync (hc1 s) (hc2 s) st))) st' n false (vopen s)) [(CSync (hc1 s) (hc2 s) st, true)]).
      { intros. unfold poll_ok, HI. fld. cj; auto; try discriminate; try (intros; discriminate).
        right. eexists. split; [reflexivity|]. split; [unfold tx_ok; cbn [fst snd]; cj; auto|]. rewrite V. discriminate. }
      rewrite SY. destruct (u8 (st - 1) =? 1); apply G.
    + rewrite SY. destruct (u8 (st - 1) =? 1); apply K.
  - destruct (u8 (hsnext s - 1) =? 0).
    + unfold send, createValveCmd. fld. rewrite RA.
      unfold poll_ok, HI, isValidHC. fld. cj; auto; try discriminate.
      right. eexists. split; [reflexivity|]. split; [unfold tx_ok; cbn [fst snd]; cj; auto|]. discriminate.
    + rewrite SY. apply K.
Qed.

Lemma valveTX_ok : forall s n, HI s -> synced s = true -> forall n' dbl,
  let '(s', out) := valveSettingTX (setSync s (sstate s) n (synced s) (vopen s)) dbl in
  poll_ok s (setSync s' (sstate s') n' (synced s') (vopen s')) out.
Proof.
  intros s n [H _] SY n' dbl. destruct (H SY) as [VH BU]. unfold valveSettingTX, send. fld. rewrite BU. cbn [andb].
  unfold poll_ok, HI, isValidHC. fld. cj; auto; try congruence.
  destruct (radio s) eqn:RA; [right | left; split; [reflexivity | right; reflexivity]].
  eexists. split; [reflexivity|]. cbn [fst]. split; [unfold tx_ok; cbn [fst snd]; cj; auto|].
  intros X. split; [reflexivity | lia].
Qed.
Lemma hold_ok : forall s n, HI s -> synced s = true -> poll_ok s (setSync s (sstate s) n (synced s) (vopen s)) [].
Proof.
  intros s n [H V] SY. unfold poll_ok, HI. fld. cj; auto.
Qed.

Lemma HI_hsc : forall s c, HI s -> HI (setHsc s c).
Proof. intros s c H. exact H. Qed.
Lemma poll_first_ok : forall s rnd dbl, HI s -> let '(s', out, _) := poll_first s rnd dbl in poll_ok s s' out.
Proof.
  intros s rnd dbl H. unfold poll_first. cbv zeta. set (s0 := setHsc s 0).
  assert (H0 : HI s0) by exact H.
  change (poll_ok s) with (poll_ok s0).
  destruct (synced s0) eqn:SY; cbn [negb].
  - destruct (MAX_HSC + 1 <? hsnext s0); [rewrite <- SY; apply hold_ok; [exact H0 | exact SY]|].
    set (n := u8 (hsnext s0 - 1)).
    pose proof (valveTX_ok s0 n H0 SY (gap_from (hc2 s0) 0) dbl) as T.
    pose proof (hold_ok s0 n H0 SY) as Hd.
    rewrite SY in T, Hd. cbn [hsnext setSync].
    destruct (n =? 0); [|exact Hd].
    destruct (valveSettingTX (setSync s0 (sstate s0) n true (vopen s0)) dbl) as [s2 out] eqn:E.
    assert (hc2 s2 = hc2 s0) by (unfold valveSettingTX in E; apply pair_inj in E; destruct E as [<- _]; reflexivity).
    rewrite H1. exact T.
  - apply doSync_ok; assumption.
Qed.
Lemma poll_next_ok : forall s rnd dbl, HI s -> let '(s', out, _) := poll_next s rnd dbl in poll_ok s s' out.
Proof.
  intros s rnd dbl H. unfold poll_next. cbv zeta. set (s0 := setHsc s (u8 (hsc s + 1))).
  assert (H0 : HI s0) by exact H.
  change (poll_ok s) with (poll_ok s0).
  destruct (synced s0) eqn:SY; cbn [negb].
  - set (n := u8 (hsnext s0 - 1)).
    pose proof (valveTX_ok s0 n H0 SY (gap_from (hc2 s0) (hsc s0)) dbl) as T.
    pose proof (hold_ok s0 n H0 SY) as Hd.
    rewrite SY in T, Hd. cbn [hsnext setSync].
    destruct (n =? 0); [|exact Hd].
    destruct (valveSettingTX (setSync s0 (sstate s0) n true (vopen s0)) dbl) as [s2 out] eqn:E.
    assert (hc2 s2 = hc2 s0 /\ hsc s2 = hsc s0) as [-> ->] by (unfold valveSettingTX in E; apply pair_inj in E; destruct E as [<- _]; split; reflexivity).
    exact T.
  - apply doSync_ok; assumption.
Qed.

Lemma op_hi : forall s o, HI s -> HI (do_op s o) /\ (vopen (do_op s o) = true ->
  vopen s = true /\ hc1 (do_op s o) = hc1 s /\ hc2 (do_op s o) = hc2 s).
Proof.
  intros s o [H V]. destruct (op_any s o) as (_ & [(A1&A2&A3) | (A1&A2&A3&A4&A5&A6&A7)]).
  - split; [|congruence]. split; [congruence | auto].
  - split; [|intros; cj; congruence]. split.
    + intros SY. rewrite A5 in SY. destruct (H SY) as [H1 H2]. unfold isValidHC in *. rewrite A1, A2. auto.
    + rewrite A5, A6. exact V.
Qed.
Lemma op_value : forall s o, value (do_op s o) = target1 (value s) o.
Proof.
  assert (H1 : forall s h, value (setHC1 s h) = value s) by (intros; unfold setHC1; destruct (h =? hc1 s); reflexivity).
  assert (H2 : forall s h, value (setHC2 s h) = value s) by (intros; unfold setHC2; destruct (h =? hc2 s); reflexivity).
  intros s [v | b | h | h | | | h | h | |]; cbn [do_op target1]; auto.
  - unfold set_pc. destruct (100 <? v) eqn:E; cbn [fst]; [replace (v <=? 100) with false by lia | replace (v <=? 100) with true by lia]; reflexivity.
  - unfold nvSetHC1. cbn. auto.
  - unfold nvSetHC2. cbn. auto.
  - unfold nvLoadHC, nvGetHC1, nvGetHC2. repeat match goal with |- context [if ?b then _ else _] => destruct b; cbn [fst] end; rewrite ?H2, ?H1; reflexivity.
Qed.
Lemma ev_ok : forall s e, HI s -> is_poll e -> poll_ok s (fst (do_ev s e)) (snd (do_ev s e)).
Proof.
  intros s [o | rnd dbl | rnd dbl] H P; [contradiction| |]; cbn [do_ev].
  - pose proof (poll_first_ok s rnd dbl H). destruct (poll_first s rnd dbl) as [[s' out] r]. exact H0.
  - pose proof (poll_next_ok s rnd dbl H). destruct (poll_next s rnd dbl) as [[s' out] r]. exact H0.
Qed.
Lemma HI_init : forall e1 e2, HI (fv_init e1 e2).
Proof. intros. split; [discriminate | reflexivity]. Qed.
Lemma run_evs_app : forall l1 l2 s, run_evs s (l1 ++ l2) =
  (fst (run_evs (fst (run_evs s l1)) l2), snd (run_evs s l1) ++ snd (run_evs (fst (run_evs s l1)) l2)).
Proof.
  induction l1 as [|e l1 IH]; intros; cbn [app run_evs fst snd]; [destruct (run_evs s l2); reflexivity|].
  destruct (do_ev s e) as [s1 o1]. rewrite IH. destruct (run_evs s1 l1) as [s2 o2]. cbn [fst snd].
  rewrite app_assoc. reflexivity.
Qed.
Lemma run_evs_snoc : forall l e s, run_evs s (l ++ [e]) =
  (fst (do_ev (fst (run_evs s l)) e), snd (run_evs s l) ++ snd (do_ev (fst (run_evs s l)) e)).
Proof.
  intros. rewrite run_evs_app. cbn [run_evs]. destruct (do_ev (fst (run_evs s l)) e). cbn [fst snd].
  rewrite app_nil_r. reflexivity.
Qed.
Lemma ev_step : forall s e, HI s -> HI (fst (do_ev s e)) /\ value (fst (do_ev s e)) = target (value s) (op_of e).
Proof.
  intros s e H. destruct e as [o | rnd dbl | rnd dbl].
  - cbn [do_ev fst op_of]. split; [apply op_hi, H | apply op_value].
  - destruct (ev_ok s (EFirst rnd dbl) H I) as (A & _ & _ & _ & V & _). split; assumption.
  - destruct (ev_ok s (ENext rnd dbl) H I) as (A & _ & _ & _ & V & _). split; assumption.
Qed.
Lemma run_hi : forall e1 e2 l, let s := fst (run_evs (fv_init e1 e2) l) in HI s /\ value s = target_evs l.
Proof.
  intros e1 e2 l. cbv zeta. induction l as [|e l [IH1 IH2]] using rev_ind; [split; [apply HI_init | reflexivity]|].
  rewrite run_evs_snoc. cbn [fst]. destruct (ev_step _ e IH1) as [A B]. split; [exact A|].
  rewrite B, IH2. unfold target_evs. rewrite flat_map_app. unfold target. rewrite fold_left_app. cbn [flat_map].
  rewrite app_nil_r. reflexivity.
Qed.

(** After any history of calls in any order, a poll sends at most one command, only with a radio
    set; sync commands carry the current house codes, only while not in sync, twice; valve commands
    carry the current house codes and the latest accepted target, only while in sync, once. No other
    call sends anything. *)
Theorem fht_any_history : forall e1 e2 l e, let s := fst (run_evs (fv_init e1 e2) l) in
  snd (do_ev s e) = [] \/
  exists c dbl, snd (do_ev s e) = [(c, dbl)] /\ is_poll e /\ radio s = true /\
    match c with
    | CSync h1 h2 _ | CFinal h1 h2 => h1 = hc1 s /\ h2 = hc2 s /\ dbl = true /\ synced s = false
    | CValve h1 h2 pc => h1 = hc1 s /\ h2 = hc2 s /\ pc = target_evs l /\ dbl = false /\ synced s = true
    end.
Proof.
  intros e1 e2 l e s. destruct (run_hi e1 e2 l) as [H V]. fold s in H, V.
  assert (P : is_poll e \/ snd (do_ev s e) = []) by (destruct e; [right; reflexivity | left; exact I | left; exact I]).
  destruct P as [P | P]; [|left; exact P].
  destruct (ev_ok s e H P) as (_ & _ & _ & _ & _ & [[E _] | ([c dbl] & E & (RA & _ & T) & _)]); [left; exact E|].
  right. exists c, dbl. split; [exact E|]. split; [exact P|]. split; [exact RA|]. cbn [fst snd] in T.
  rewrite <- V. exact T.
Qed.

(** isAvailable() tests the opposite of what it documents: a driver whose house codes are valid never
    sends anything and is never in sync. *)
Theorem fht_valid_codes_never_driven : forall e1 e2 l, let s := fst (run_evs (fv_init e1 e2) l) in
  isValidHC s = true -> synced s = false /\ isAvailable s = false /\ isReallyOpen s = false /\
  forall e, snd (do_ev s e) = [].
Proof.
  intros e1 e2 l s VH. destruct (run_hi e1 e2 l) as [H V]. fold s in H, V.
  assert (SY : synced s = false).
  { destruct (synced s) eqn:SY; [|reflexivity]. destruct (proj1 H SY). congruence. }
  split; [exact SY|]. split; [unfold isAvailable; rewrite VH; apply Bool.andb_false_r|].
  split; [unfold isReallyOpen; rewrite SY; reflexivity|].
  intros [o | rnd dbl | rnd dbl]; [reflexivity| |].
  - destruct (ev_ok s (EFirst rnd dbl) H I) as (_ & _ & _ & _ & _ & [[E _] | (t & _ & (_ & X & _) & _)]); [exact E | congruence].
  - destruct (ev_ok s (ENext rnd dbl) H I) as (_ & _ & _ & _ & _ & [[E _] | (t & _ & (_ & X & _) & _)]); [exact E | congruence].
Qed.
(** The documented claim (.h lines 357-358: available iff radio and house codes are set) is false both
    ways: with radio and valid codes the driver says it is not available; with a radio and unset codes
    it says it is, and transmits sync commands with house codes 255. *)
Theorem fht_available_refuted :
  (exists l, let s := fst (run_evs (fv_init 255 255) l) in
     radio s = true /\ isValidHC s = true /\ isAvailable s = false) /\
  (exists l, let s := fst (run_evs (fv_init 255 255) l) in
     radio s = true /\ hc1 s = 255 /\ hc2 s = 255 /\ isAvailable s = true /\
     snd (do_ev s (EFirst 0 false)) = [(CSync 255 255 241, true)]).
Proof.
  split.
  - exists [EOp (ORadio true); EOp (OHC1 13); EOp (OHC2 73)]. vm_compute. auto.
  - exists [EOp (ORadio true)]. vm_compute. auto.
Qed.

(** If a radio is set at every poll, then whenever the driver reports the valve really open the latest
    command it sent was a valve command of at least the minimum percentage, with the current codes,
    and the current target is at least that too. *)
Theorem fht_open_was_told_partial : forall e1 e2 l,
  (forall l1 e l2, l = l1 ++ e :: l2 -> is_poll e -> radio (fst (run_evs (fv_init e1 e2) l1)) = true) ->
  let (s, out) := run_evs (fv_init e1 e2) l in
  isReallyOpen s = true -> 10 <= value s /\
  exists out' pc, out = out' ++ [(CValve (hc1 s) (hc2 s) pc, false)] /\ 10 <= pc.
Proof.
  intros e1 e2 l R.
  assert (G : vopen (fst (run_evs (fv_init e1 e2) l)) = true ->
    exists out' pc, snd (run_evs (fv_init e1 e2) l) = out' ++ [(CValve (hc1 (fst (run_evs (fv_init e1 e2) l))) (hc2 (fst (run_evs (fv_init e1 e2) l))) pc, false)] /\ 10 <= pc).
  { induction l as [|e l IH] using rev_ind; [discriminate|].
    assert (IH' := IH ltac:(intros l1 e' l2 E; apply (R l1 e' (l2 ++ [e])); rewrite E, <- app_assoc; reflexivity)). clear IH.
    rewrite run_evs_snoc. cbn [fst snd]. set (s := fst (run_evs (fv_init e1 e2) l)) in *.
    set (out := snd (run_evs (fv_init e1 e2) l)) in *.
    destruct (run_hi e1 e2 l) as [H _]. fold s in H.
    assert (P : is_poll e \/ exists o, e = EOp o) by (destruct e; [right; eexists; reflexivity | left; exact I | left; exact I]).
    destruct P as [P | [o ->]].
    - specialize (R l e [] eq_refl P). fold s in R.
      destruct (ev_ok s e H P) as (_ & _ & A1 & A2 & _ & [[E [F | F]] | ([c dbl] & E & T & F)]).
      + rewrite E, app_nil_r, F, A1, A2. exact IH'.
      + congruence.
      + intros X. destruct (F X) as [F1 F2]. cbn [fst] in F1. subst c. rewrite E, A1, A2.
        exists out, (value s). destruct T as (_ & _ & T). cbn [fst snd] in T. destruct T as (_ & _ & _ & -> & _).
        split; [reflexivity | exact F2].
    - cbn [do_ev fst snd]. rewrite app_nil_r. intros X. destruct (op_hi s o H) as [_ O].
      destruct (O X) as (A & B & C). rewrite B, C. exact (IH' A). }
  destruct (run_evs (fv_init e1 e2) l) as [s out]. cbn [fst snd] in G. unfold isReallyOpen, MIN_OPEN.
  intros X. apply Bool.andb_true_iff in X. destruct X as [X V]. apply Bool.andb_true_iff in X.
  split; [lia | apply G, X].
Qed.
(** Without that condition it is false: with the radio taken away, the driver reports the valve open
    although the only commands ever sent told it to close. *)
Definition ex_polls (n : nat) : list ev := repeat (EFirst 0 false) n.
Theorem fht_open_refuted : exists l,
  let (s, out) := run_evs (fv_init 255 255) l in
  isReallyOpen s = true /\ forall h1 h2 pc dbl, In (CValve h1 h2 pc, dbl) out -> pc = 0.
Proof.
  exists (EOp (ORadio true) :: ex_polls 260 ++ EOp (OSet 0) :: ex_polls 60 ++ [EOp (ORadio false); EOp (OSet 80)] ++ ex_polls 62).
  assert (E : let (s, out) := run_evs (fv_init 255 255) (EOp (ORadio true) :: ex_polls 260 ++ EOp (OSet 0) :: ex_polls 60 ++ [EOp (ORadio false); EOp (OSet 80)] ++ ex_polls 62) in
    isReallyOpen s && forallb (fun t => match fst t with CValve _ _ pc => pc =? 0 | _ => true end) out = true) by (vm_compute; reflexivity).
  destruct (run_evs _ _) as [s out]. apply Bool.andb_true_iff in E. destruct E as [E F]. split; [exact E|].
  intros h1 h2 pc dbl I. rewrite forallb_forall in F. specialize (F _ I). cbn [fst] in F. lia.
Qed.

(** House codes survive a restart: after any history, power-up and loading the codes gives exactly the
    last codes stored (when valid), and unset codes otherwise. *)
Definition stored1 (e : Z) (o : op) : Z := match o with ONvSet1 h => h | ONvClear => 255 | _ => e end.
Definition stored2 (e : Z) (o : op) : Z := match o with ONvSet2 h => h | ONvClear => 255 | _ => e end.
Lemma op_nv : forall s o, nv1 (do_op s o) = stored1 (nv1 s) o /\ nv2 (do_op s o) = stored2 (nv2 s) o.
Proof.
  assert (H1 : forall s h, nv1 (setHC1 s h) = nv1 s /\ nv2 (setHC1 s h) = nv2 s) by (intros; unfold setHC1; destruct (h =? hc1 s); split; reflexivity).
  assert (H2 : forall s h, nv1 (setHC2 s h) = nv1 s /\ nv2 (setHC2 s h) = nv2 s) by (intros; unfold setHC2; destruct (h =? hc2 s); split; reflexivity).
  intros s [v | b | h | h | | | h | h | |]; cbn [do_op stored1 stored2]; auto.
  - unfold set_pc. destruct (100 <? v); split; reflexivity.
  - unfold nvSetHC1. cbn. split; [reflexivity | apply H1].
  - unfold nvSetHC2. cbn. split; [apply H2 | reflexivity].
  - unfold nvLoadHC, nvGetHC1, nvGetHC2. repeat match goal with |- context [if ?b then _ else _] => destruct b; cbn [fst] end;
      rewrite ?(proj1 (H2 _ _)), ?(proj2 (H2 _ _)), ?(proj1 (H1 _ _)), ?(proj2 (H1 _ _)); auto.
Qed.
Lemma poll_nv : forall s e, is_poll e -> nv1 (fst (do_ev s e)) = nv1 s /\ nv2 (fst (do_ev s e)) = nv2 s.
Proof.
  assert (D : forall s rnd, nv1 (fst (fst (doSync s rnd true))) = nv1 s /\ nv2 (fst (fst (doSync s rnd true))) = nv2 s).
  { intros. unfold doSync, send, createValveCmd. cbv zeta.
    repeat match goal with |- context [if ?b then _ else _] => destruct b; cbn [fst snd] end; split; reflexivity. }
  intros s [o | rnd dbl | rnd dbl] P; [contradiction| |]; cbn [do_ev].
  - unfold poll_first, valveSettingTX. cbv zeta. destruct (negb (synced (setHsc s 0))); [apply (D (setHsc s 0))|].
    repeat match goal with |- context [if ?b then _ else _] => destruct b; cbn [fst snd] end; split; reflexivity.
  - unfold poll_next, valveSettingTX. cbv zeta. destruct (negb (synced (setHsc s (u8 (hsc s + 1))))); [apply (D (setHsc s _))|].
    repeat match goal with |- context [if ?b then _ else _] => destruct b; cbn [fst snd] end; split; reflexivity.
Qed.
Theorem fht_codes_persist : forall e1 e2 l,
  let s := fst (run_evs (fv_init e1 e2) l) in
  let c1 := fold_left stored1 (flat_map op_of l) e1 in
  let c2 := fold_left stored2 (flat_map op_of l) e2 in
  let s' := do_op (fv_init (nv1 s) (nv2 s)) ONvLoad in
  hc1 s' = (if c1 <=? 99 then c1 else 255) /\ hc2 s' = (if c2 <=? 99 then c2 else 255).
Proof.
  intros e1 e2 l.
  assert (N : nv1 (fst (run_evs (fv_init e1 e2) l)) = fold_left stored1 (flat_map op_of l) e1 /\
              nv2 (fst (run_evs (fv_init e1 e2) l)) = fold_left stored2 (flat_map op_of l) e2).
  { induction l as [|e l [IH1 IH2]] using rev_ind; [split; reflexivity|].
    rewrite run_evs_snoc, flat_map_app, !fold_left_app. cbn [fst flat_map]. rewrite app_nil_r, <- IH1, <- IH2.
    assert (P : is_poll e \/ exists o, e = EOp o) by (destruct e; [right; eexists; reflexivity | left; exact I | left; exact I]).
    destruct P as [P | [o ->]].
    - destruct (poll_nv (fst (run_evs (fv_init e1 e2) l)) e P) as [-> ->]. destruct e; [contradiction | |]; split; reflexivity.
    - cbn [do_ev fst op_of fold_left]. apply op_nv. }
  destruct N as [N1 N2]. cbv zeta. rewrite N1, N2. clear N1 N2.
  set (c1 := fold_left stored1 (flat_map op_of l) e1). set (c2 := fold_left stored2 (flat_map op_of l) e2). clearbody c1 c2.
  cbn [do_op]. unfold nvLoadHC, nvGetHC1, nvGetHC2, fv_init, setHC1, setHC2, valid_hc, resync. fld.
  change (255 <=? 99) with false. cbv iota.
  destruct (c1 <=? 99) eqn:C1; cbn [fst]; fld; [replace (c1 =? 255) with false by lia|]; fld; change (255 <=? 99) with false; cbv iota;
  destruct (c2 <=? 99) eqn:C2; cbn [fst]; fld; try replace (c2 =? 255) with false by lia; fld; split; reflexivity.
Qed.
Example fht_codes_persist_nonvacuous :
  let s := fst (run_evs (fv_init 255 255) [EOp (ONvSet1 13); EOp (ONvSet2 73)]) in
  let s' := do_op (fv_init (nv1 s) (nv2 s)) ONvLoad in hc1 s' = 13 /\ hc2 s' = 73.
Proof. vm_compute. auto. Qed.
Example fht_open_nonvacuous : exists l,
  let (s, out) := run_evs (fv_init 255 255) l in isReallyOpen s = true /\ length out = 122%nat.
Proof.
  exists (EOp (ORadio true) :: EOp (OSet 30) :: ex_polls 254 ++ ex_polls 60). vm_compute. auto.
Qed.
