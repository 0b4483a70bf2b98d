(** FHT8V valve driver: theorems about the synchronisation and the periodic commands. *)
From Verif Require Import Base FhtModel FhtSyncModel.

(** ** Specification *)
(** House code 2's low three bits: the protocol's per-valve offset. *)
Definition off (h2 : Z) : Z := h2 mod 8.
(** Half-second slots between two valve commands: 115 s + 0.5 s * (HC2 mod 8). *)
Definition period (h2 : Z) : Z := 230 + off h2.
(** The target after an operation, and after a list of slots' operations. *)
Definition target1 (v : Z) (o : op) : Z := match o with OSet v' => if v' <=? 100 then v' else v | _ => v end.
Definition target (v : Z) (ops : list op) : Z := fold_left target1 ops v.
Definition target_slots (v : Z) (l : list slot_in) : Z := target v (flat_map si_ops l).
(** Operations that leave the radio and the house codes alone. *)
Definition quiet_op (o : op) : Prop := match o with OSet _ => True | _ => False end.
Definition quiet (i : slot_in) : Prop := Forall quiet_op (si_ops i).
(** The state reached after some slots. *)
Fixpoint after (m : msys) (l : list slot_in) : msys :=
  match l with [] => m | i :: r => after (fst (slot m i)) r end.
(** The slot's pseudo-random number starts a sync (1 in 16). *)
Definition lucky (i : slot_in) : Prop := Z.land 0x1e (si_rnd i) = 0.

(** Slot [k] counted from the one in which the sync starts: the command due, if any.
    120 sync commands one second apart counting down 241, 239, .. 3; the sync-final command
    4 s + 0.5 s * (HC2 mod 8) after the last of them was due to end; then a valve command every
    [period]. *)
Definition due (h1 h2 : Z) (v : Z) (k : Z) : list tx :=
  if (k <=? 238) && (k mod 2 =? 0) then [(CSync h1 h2 (241 - k), true)]
  else if k <? 247 + off h2 then []
  else if k =? 247 + off h2 then [(CFinal h1 h2, true)]
  else if (k - (247 + off h2)) mod period h2 =? 0 then [(CValve h1 h2 v, false)]
  else [].

(** ** Arithmetic *)
Lemma land7 : forall h, Z.land h 7 = h mod 8.
Proof. intros. change 7 with (Z.ones 3). rewrite Z.land_ones by lia. reflexivity. Qed.
Lemma land1 : forall h, Z.land h 1 = h mod 2.
Proof. intros. change 1 with (Z.ones 1) at 1. rewrite Z.land_ones by lia. reflexivity. Qed.
Lemma off_range : forall h, 0 <= off h < 8.
Proof. intros. unfold off. apply Z.mod_pos_bound. lia. Qed.
Lemma gap_period : forall h, gap h = period h.
Proof.
  intros. unfold gap, period. rewrite land7. fold (off h). pose proof (off_range h).
  rewrite u8_id by (unfold byte; lia). lia.
Qed.
Lemma gap_from_eq : forall h c, 0 <= c <= 3 -> gap_from h c = period h - (3 - c).
Proof.
  intros. unfold gap_from, MAX_HSC. rewrite gap_period. unfold period. pose proof (off_range h).
  apply u8_id. unfold byte. lia.
Qed.

(** ** The countdown *)
(** [CD n m]: if the driver is polled as required, the countdown reaches zero in slot [n] from now
    (0: this slot). *)
Definition phase_ok (m : msys) : Prop :=
  0 <= ms_phase m <= 3 /\ (0 < ms_phase m -> ms_active m = true -> hsc (ms_fv m) = ms_phase m - 1).
Definition CD (n : Z) (m : msys) : Prop :=
  0 <= n <= 250 /\
  if (ms_phase m =? 0) || ms_active m then hsnext (ms_fv m) = n + 1
  else hsnext (ms_fv m) = n + 1 - (4 - ms_phase m) /\ 1 <= hsnext (ms_fv m).

Ltac fld := cbn [radio hc1 hc2 sstate hsnext hsc synced vopen value cbuf nv1 nv2 setHC setSync setHsc
  setBuf setValue setRadio setNv ms_fv ms_phase ms_active si_ops si_rnd si_dbl] in *.

Lemma op_quiet : forall s o, quiet_op o -> let s' := do_op s o in
  radio s' = radio s /\ hc1 s' = hc1 s /\ hc2 s' = hc2 s /\ sstate s' = sstate s /\ hsnext s' = hsnext s /\
  hsc s' = hsc s /\ synced s' = synced s /\ vopen s' = vopen s /\ value s' = target1 (value s) o /\
  (cbuf s = Some (CValve (hc1 s) (hc2 s) (value s)) -> cbuf s' = Some (CValve (hc1 s) (hc2 s) (value s'))).
Proof.
  intros s o Q. destruct o; try contradiction. cbn [do_op target1]. unfold set_pc, createValveCmd.
  destruct (100 <? v) eqn:E; cbn [fst]; fld.
  - replace (v <=? 100) with false by lia. repeat apply conj; auto.
  - replace (v <=? 100) with true by lia. repeat apply conj; auto.
Qed.
Definition same_but_value (s s' : fv) : Prop :=
  radio s' = radio s /\ hc1 s' = hc1 s /\ hc2 s' = hc2 s /\ sstate s' = sstate s /\ hsnext s' = hsnext s /\
  hsc s' = hsc s /\ synced s' = synced s /\ vopen s' = vopen s /\
  (cbuf s = Some (CValve (hc1 s) (hc2 s) (value s)) -> cbuf s' = Some (CValve (hc1 s) (hc2 s) (value s'))).
Lemma ops_quiet : forall ops s, Forall quiet_op ops -> let s' := fold_left do_op ops s in
  same_but_value s s' /\ value s' = target (value s) ops.
Proof.
  induction ops as [|o ops IH]; intros s F s'.
  - subst s'. cbn [fold_left]. unfold same_but_value, target. cbn [fold_left]. repeat apply conj; auto.
  - inversion F as [|? ? Q F']; subst. destruct (op_quiet s o Q) as (A1&A2&A3&A4&A5&A6&A7&A8&A9&A10).
    destruct (IH (do_op s o) F') as ((B1&B2&B3&B4&B5&B6&B7&B8&B9)&V).
    subst s'. cbn [fold_left]. unfold same_but_value, target. cbn [fold_left].
    repeat apply conj; try congruence.
    + intros C. rewrite B9; [congruence|]. rewrite A10 by exact C. congruence.
    + rewrite V, A9. reflexivity.
Qed.
Lemma ops_quiet_avail : forall s s', same_but_value s s' -> isAvailable s' = isAvailable s.
Proof.
  intros s s' (R & A & B & _). unfold isAvailable, isValidHC. rewrite R, A, B. reflexivity.
Qed.

Definition next_phase (m : msys) : Z := if ms_phase m =? 3 then 0 else ms_phase m + 1.

(** One slot when in sync. *)
Lemma slot_synced : forall m i n, phase_ok m -> CD n m -> quiet i ->
  let s := ms_fv m in synced s = true ->
  cbuf s = Some (CValve (hc1 s) (hc2 s) (value s)) ->
  let m' := fst (slot m i) in let s' := ms_fv m' in
  let v := target (value s) (si_ops i) in
  phase_ok m' /\ synced s' = true /\ radio s' = radio s /\ hc1 s' = hc1 s /\ hc2 s' = hc2 s /\ value s' = v /\
  cbuf s' = Some (CValve (hc1 s) (hc2 s) v) /\
  (if n =? 0 then CD (period (hc2 s) - 1) m' /\
     snd (slot m i) = (if radio s then [(CValve (hc1 s) (hc2 s) v, false)] else [])
   else CD (n - 1) m' /\ snd (slot m i) = []).
Proof.
  intros [s ph act] [ops rnd dbl] n PO HC Q. fld. unfold quiet in Q. fld. intros SY BU.
  destruct (ops_quiet ops s Q) as ((A1&A2&A3&A4&A5&A6&A7&A8&A9)&V).
  specialize (A9 BU). unfold slot. fld.
  set (s1 := fold_left do_op ops s) in *. clearbody s1.
  unfold phase_ok, CD in *. fld. destruct PO as [PH PA]. destruct HC as [N HC].
  rewrite V in A9. clear BU.
  assert (PR := off_range (hc2 s)).
  destruct s1 as [r1 c1 c2 ss1 hn1 hs1 sy1 vo1 va1 cb1 e1 e2]. fld. subst r1 c1 c2 hn1 sy1 cb1 va1 hs1.
  rewrite SY. destruct (ph =? 0) eqn:P0.
  - (* first slot of the cycle *)
    assert (ph = 0) by lia. subst ph. cbn [orb] in HC. cbn [Z.eqb]. change (0 + 1) with 1.
    unfold poll_first. fld. rewrite ?SY. cbn [negb]. unfold MAX_HSC. change (3 + 1) with 4. rewrite HC.
    destruct (4 <? n + 1) eqn:G.
    + replace (n =? 0) with false by lia. cbn [fst snd]. fld. rewrite u8_id by (unfold byte; lia). cbn [orb Z.eqb].
      repeat apply conj; auto; try lia.
    + rewrite u8_id by (unfold byte; lia).
      destruct (n =? 0) eqn:N0.
      * replace (n + 1 - 1 =? 0) with true by lia. unfold valveSettingTX, send. fld. cbn [fst snd andb]. fld.
        rewrite gap_from_eq by lia. unfold period. cbn [orb Z.eqb]. repeat apply conj; auto; try lia.
      * replace (n + 1 - 1 =? 0) with false by lia. cbn [fst snd]. fld. cbn [orb Z.eqb].
        repeat apply conj; auto; lia.
  - cbn [orb] in HC. destruct act.
    + assert (HS : hsc s = ph - 1) by (apply PA; [lia | reflexivity]).
      unfold poll_next. fld. rewrite ?SY. cbn [negb]. rewrite HC. rewrite !u8_id by (unfold byte; lia).
      destruct (n =? 0) eqn:N0.
      * replace (n + 1 - 1 =? 0) with true by lia. unfold valveSettingTX, send. fld. cbn [fst snd andb]. fld.
        rewrite gap_from_eq by lia. rewrite HS. unfold period.
        destruct (ph =? 3) eqn:P3.
        -- cbn [orb Z.eqb]. repeat apply conj; auto; try lia.
        -- replace (ph + 1 =? 0) with false by lia. cbn [orb]. repeat apply conj; auto; try lia.
      * replace (n + 1 - 1 =? 0) with false by lia. cbn [fst snd]. fld.
        destruct (ph =? 3) eqn:P3.
        -- cbn [orb Z.eqb]. repeat apply conj; auto; lia.
        -- rewrite Bool.orb_true_r. repeat apply conj; auto; lia.
    + destruct HC as [HC H1]. cbn [fst snd]. fld. replace (n =? 0) with false by lia. rewrite ?SY.
      destruct (ph =? 3) eqn:P3.
      * cbn [orb Z.eqb]. repeat apply conj; auto; lia.
      * replace (ph + 1 =? 0) with false by lia. cbn [orb]. repeat apply conj; auto; try lia.
Qed.

Ltac zl := repeat match goal with
  | H : isAvailable _ = _ |- _ => clear H
  | H : synced _ = _ |- _ => clear H
  | H : radio _ = _ |- _ => clear H
  | H : vopen _ = _ |- _ => clear H
  | H : hc1 _ = _ |- _ => clear H
  | H : cbuf _ = _ |- _ => clear H
  | H : Forall _ _ |- _ => clear H
  | H : forall _ : fv, _ |- _ => clear H
  | H : forall _ _ : _, _ |- _ => clear H
  end; lia.

(** One slot while waiting to send the sync-final command. *)
Lemma slot_wait : forall m i n, phase_ok m -> CD n m -> quiet i ->
  let s := ms_fv m in synced s = false -> sstate s = 1 -> isAvailable s = true ->
  let m' := fst (slot m i) in let s' := ms_fv m' in
  let v := target (value s) (si_ops i) in
  phase_ok m' /\ radio s' = true /\ isAvailable s' = true /\ hc1 s' = hc1 s /\ hc2 s' = hc2 s /\ value s' = v /\
  (if n =? 0 then CD (period (hc2 s) - 1) m' /\ snd (slot m i) = [(CFinal (hc1 s) (hc2 s), true)] /\
     synced s' = true /\ cbuf s' = Some (CValve (hc1 s) (hc2 s) v)
   else CD (n - 1) m' /\ snd (slot m i) = [] /\ synced s' = false /\ sstate s' = 1).
Proof.
  intros [s ph act] [ops rnd dbl] n PO HC Q. fld. unfold quiet in Q. fld. intros SY SS AV.
  destruct (ops_quiet ops s Q) as (SB&V). pose proof (ops_quiet_avail _ _ SB) as AV1.
  destruct SB as (A1&A2&A3&A4&A5&A6&A7&A8&A9). clear A9. unfold slot. fld.
  set (s1 := fold_left do_op ops s) in *. clearbody s1.
  unfold phase_ok, CD in *. fld. destruct PO as [PH PA]. destruct HC as [N HC].
  assert (PR := off_range (hc2 s)). rewrite AV in AV1.
  assert (RA : radio s = true) by (unfold isAvailable in AV; destruct (radio s); [reflexivity | discriminate]).
  assert (AVg : forall x, radio x = radio s1 -> hc1 x = hc1 s1 -> hc2 x = hc2 s1 -> isAvailable x = true).
  { intros x X1 X2 X3. unfold isAvailable, isValidHC in *. rewrite X1, X2, X3. exact AV1. }
  assert (AV2 : isAvailable (setHsc s1 0) = true) by (apply AVg; reflexivity).
  destruct (ph =? 0) eqn:P0.
  - assert (ph = 0) by zl. subst ph. cbn [orb] in HC. cbn [Z.eqb]. change (0 + 1) with 1.
    unfold poll_first. fld. rewrite A7, SY. cbn [negb]. unfold doSync. rewrite AV2. cbn [negb]. fld.
    rewrite A4, SS. cbn [Z.eqb andb Z.leb Z.compare Pos.compare Pos.compare_cont]. rewrite A5, HC. rewrite !u8_id by (unfold byte; zl).
    destruct (n =? 0) eqn:N0.
    + replace (n + 1 - 1 =? 0) with true by zl. unfold send, createValveCmd, MAX_HSC. fld. rewrite A1, RA. cbn [fst snd]. fld.
      rewrite A3, gap_from_eq by zl. rewrite A2, V. unfold period. cbn [orb Z.eqb]. repeat apply conj; auto; try zl.
      all: first [congruence | apply AVg; fld; congruence].
    + replace (n + 1 - 1 =? 0) with false by zl. cbn [fst snd]. fld. cbn [orb Z.eqb]. repeat apply conj; auto; try zl; try congruence; try (apply AVg; fld; congruence).
  - cbn [orb] in HC. destruct act.
    + assert (HS : hsc s = ph - 1) by (apply PA; [zl | reflexivity]).
      unfold poll_next. fld. rewrite A7, SY. cbn [negb]. unfold doSync.
      rewrite (AVg (setHsc s1 (u8 (hsc s1 + 1)))) by reflexivity. cbn [negb]. fld.
      rewrite A4, SS. cbn [Z.eqb andb Z.leb Z.compare Pos.compare Pos.compare_cont]. rewrite A5, HC, A6, HS. rewrite !u8_id by (unfold byte; zl).
      destruct (n =? 0) eqn:N0.
      * replace (n + 1 - 1 =? 0) with true by zl. unfold send, createValveCmd. fld. rewrite A1, RA. cbn [fst snd]. fld.
        rewrite A3, gap_from_eq by zl. rewrite A2, V. unfold period.
        assert (AV3 : forall a b c d e f g h i, isAvailable (FV true (hc1 s) (hc2 s) a b c d e f g h i) = true).
        { intros. apply AVg; fld; congruence. }
        destruct (ph =? 3) eqn:P3.
        -- cbn [orb Z.eqb]. repeat apply conj; auto; try zl; try congruence; try (apply AVg; fld; congruence).
        -- replace (ph + 1 =? 0) with false by zl. cbn [orb]. repeat apply conj; auto; try zl; try congruence; try (apply AVg; fld; congruence).
      * replace (n + 1 - 1 =? 0) with false by zl. cbn [fst snd]. fld.
        destruct (ph =? 3) eqn:P3.
        -- cbn [orb Z.eqb]. repeat apply conj; auto; try zl; try congruence; try (apply AVg; fld; congruence).
        -- rewrite Bool.orb_true_r. repeat apply conj; auto; try zl; try congruence; try (apply AVg; fld; congruence).
    + destruct HC as [HC H1]. cbn [fst snd]. fld. replace (n =? 0) with false by zl.
      destruct (ph =? 3) eqn:P3.
      * cbn [orb Z.eqb]. repeat apply conj; auto; try zl; try congruence; try (apply AVg; fld; congruence).
      * replace (ph + 1 =? 0) with false by zl. cbn [orb]. repeat apply conj; auto; try zl; try congruence.
Qed.

(** One slot while sending the sync commands; [st] is the number the slot's command carries. *)
Lemma slot_sync : forall m i st, phase_ok m -> quiet i ->
  let s := ms_fv m in synced s = false -> isAvailable s = true ->
  (ms_phase m = 0 \/ ms_active m = true) ->
  (sstate s = st /\ 2 <= st <= 241 \/ sstate s = 0 /\ lucky i /\ st = 241) ->
  let m' := fst (slot m i) in let s' := ms_fv m' in
  let v := target (value s) (si_ops i) in
  phase_ok m' /\ radio s' = true /\ isAvailable s' = true /\ hc1 s' = hc1 s /\ hc2 s' = hc2 s /\ value s' = v /\
  synced s' = false /\ sstate s' = st - 1 /\
  snd (slot m i) = (if st mod 2 =? 1 then [(CSync (hc1 s) (hc2 s) st, true)] else []) /\
  (if st =? 2 then CD (off (hc2 s) + 7) m' else ms_active m' = true).
Proof.
  intros [s ph act] [ops rnd dbl] st PO Q. fld. unfold quiet, lucky in *. fld. intros SY AV AC ST.
  destruct (ops_quiet ops s Q) as (SB&V). pose proof (ops_quiet_avail _ _ SB) as AV1.
  destruct SB as (A1&A2&A3&A4&A5&A6&A7&A8&A9). clear A9. unfold slot. fld.
  set (s1 := fold_left do_op ops s) in *. clearbody s1.
  unfold phase_ok, CD in *. fld. destruct PO as [PH PA].
  assert (PR := off_range (hc2 s)). rewrite AV in AV1.
  assert (RA : radio s = true) by (unfold isAvailable in AV; destruct (radio s); [reflexivity | discriminate]).
  assert (AVg : forall x, radio x = radio s1 -> hc1 x = hc1 s1 -> hc2 x = hc2 s1 -> isAvailable x = true).
  { intros x X1 X2 X3. unfold isAvailable, isValidHC in *. rewrite X1, X2, X3. exact AV1. }
  assert (DS : forall c b, 0 <= c <= 3 -> exists s', radio s' = true /\ isAvailable s' = true /\ hc1 s' = hc1 s /\
    hc2 s' = hc2 s /\ value s' = value s1 /\ synced s' = false /\ sstate s' = st - 1 /\ hsc s' = c /\
    (st = 2 -> hsnext s' = off (hc2 s) + 8 - (3 - c)) /\
    doSync (setHsc s1 c) rnd true = (s', if st mod 2 =? 1 then [(CSync (hc1 s) (hc2 s) st, true)] else [], negb (st =? 2) && b || negb (st =? 2))).
  { intros c b C. unfold doSync. rewrite (AVg (setHsc s1 c)) by reflexivity. cbn [negb]. fld. rewrite A4.
    replace ((sstate s =? 0) && negb (Z.land 30 rnd =? 0)) with false.
    2: { destruct ST as [[-> ?] | (-> & L & _)]; [replace (st =? 0) with false by zl; reflexivity | rewrite L; reflexivity]. }
    replace (if sstate s =? 0 then 241 else sstate s) with st.
    2: { destruct ST as [[-> ?] | (-> & _ & ->)]; [replace (st =? 0) with false by zl; reflexivity | reflexivity]. }
    assert (R : 2 <= st <= 241) by zl. replace (2 <=? st) with true by zl. rewrite land1.
    assert (MM := Z.mod_pos_bound st 2 ltac:(zl)).
    rewrite (u8_id (st - 1)) by (unfold byte; zl).
    destruct (st mod 2 =? 1) eqn:OD.
    - replace (st mod 2 =? 0) with false by zl. cbn [negb]. unfold send. fld. rewrite A1, RA. fld.
      assert (st <> 2) by (intros ->; discriminate). replace (st - 1 =? 1) with false by zl. replace (st =? 2) with false by zl.
      cbn [negb andb]. rewrite Bool.orb_true_r. eexists; repeat apply conj; [ | | | | | | | | |rewrite A2, A3; reflexivity]; fld; auto; try congruence; try zl.
    - replace (st mod 2 =? 0) with true by zl. cbn [negb]. destruct (st =? 2) eqn:S2.
      + replace (st - 1 =? 1) with true by zl. cbn [negb andb orb]. eexists; repeat apply conj; [ | | | | | | | | | reflexivity]; fld; auto; try congruence; try zl.
        intros _. rewrite A3, land7. fold (off (hc2 s)). unfold MAX_HSC. rewrite (u8_id (off (hc2 s) + 8)) by (unfold byte; zl). rewrite u8_id by (unfold byte; zl). zl.
      + replace (st - 1 =? 1) with false by zl. cbn [negb andb]. rewrite Bool.orb_true_r. eexists; repeat apply conj; [ | | | | | | | | | reflexivity]; fld; auto; try congruence; try zl. }
  destruct (ph =? 0) eqn:P0.
  - assert (ph = 0) by zl. subst ph. cbn [Z.eqb]. change (0 + 1) with 1.
    unfold poll_first. fld. rewrite A7, SY. cbn [negb].
    destruct (DS 0 true ltac:(zl)) as (s' & B1&B2&B3&B4&B5&B6&B7&B8&B9&->). cbn [fst snd]. fld.
    destruct (st =? 2) eqn:S2; cbn [negb andb orb Z.eqb].
    + specialize (B9 ltac:(zl)). repeat apply conj; auto; try zl; congruence.
    + repeat apply conj; auto; try zl; try congruence; try (apply AVg; fld; congruence).
  - destruct act; [|destruct AC; [zl|discriminate]].
    assert (HS : hsc s = ph - 1) by (apply PA; [zl | reflexivity]).
    unfold poll_next. fld. rewrite A7, SY. cbn [negb]. rewrite A6, HS, u8_id by (unfold byte; zl).
    destruct (DS (ph - 1 + 1) true ltac:(zl)) as (s' & B1&B2&B3&B4&B5&B6&B7&B8&B9&->). cbn [fst snd]. fld.
    destruct (st =? 2) eqn:S2; cbn [negb andb orb Z.eqb].
    + specialize (B9 ltac:(zl)).
      destruct (ph =? 3) eqn:P3.
      * cbn [orb Z.eqb]. repeat apply conj; auto; try zl; try congruence; try (apply AVg; fld; congruence).
      * replace (ph + 1 =? 0) with false by zl. cbn [orb]. repeat apply conj; auto; try zl; try congruence; try (apply AVg; fld; congruence).
    + destruct (ph =? 3) eqn:P3; repeat apply conj; auto; try zl; try congruence; try (apply AVg; fld; congruence).
Qed.

Ltac cj := repeat match goal with |- _ /\ _ => split end.
(** ** The timeline *)
Definition TL (h1 h2 v k : Z) (m : msys) : Prop :=
  let s := ms_fv m in
  phase_ok m /\ hc1 s = h1 /\ hc2 s = h2 /\ value s = v /\ 1 <= k /\
  ((k <= 239 /\ synced s = false /\ isAvailable s = true /\ sstate s = 241 - k /\ ms_active m = true) \/
   (240 <= k <= 247 + off h2 /\ synced s = false /\ isAvailable s = true /\ sstate s = 1 /\ CD (247 + off h2 - k) m) \/
   (247 + off h2 < k /\ synced s = true /\ radio s = true /\ cbuf s = Some (CValve h1 h2 v) /\
    CD (period h2 - 1 - (k - (247 + off h2) - 1) mod period h2) m)).

Lemma due_early : forall h1 h2 v k, 0 <= k <= 239 ->
  due h1 h2 v k = if (241 - k) mod 2 =? 1 then [(CSync h1 h2 (241 - k), true)] else [].
Proof.
  intros. unfold due. pose proof (off_range h2).
  destruct (Z.eq_dec (k mod 2) 0) as [E | E].
  - replace (k <=? 238) with true by (Z.div_mod_to_equations; lia).
    replace (k mod 2 =? 0) with true by lia.
    replace ((241 - k) mod 2 =? 1) with true by (symmetry; apply Z.eqb_eq; clear - E; Z.div_mod_to_equations; lia).
    reflexivity.
  - replace (k mod 2 =? 0) with false by lia. rewrite Bool.andb_false_r.
    replace ((241 - k) mod 2 =? 1) with false by (symmetry; apply Z.eqb_neq; clear - E; Z.div_mod_to_equations; lia).
    replace (k <? 247 + off h2) with true by lia. reflexivity.
Qed.
Lemma due_wait : forall h1 h2 v k, 240 <= k < 247 + off h2 -> due h1 h2 v k = [].
Proof.
  intros. unfold due. replace (k <=? 238) with false by lia. cbn [andb].
  replace (k <? 247 + off h2) with true by lia. reflexivity.
Qed.
Lemma due_final : forall h1 h2 v, due h1 h2 v (247 + off h2) = [(CFinal h1 h2, true)].
Proof.
  intros. unfold due. pose proof (off_range h2). replace (247 + off h2 <=? 238) with false by lia. cbn [andb].
  rewrite Z.ltb_irrefl, Z.eqb_refl. reflexivity.
Qed.
Lemma due_late : forall h1 h2 v k, 247 + off h2 < k ->
  due h1 h2 v k = if (k - (247 + off h2)) mod period h2 =? 0 then [(CValve h1 h2 v, false)] else [].
Proof.
  intros. unfold due. pose proof (off_range h2). replace (k <=? 238) with false by lia. cbn [andb].
  replace (k <? 247 + off h2) with false by lia. replace (k =? 247 + off h2) with false by lia. reflexivity.
Qed.
Lemma mod_wrap : forall x p, 0 < p -> (x - 1) mod p = p - 1 -> x mod p = 0.
Proof.
  intros x p P E. pose proof (Z.div_mod (x - 1) p ltac:(lia)) as D. rewrite E in D.
  symmetry. apply Z.mod_unique with (q := (x - 1) / p + 1); lia.
Qed.
Lemma mod_succ : forall x p, 0 < p -> (x - 1) mod p <> p - 1 -> x mod p = (x - 1) mod p + 1.
Proof.
  intros x p P E. pose proof (Z.div_mod (x - 1) p ltac:(lia)) as D. pose proof (Z.mod_pos_bound (x - 1) p P).
  symmetry. apply Z.mod_unique with (q := (x - 1) / p); lia.
Qed.
Lemma CD_eq : forall n n' m, CD n m -> n = n' -> CD n' m.
Proof. intros. subst. assumption. Qed.

Lemma TL_step : forall h1 h2 v k m i, TL h1 h2 v k m -> quiet i ->
  let v' := target v (si_ops i) in
  TL h1 h2 v' (k + 1) (fst (slot m i)) /\ snd (slot m i) = due h1 h2 v' k.
Proof.
  intros h1 h2 v k m i (PO & E1 & E2 & EV & K & C) Q v'. pose proof (off_range h2) as OR.
  assert (P : period h2 = 230 + off h2) by reflexivity.
  destruct C as [(K1 & SY & AV & SS & AC) | [(K1 & SY & AV & SS & HC) | (K1 & SY & RA & BU & HC)]].
  - assert (K2 : 2 <= 241 - k <= 241) by lia.
    destruct (slot_sync m i (241 - k) PO Q SY AV (or_intror AC) (or_introl (conj SS K2)))
      as (B1&B2&B3&B4&B5&B6&B7&B8&B9&B10).
    rewrite E1, E2, EV in *. split; [|rewrite B9, due_early by lia; reflexivity].
    unfold TL. refine (conj B1 (conj B4 (conj B5 (conj B6 (conj _ _))))); [lia|].
    destruct (Z.eq_dec k 239) as [-> | NE].
    + right; left. change (241 - 239 =? 2) with true in B10. cj; auto; try lia.
      eapply CD_eq; [exact B10 | lia].
    + left. replace (241 - k =? 2) with false in B10 by lia. cj; auto; try lia.
  - destruct (slot_wait m i _ PO HC Q SY SS AV) as (B1&B2&B3&B4&B5&B6&B7).
    rewrite E1, E2, EV in *.
    destruct (Z.eq_dec k (247 + off h2)) as [-> | NE].
    + replace (247 + off h2 - (247 + off h2) =? 0) with true in B7 by lia. destruct B7 as (B7 & B8 & B9 & B10).
      split; [|rewrite B8, due_final; reflexivity].
      unfold TL. refine (conj B1 (conj B4 (conj B5 (conj B6 (conj _ _))))); [lia|].
      right; right. cj; auto; try lia.
      eapply CD_eq; [exact B7|]. replace (247 + off h2 + 1 - (247 + off h2) - 1) with 0 by lia.
      rewrite Z.mod_0_l by lia. lia.
    + replace (247 + off h2 - k =? 0) with false in B7 by lia. destruct B7 as (B7 & B8 & B9 & B10).
      split; [|rewrite B8, due_wait by lia; reflexivity].
      unfold TL. refine (conj B1 (conj B4 (conj B5 (conj B6 (conj _ _))))); [lia|].
      right; left. cj; auto; try lia. eapply CD_eq; [exact B7 | lia].
  - rewrite <- EV in BU. rewrite <- E1, <- E2 in BU.
    destruct (slot_synced m i _ PO HC Q SY BU) as (B1&B2&B3&B4&B5&B6&B7&B8).
    rewrite RA in *.
    rewrite E1, E2, EV in *. rewrite due_late by lia.
    set (x := k - (247 + off h2)) in *. assert (MP := Z.mod_pos_bound (x - 1) (period h2) ltac:(lia)).
    destruct (Z.eq_dec ((x - 1) mod period h2) (period h2 - 1)) as [W | W].
    + replace (period h2 - 1 - (x - 1) mod period h2 =? 0) with true in B8 by lia. destruct B8 as (B8 & B9).
      assert (W0 : x mod period h2 = 0) by (apply mod_wrap; [lia | exact W]).
      rewrite B9, W0. split; [|reflexivity].
      unfold TL. refine (conj B1 (conj B4 (conj B5 (conj B6 (conj _ _))))); [lia|]. right; right. cj; auto; try lia.
      replace (k + 1 - (247 + off h2) - 1) with x by lia. rewrite W0. eapply CD_eq; [exact B8 | lia].
    + replace (period h2 - 1 - (x - 1) mod period h2 =? 0) with false in B8 by lia. destruct B8 as (B8 & B9).
      assert (W0 : x mod period h2 = (x - 1) mod period h2 + 1) by (apply mod_succ; [lia | exact W]).
      rewrite B9, W0. replace ((x - 1) mod period h2 + 1 =? 0) with false by lia. split; [|reflexivity].
      unfold TL. refine (conj B1 (conj B4 (conj B5 (conj B6 (conj _ _))))); [lia|]. right; right. cj; auto; try lia.
      replace (k + 1 - (247 + off h2) - 1) with x by lia. rewrite W0. eapply CD_eq; [exact B8 | lia].
Qed.

Lemma target_slots_cons : forall v i l, target_slots v (i :: l) = target_slots (target v (si_ops i)) l.
Proof. intros. unfold target_slots, target. cbn [flat_map]. apply fold_left_app. Qed.
Lemma slots_cons : forall m i l, slots m (i :: l) = snd (slot m i) :: slots (fst (slot m i)) l.
Proof. intros. cbn [slots]. destruct (slot m i). reflexivity. Qed.

Lemma TL_run : forall l h1 h2 v k m, TL h1 h2 v k m -> Forall quiet l ->
  forall j, (j < length l)%nat ->
  nth j (slots m l) [] = due h1 h2 (target_slots v (firstn (S j) l)) (k + Z.of_nat j).
Proof.
  induction l as [|i l IH]; intros h1 h2 v k m T F j J; [cbn [length] in J; lia|].
  inversion F as [|? ? Q F']; subst. destruct (TL_step _ _ _ _ _ i T Q) as [T' O].
  rewrite slots_cons, firstn_cons, target_slots_cons. destruct j as [|j].
  - cbn [nth firstn]. rewrite O. unfold target_slots. cbn [flat_map Z.of_nat]. rewrite Z.add_0_r. reflexivity.
  - cbn [nth]. cbn [length] in J. rewrite (IH _ _ _ _ _ T' F') by lia. f_equal. lia.
Qed.

(** From an unsynchronised driver whose sync starts in this slot. *)
Theorem sync_timeline : forall m l i0 l',
  phase_ok m -> synced (ms_fv m) = false -> sstate (ms_fv m) = 0 -> isAvailable (ms_fv m) = true ->
  (ms_phase m = 0 \/ ms_active m = true) -> l = i0 :: l' -> lucky i0 -> Forall quiet l ->
  forall k, (k < length l)%nat ->
  nth k (slots m l) [] =
  due (hc1 (ms_fv m)) (hc2 (ms_fv m)) (target_slots (value (ms_fv m)) (firstn (S k) l)) (Z.of_nat k).
Proof.
  intros m l i0 l' PO SY SS AV AC -> L F k J. inversion F as [|? ? Q F']; subst.
  destruct (slot_sync m i0 241 PO Q SY AV AC (or_intror (conj SS (conj L eq_refl))))
    as (B1&B2&B3&B4&B5&B6&B7&B8&B9&B10).
  rewrite slots_cons, firstn_cons, target_slots_cons.
  destruct k as [|k].
  - cbn [nth firstn]. rewrite B9, due_early by (cbn [Z.of_nat]; lia). reflexivity.
  - cbn [nth]. cbn [length] in J.
    rewrite (TL_run l' (hc1 (ms_fv m)) (hc2 (ms_fv m)) (target (value (ms_fv m)) (si_ops i0)) 1).
    + f_equal. lia.
    + unfold TL. refine (conj B1 (conj B4 (conj B5 (conj B6 (conj _ _))))); [lia|]. left. change (241 =? 2) with false in B10.
      cj; auto; try lia.
    + exact F'.
    + lia.
Qed.
