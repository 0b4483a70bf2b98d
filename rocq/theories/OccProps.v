(** C39, C40: occupancy timers, sequentially and under interrupts. *)
From Verif Require Import Base OccModel.

(** Number of minute reads in a history. *)
Definition oreads (l : list oop) : Z := Zlen (filter (fun o => match o with ORead => true | _ => false end) l).
(** Operations that declare the room vacant. *)
Definition vacates (o : oop) : Prop := o = OVacant \/ o = OHoliday \/ o = OReset.
(** Minutes of occupancy a mark gives, in a state where vacancy hours are [vh]. *)
Definition mark_minutes (o : oop) (vh : Z) : Z :=
  match o with OOcc => 50 | OPoss => 40 | OJust => if vh <=? 2 then 20 else 0 | _ => 0 end.

Definition OInv (s : Occ) : Prop :=
  0 <= occupationCountdownM s <= 50 /\ 0 <= newOccupancyCountdownM s <= 3 /\
  0 <= vacancyH s <= 255 /\ 0 <= vacancyM s < 60 /\ 0 <= occ_value s <= 100.

Ltac pr := cbn [occupationCountdownM newOccupancyCountdownM vacancyH vacancyM occ_value].
(** Summaries of the uninterrupted operations. *)
Lemma read_oc s : OInv s -> occupationCountdownM (ostep s ORead) = Z.max 0 (occupationCountdownM s - 1).
Proof.
  intros (H1 & _). unfold ostep, ostep_i, occ_read, nogaps, isr, fold_left. cbn [fst].
  unfold set_value, cas_oc, cas_new, set_oc, set_new, set_vac.
  destruct (0 =? occupationCountdownM s) eqn:E.
  - destruct (0 =? newOccupancyCountdownM s); repeat (match goal with |- context [if ?b then _ else _] => destruct b end; cbn); lia.
  - rewrite Z.eqb_refl. cbn [newOccupancyCountdownM occupationCountdownM vacancyH vacancyM].
    rewrite (u8_id (occupationCountdownM s - 1)) by (unfold byte; lia).
    destruct (0 =? newOccupancyCountdownM s); repeat (match goal with |- context [if ?b then _ else _] => destruct b end; cbn); lia.
Qed.
Lemma read_new s : OInv s -> newOccupancyCountdownM (ostep s ORead) = Z.max 0 (newOccupancyCountdownM s - 1).
Proof.
  intros (_ & H1 & _). unfold ostep, ostep_i, occ_read, nogaps, isr, fold_left. cbn [fst].
  unfold set_value, cas_oc, cas_new, set_oc, set_new, set_vac. rewrite !Z.eqb_refl.
  destruct (0 =? occupationCountdownM s) eqn:E; cbn [newOccupancyCountdownM occupationCountdownM vacancyH vacancyM];
    rewrite ?Z.eqb_refl; destruct (0 =? newOccupancyCountdownM s) eqn:E2;
    cbn [newOccupancyCountdownM occupationCountdownM vacancyH vacancyM];
    repeat (match goal with |- context [if ?b then _ else _] => destruct b end);
    cbn [newOccupancyCountdownM occupationCountdownM vacancyH vacancyM];
    rewrite ?(u8_id (newOccupancyCountdownM s - 1)) by (unfold byte; lia); lia.
Qed.
(** The value, the vacancy and the result after an uninterrupted read. *)
Lemma read_rest s : OInv s ->
  let s' := ostep s ORead in
  snd (occ_read nogaps s) = occ_value s' /\
  occ_value s' = 2 * occupationCountdownM s' /\
  (0 < occupationCountdownM s' -> vacancyH s' = 0 /\ vacancyM s' = 0) /\
  (occupationCountdownM s' = 0 ->
     vacancyH s' = (if vacancyH s =? 255 then 255 else if vacancyM s =? 59 then vacancyH s + 1 else vacancyH s) /\
     vacancyM s' = (if vacancyH s =? 255 then vacancyM s else if vacancyM s =? 59 then 0 else vacancyM s + 1)).
Proof.
  intros HI. pose proof (read_oc s HI) as HO. cbv zeta. destruct HI as (H1 & H2 & H3 & H4 & H5).
  revert HO. unfold ostep, ostep_i, occ_read, nogaps, isr, fold_left. cbn [fst snd].
  set (s1 := if 0 =? occupationCountdownM s then s else cas_oc s (occupationCountdownM s) (u8 (occupationCountdownM s - 1))).
  set (s2 := if 0 =? newOccupancyCountdownM s1 then s1 else cas_new s1 (newOccupancyCountdownM s1) (u8 (newOccupancyCountdownM s1 - 1))).
  assert (HV : vacancyH s2 = vacancyH s /\ vacancyM s2 = vacancyM s).
  { unfold s2, s1, cas_new, cas_oc. destruct (0 =? occupationCountdownM s); rewrite ?Z.eqb_refl;
      match goal with |- context [if 0 =? ?x then _ else _] => destruct (0 =? x) end; rewrite ?Z.eqb_refl; split; reflexivity. }
  destruct HV as [HV1 HV2]. clearbody s2. clear s1.
  set (s3 := if occupationCountdownM s2 >? 0 then _ else _).
  assert (HO3 : occupationCountdownM s3 = occupationCountdownM s2) by (unfold s3; repeat (match goal with |- context [if ?b then _ else _] => destruct b end); reflexivity).
  cbn [set_value occupationCountdownM occ_value vacancyH vacancyM]. rewrite HO3. intros HO.
  split; [reflexivity|]. split.
  { destruct (0 =? occupationCountdownM s2) eqn:E; [lia|]. unfold OCCUPATION_TIMEOUT_M, OCCCP_SHIFT.
    rewrite Z.shiftl_mul_pow2 by lia. change (2 ^ 1) with 2. rewrite u8_id by (unfold byte; lia). lia. }
  unfold s3. rewrite HV1, HV2. split; intros HP.
  - replace (occupationCountdownM s2 >? 0) with true by lia. split; reflexivity.
  - replace (occupationCountdownM s2 >? 0) with false by lia. rewrite (u8_id (vacancyM s + 1)) by (unfold byte; lia).
    destruct (vacancyH s <? 255) eqn:EH.
    + replace (vacancyH s =? 255) with false by lia. destruct (vacancyM s + 1 >=? 60) eqn:EM.
      * replace (vacancyM s =? 59) with true by lia. cbn. rewrite u8_id by (unfold byte; lia). split; reflexivity.
      * replace (vacancyM s =? 59) with false by lia. cbn. split; congruence.
    + replace (vacancyH s =? 255) with true by lia. split; lia.
Qed.
Lemma mark_oc s o : OInv s -> o <> ORead -> ~ vacates o ->
  occupationCountdownM (ostep s o) = Z.max (occupationCountdownM s) (mark_minutes o (vacancyH s)) /\
  vacancyH (ostep s o) = vacancyH s /\ vacancyM (ostep s o) = vacancyM s /\
  (0 <= newOccupancyCountdownM (ostep s o) <= 3) /\ 0 <= occ_value (ostep s o) <= 100.
Proof.
  intros (H1 & H2 & H3 & H4 & H5) Hr Hv. unfold vacates in Hv.
  destruct o; try congruence; try (exfalso; apply Hv; auto; fail); unfold ostep, ostep_i, nogaps; cbn [mark_minutes].
  - unfold markAsOccupied, isr, fold_left, set_value, set_oc, set_new, OCCUPATION_TIMEOUT_M, NEW_OCCUPANCY_TIMEOUT_M. pr.
    destruct (0 =? occupationCountdownM s); pr; lia.
  - unfold markAsPossiblyOccupied, isr, fold_left, cas_oc, set_oc, set_new, NEW_OCCUPANCY_TIMEOUT_M.
    change OCCUPATION_TIMEOUT_LIKELY_M with 40.
    destruct (0 =? occupationCountdownM s); cbn [occupationCountdownM newOccupancyCountdownM vacancyH vacancyM occ_value]; rewrite Z.eqb_refl;
      cbn [occupationCountdownM newOccupancyCountdownM vacancyH vacancyM occ_value]; lia.
  - unfold markAsJustPossiblyOccupied, isr, fold_left, cas_oc, set_oc, weakVacantHThrH. change OCCUPATION_TIMEOUT_MAYBE_M with 20.
    rewrite Z.eqb_refl. destruct (vacancyH s >? 2) eqn:E; cbn [occupationCountdownM newOccupancyCountdownM vacancyH vacancyM occ_value].
    + replace (vacancyH s <=? 2) with false by lia. lia.
    + replace (vacancyH s <=? 2) with true by lia. lia.
Qed.
Lemma vacate_oc s o : vacates o -> occupationCountdownM (ostep s o) = 0 /\ newOccupancyCountdownM (ostep s o) = 0 /\ occ_value (ostep s o) = 0.
Proof. intros [-> | [-> | ->]]; repeat split. Qed.
Lemma vacates_dec o : vacates o \/ ~ vacates o.
Proof. unfold vacates. destruct o; auto 6; right; intros H; repeat (destruct H as [H|H]); discriminate. Qed.

Lemma ostep_inv s o : OInv s -> OInv (ostep s o).
Proof.
  intros HI. destruct (vacates_dec o) as [Hv|Hv].
  - destruct HI as (H1 & H2 & H3 & H4 & H5). destruct Hv as [-> | [-> | ->]]; unfold OInv; cbn; lia.
  - assert (Hr : o = ORead \/ o <> ORead) by (destruct o; auto; right; discriminate).
    destruct Hr as [-> |Hr].
    + pose proof (read_oc s HI) as R1. pose proof (read_new s HI) as R2. pose proof (read_rest s HI) as (_ & R3 & R4 & R5).
      destruct HI as (H1 & H2 & H3 & H4 & H5). unfold OInv.
      assert (HC : 0 < occupationCountdownM (ostep s ORead) \/ occupationCountdownM (ostep s ORead) = 0) by lia.
      destruct HC as [HC|HC].
      * destruct (R4 HC) as [-> ->]. rewrite R3. lia.
      * destruct (R5 HC) as [-> ->]. rewrite R3. destruct (vacancyH s =? 255) eqn:EH, (vacancyM s =? 59) eqn:EM; lia.
    + destruct (mark_oc s o HI Hr Hv) as (M1 & M2 & M3 & M4 & M5). destruct HI as (H1 & H2 & H3 & H4 & H5).
      unfold OInv. rewrite M1, M2, M3. assert (0 <= mark_minutes o (vacancyH s) <= 50) by (destruct o; cbn; try lia; destruct (_ <=? _); lia).
      lia.
Qed.
Lemma OInv0 : OInv Occ0. Proof. unfold OInv, Occ0; cbn; lia. Qed.
Lemma orun_inv l : forall s, OInv s -> OInv (orun s l).
Proof. induction l as [|o l IH]; intros s HI; [exact HI|]. apply IH, ostep_inv, HI. Qed.
Lemma orun_app s l1 l2 : orun s (l1 ++ l2) = orun (orun s l1) l2.
Proof. apply fold_left_app. Qed.

(** ** C39 *)
(** The room is reported occupied, after any history, exactly when some mark is still in
    force: 50 minutes for an occupied mark, 40 for a possible one, 20 for a weak one made
    when the vacancy was 2h or less; and no declaration of vacancy since. *)
Definition in_force (l : list oop) (minutes : Z) : Prop :=
  exists l1 o l2, l = l1 ++ o :: l2 /\ (forall o', In o' l2 -> ~ vacates o') /\
    minutes <= mark_minutes o (vacHSubSensor (orun Occ0 l1)) - oreads l2.

Lemma oreads_app a b : oreads (a ++ b) = oreads a + oreads b.
Proof. unfold oreads. rewrite filter_app, Zlen_app. reflexivity. Qed.

Lemma countdown_spec l : forall n, 0 < n -> (n <= occupationCountdownM (orun Occ0 l) <-> in_force l n).
Proof.
  induction l as [|o l IH] using rev_ind; intros n Hn.
  - cbn. split; [lia|]. intros (l1 & o & l2 & E & _). destruct l1; discriminate.
  - rewrite orun_app. cbn [orun fold_left]. pose proof (orun_inv l Occ0 OInv0) as HI. set (s := orun Occ0 l) in *.
    (* marks in force after one more operation *)
    assert (HF : in_force (l ++ [o]) n <->
       (n <= mark_minutes o (vacHSubSensor s)) \/ (~ vacates o /\ in_force l (n + oreads [o]))).
    { split.
      - intros (l1 & o1 & l2 & E & Hv & Hm). destruct l2 as [|x l2] using rev_ind.
        + apply app_inj_tail in E. destruct E as [-> ->]. left. unfold oreads in Hm. cbn in Hm. change (Zlen (@nil oop)) with 0 in Hm. unfold s. lia.
        + clear IHl2. replace (l1 ++ o1 :: l2 ++ [x]) with ((l1 ++ o1 :: l2) ++ [x]) in E by (rewrite <- app_assoc; reflexivity).
          apply app_inj_tail in E. destruct E as [-> ->]. right. split; [apply Hv, in_or_app; right; left; reflexivity|].
          exists l1, o1, l2. split; [reflexivity|]. split; [intros o' Ho'; apply Hv, in_or_app; auto|].
          rewrite oreads_app in Hm. lia.
      - intros [H|(Hnv & l1 & o1 & l2 & -> & Hv & Hm)].
        + exists l, o, []. split; [reflexivity|]. split; [intros ? []|]. unfold oreads; cbn. change (Zlen (@nil oop)) with 0. fold s. lia.
        + exists l1, o1, (l2 ++ [o]). split; [rewrite <- app_assoc; reflexivity|].
          split; [|rewrite oreads_app; lia]. intros o' Ho'. apply in_app_or in Ho'. destruct Ho' as [Ho'|[<-|[]]]; auto. }
    rewrite HF. clear HF. destruct (vacates_dec o) as [Hv|Hv].
    + destruct (vacate_oc s o Hv) as [-> _]. split; [lia|]. intros [H|[H _]]; [|contradiction].
      destruct Hv as [-> | [-> | ->]]; cbn in H; lia.
    + assert (Hr : o = ORead \/ o <> ORead) by (destruct o; auto; right; discriminate).
      destruct Hr as [-> |Hr].
      * rewrite (read_oc s HI). cbn [mark_minutes]. change (oreads [ORead]) with 1.
        rewrite <- (IH (n + 1)) by lia. fold s. split; [intros H; right; split; [exact Hv|lia]|intros [H|[_ H]]; lia].
      * destruct (mark_oc s o HI Hr Hv) as [-> _]. change (vacHSubSensor s) with (vacancyH s).
        assert (E0 : oreads [o] = 0) by (destruct o; try reflexivity; congruence). rewrite E0, Z.add_0_r.
        rewrite <- (IH n Hn). fold s. split; [|intros [H|[_ H]]; lia].
        intros H. destruct (Z_le_gt_dec n (mark_minutes o (vacancyH s))); [left; assumption|right; split; [exact Hv|lia]].
Qed.

Theorem C39_occupied_iff : forall l, isLikelyOccupied (orun Occ0 l) = true <-> in_force l 1.
Proof.
  intros l. rewrite <- countdown_spec by lia. unfold isLikelyOccupied.
  pose proof (orun_inv l Occ0 OInv0) as (H & _). lia.
Qed.
(** Strong evidence within the last 10 minutes is reported as "recently occupied"; weaker
    hints never are. *)
Theorem C39_recent_iff : forall l, isLikelyRecentlyOccupied (orun Occ0 l) = true <-> in_force l 41.
Proof.
  intros l. rewrite <- countdown_spec by lia. unfold isLikelyRecentlyOccupied. change OCCUPATION_TIMEOUT_LIKELY_M with 40.
  pose proof (orun_inv l Occ0 OInv0) as (H & _). lia.
Qed.
(** The percentage returned by read() is twice the number of minutes left: with no more
    marks, the room is reported occupied for exactly that many more reads. *)
Theorem C39_confidence : forall l n,
  let s := orun Occ0 (l ++ [ORead]) in
  0 <= occ_get s <= 98 /\
  (isLikelyOccupied (orun s (repeat ORead n)) = true <-> 2 * Z.of_nat n < occ_get s).
Proof.
  intros l n. cbv zeta. rewrite orun_app. cbn [orun fold_left]. pose proof (orun_inv l Occ0 OInv0) as HI. set (s := orun Occ0 l) in *.
  pose proof (read_rest s HI) as (_ & R & _). pose proof (read_oc s HI) as RO. pose proof (ostep_inv s ORead HI) as HI'.
  set (s' := ostep s ORead) in *. unfold occ_get. rewrite R. destruct HI as (H1 & _). split; [lia|].
  assert (HN : forall n s, OInv s -> OInv (orun s (repeat ORead n)) /\ occupationCountdownM (orun s (repeat ORead n)) = Z.max 0 (occupationCountdownM s - Z.of_nat n)).
  { clear. induction n as [|n IH]; intros s HI; [split; [exact HI|]; cbn; destruct HI as (H & _); lia|].
    change (repeat ORead (S n)) with (ORead :: repeat ORead n). unfold orun. cbn [fold_left]. fold (orun (ostep s ORead) (repeat ORead n)).
    destruct (IH _ (ostep_inv s ORead HI)) as [A B]. split; [exact A|]. rewrite B, (read_oc s HI). destruct HI as (H & _). lia. }
  destruct (HN n s' HI') as [_ HC]. unfold isLikelyOccupied. rewrite HC. destruct HI' as (H2 & _). lia.
Qed.
(** A mark is immediately visible, and no hint ever shortens an occupancy. *)
Theorem C39_mark_visible : forall l,
  let s := orun Occ0 (l ++ [OOcc]) in
  isLikelyOccupied s = true /\ isLikelyRecentlyOccupied s = true /\ occ_get s = 100 /\ getVacancyH s = 0 /\ twoBitOccupancyValue s = 3.
Proof.
  intros l. cbv zeta. rewrite orun_app. cbn [orun fold_left]. set (s := orun Occ0 l).
  unfold ostep, ostep_i, markAsOccupied, isr, nogaps, fold_left, set_value, set_new, set_oc. cbn.
  destruct (occupationCountdownM s); cbn; auto 6.
Qed.
Theorem C39_hint_never_shortens : forall l h n,
  h = OOcc \/ h = OPoss \/ h = OJust ->
  isLikelyOccupied (orun Occ0 (l ++ repeat ORead n)) = true ->
  isLikelyOccupied (orun Occ0 (l ++ h :: repeat ORead n)) = true.
Proof.
  intros l h n Hh H. apply C39_occupied_iff in H. apply C39_occupied_iff.
  assert (HR : forall k, In k (repeat ORead n) -> ~ vacates k) by (intros k Hk; apply repeat_spec in Hk; subst k; intros [X|[X|X]]; discriminate).
  assert (Hhv : ~ vacates h) by (destruct Hh as [-> | [-> | ->]]; intros [X|[X|X]]; discriminate).
  assert (Hh0 : oreads [h] = 0) by (destruct Hh as [-> | [-> | ->]]; reflexivity).
  destruct H as (l1 & o & l2 & E & Hv & Hm).
  destruct (le_lt_dec (length l) (length l1)) as [Hle|Hlt].
  - (* the mark would have to be a read *)
    exfalso. assert (HIn : In o (repeat ORead n)).
    { assert (HS : skipn (length l) (l ++ repeat ORead n) = repeat ORead n) by (rewrite skipn_app, skipn_all, Nat.sub_diag; reflexivity).
      rewrite E in HS. rewrite skipn_app in HS. rewrite <- HS. apply in_or_app. right.
      replace (length l - length l1)%nat with 0%nat by lia. left. reflexivity. }
    apply repeat_spec in HIn. subst o. cbn in Hm. assert (0 <= oreads l2) by apply Zlen_nonneg. lia.
  - (* the mark is in l *)
    assert (EL : exists l2', l = l1 ++ o :: l2' /\ l2 = l2' ++ repeat ORead n).
    { exists (firstn (length l - S (length l1)) l2).
      assert (E1 : firstn (length l) (l ++ repeat ORead n) = l) by (rewrite firstn_app, firstn_all, Nat.sub_diag, app_nil_r; reflexivity).
      assert (E2 : skipn (length l) (l ++ repeat ORead n) = repeat ORead n) by (rewrite skipn_app, skipn_all, Nat.sub_diag; reflexivity).
      rewrite E in E1, E2. rewrite firstn_app in E1. rewrite skipn_app in E2.
      rewrite firstn_all2 in E1 by lia. rewrite skipn_all2 in E2 by lia.
      remember (length l - length l1)%nat as d eqn:Ed. destruct d as [|d]; [lia|]. cbn [firstn skipn app] in E1, E2.
      replace (length l - S (length l1))%nat with d by lia. split; [congruence|]. rewrite <- E2 at 1. symmetry. apply firstn_skipn. }
    destruct EL as (l2' & -> & ->). exists l1, o, (l2' ++ h :: repeat ORead n).
    split; [rewrite <- app_assoc; reflexivity|]. split.
    + intros o' Ho'. apply in_app_or in Ho'. destruct Ho' as [Ho'|[<-|Ho']]; auto. apply Hv, in_or_app. auto.
    + change (h :: repeat ORead n) with ([h] ++ repeat ORead n). rewrite !oreads_app in *. lia.
Qed.

(** Vacancy hours: after a moment when the count was clear (power-up, reset, or a read
    that found the room occupied), if every read since found the room vacant, and
    holiday mode was not set, the hours reported are the reads since divided by 60,
    saturating at 255. *)
Definition clear_point (l : list oop) : Prop :=
  l = [] \/ exists l', l = l' ++ [OReset] \/ (l = l' ++ [ORead] /\ isLikelyOccupied (orun Occ0 l) = true).
Definition finds_vacant (l0 l : list oop) : Prop :=
  forall a b, l = a ++ ORead :: b -> isLikelyOccupied (orun Occ0 (l0 ++ a ++ [ORead])) = false.
Theorem C39_vacancy_hours : forall l0 l,
  clear_point l0 -> finds_vacant l0 l -> ~ In OHoliday l -> ~ In OReset l ->
  vacHSubSensor (orun Occ0 (l0 ++ l)) = Z.min 255 (oreads l / 60) /\
  ((exists l', l = l' ++ [ORead]) -> getVacancyH (orun Occ0 (l0 ++ l)) = Z.min 255 (oreads l / 60)).
Proof.
  intros l0 l HC HF HH HR.
  assert (H0 : vacancyH (orun Occ0 l0) = 0 /\ vacancyM (orun Occ0 l0) = 0).
  { destruct HC as [-> |(l' & [-> |[-> HO]])]; [split; reflexivity| |].
    - rewrite orun_app. split; reflexivity.
    - rewrite orun_app in *. cbn [orun fold_left] in *. pose proof (read_rest _ (orun_inv l' Occ0 OInv0)) as (_ & _ & R & _).
      apply R. unfold isLikelyOccupied in HO. pose proof (ostep_inv _ ORead (orun_inv l' Occ0 OInv0)) as (H & _). lia. }
  assert (HG : let s := orun Occ0 (l0 ++ l) in
     vacancyH s = Z.min 255 (oreads l / 60) /\ (vacancyH s < 255 -> 60 * vacancyH s + vacancyM s = oreads l)).
  { induction l as [|o l IH] using rev_ind.
    - cbv zeta. rewrite app_nil_r. change (oreads []) with 0. change (0 / 60) with 0. lia.
    - specialize (IH ltac:(intros a b E; apply (HF a (b ++ [o])); rewrite E, <- app_assoc; reflexivity)
                     ltac:(intros X; apply HH, in_or_app; auto) ltac:(intros X; apply HR, in_or_app; auto)).
      cbv zeta in *. rewrite app_assoc, orun_app. cbn [orun fold_left].
      pose proof (orun_inv (l0 ++ l) Occ0 OInv0) as HI. set (s := orun Occ0 (l0 ++ l)) in *.
      rewrite oreads_app. destruct IH as [IH1 IH2].
      assert (Hdiv : 60 * (oreads l / 60) <= oreads l < 60 * (oreads l / 60) + 60) by (clear; Z.div_mod_to_equations; lia).
      assert (Hcase : o = ORead \/ o = OVacant \/ (o <> ORead /\ ~ vacates o)).
      { destruct o; auto; try (right; right; split; [discriminate|intros [X|[X|X]]; discriminate]).
        - exfalso. apply HH, in_or_app. right. left. reflexivity.
        - exfalso. apply HR, in_or_app. right. left. reflexivity. }
      destruct Hcase as [-> |[-> |[Hr Hv]]].
      + change (oreads [ORead]) with 1. pose proof (read_rest s HI) as (_ & _ & _ & R). pose proof (ostep_inv s ORead HI) as (HX & _).
        specialize (HF l [] eq_refl). rewrite app_assoc, orun_app in HF. cbn [orun fold_left] in HF. fold s in HF.
        unfold isLikelyOccupied in HF. destruct (R ltac:(lia)) as [-> ->]. clear R.
        assert (Hdiv2 : (oreads l + 1) / 60 = if (oreads l + 1 - 60 * (oreads l / 60)) =? 60 then oreads l / 60 + 1 else oreads l / 60).
        { clear - Hdiv. destruct (_ =? 60) eqn:E; Z.div_mod_to_equations; lia. }
        rewrite Hdiv2. destruct HI as (_ & _ & HI3 & HI4 & _).
        destruct (vacancyH s =? 255) eqn:E1; [destruct (_ =? 60); lia|].
        specialize (IH2 ltac:(lia)). destruct (vacancyM s =? 59) eqn:E2; destruct (_ =? 60) eqn:E3; lia.
      + change (oreads [OVacant]) with 0. rewrite Z.add_0_r. cbn. auto.
      + destruct (mark_oc s o HI Hr Hv) as (_ & -> & -> & _).
        replace (oreads [o]) with 0 by (destruct o; try reflexivity; congruence). rewrite Z.add_0_r. auto. }
  cbv zeta in HG. split; [apply HG|]. intros (l' & ->). unfold getVacancyH.
  replace (occ_value (orun Occ0 (l0 ++ l' ++ [ORead])) =? 0) with true; [apply HG|].
  specialize (HF l' [] eq_refl). rewrite app_assoc, orun_app in *. cbn [orun fold_left] in *.
  pose proof (read_rest _ (orun_inv (l0 ++ l') Occ0 OInv0)) as (_ & R & _). unfold isLikelyOccupied in HF. rewrite R. lia.
Qed.
(** Occupancy found at a read clears the vacancy. *)
Theorem C39_vacancy_cleared : forall l, isLikelyOccupied (orun Occ0 (l ++ [ORead])) = true ->
  vacHSubSensor (orun Occ0 (l ++ [ORead])) = 0 /\ getVacancyH (orun Occ0 (l ++ [ORead])) = 0.
Proof.
  intros l H. rewrite orun_app in *. cbn [orun fold_left] in *. pose proof (orun_inv l Occ0 OInv0) as HI. set (s := orun Occ0 l) in *.
  pose proof (read_rest s HI) as (_ & R0 & R & _). pose proof (ostep_inv s ORead HI) as (HX & _). unfold isLikelyOccupied in H.
  destruct (R ltac:(lia)) as [R1 R2]. unfold vacHSubSensor, getVacancyH. rewrite R1. split; [reflexivity|]. destruct (negb (occ_value (ostep s ORead) =? 0)); reflexivity.
Qed.
(** Holiday mode: at once vacant, 255 hours, and weak hints and any number of reads
    leave it so. *)
Theorem C39_holiday : forall l l2,
  (forall o, In o l2 -> o = ORead \/ o = OJust \/ o = OVacant) ->
  let s := orun Occ0 (l ++ OHoliday :: l2) in
  isLikelyOccupied s = false /\ getVacancyH s = 255 /\ longLongVacant s = true.
Proof.
  intros l l2 H2. cbv zeta. rewrite orun_app.
  change (orun (orun Occ0 l) (OHoliday :: l2)) with (orun (ostep (orun Occ0 l) OHoliday) l2). set (s := orun Occ0 l).
  assert (HI : OInv (ostep s OHoliday)) by (apply ostep_inv, orun_inv, OInv0).
  assert (HG : forall l2 s, (forall o, In o l2 -> o = ORead \/ o = OJust \/ o = OVacant) -> OInv s ->
     occupationCountdownM s = 0 -> vacancyH s = 255 -> occ_value s = 0 ->
     occupationCountdownM (orun s l2) = 0 /\ vacancyH (orun s l2) = 255 /\ occ_value (orun s l2) = 0).
  { clear. induction l2 as [|o l2 IH]; intros s HO HI H1 H2 H3; [auto|]. unfold orun. cbn [fold_left]. fold (orun (ostep s o) l2).
    pose proof (ostep_inv s o HI) as HI'.
    destruct (HO o (or_introl eq_refl)) as [-> |[-> | ->]]; apply IH; auto; try (intros o' Ho'; apply HO; right; exact Ho').
    - rewrite (read_oc s HI). lia.
    - pose proof (read_oc s HI). pose proof (read_rest s HI) as (_ & _ & _ & R). destruct (R ltac:(lia)) as [-> _]. rewrite H2. reflexivity.
    - pose proof (read_oc s HI). pose proof (read_rest s HI) as (_ & R & _). lia.
    - unfold ostep, ostep_i, markAsJustPossiblyOccupied, nogaps, isr, fold_left, weakVacantHThrH. replace (vacancyH s >? 2) with true by lia. exact H1.
    - unfold ostep, ostep_i, markAsJustPossiblyOccupied, nogaps, isr, fold_left, weakVacantHThrH. replace (vacancyH s >? 2) with true by lia. exact H2.
    - unfold ostep, ostep_i, markAsJustPossiblyOccupied, nogaps, isr, fold_left, weakVacantHThrH. replace (vacancyH s >? 2) with true by lia. exact H3. }
  destruct (HG l2 (ostep s OHoliday) H2 HI eq_refl eq_refl eq_refl) as (A & B & C).
  unfold isLikelyOccupied, longLongVacant, getVacancyH. rewrite A, B, C. repeat split.
Qed.
Example C39_nonvacuous :
  isLikelyOccupied (orun Occ0 (OOcc :: repeat ORead 49)) = true /\
  isLikelyOccupied (orun Occ0 (OOcc :: repeat ORead 50)) = false /\
  isLikelyOccupied (orun Occ0 (OPoss :: repeat ORead 25 ++ OJust :: repeat ORead 19)) = true /\
  getVacancyH (orun Occ0 (OOcc :: ORead :: OVacant :: repeat ORead 200)) = 3 /\
  isLikelyOccupied (orun Occ0 (OOcc :: ORead :: OVacant :: repeat ORead 200 ++ [OJust])) = false.
Proof. vm_compute. auto 10. Qed.

(** ** C40 *)
Lemma isr_oc l : forall s, 0 <= occupationCountdownM s <= 50 ->
  occupationCountdownM s <= occupationCountdownM (isr l s) <= 50 /\
  (In IOcc l -> occupationCountdownM (isr l s) = 50) /\
  (In IPoss l -> 40 <= occupationCountdownM (isr l s)) /\
  vacancyH (isr l s) = vacancyH s /\ vacancyM (isr l s) = vacancyM s.
Proof.
  induction l as [|o l IH]; intros s H; [cbn; repeat split; try tauto; lia|].
  assert (HS : occupationCountdownM (isr_step s o) = Z.max (occupationCountdownM s) (match o with IOcc => 50 | IPoss => 40 end) /\
               vacancyH (isr_step s o) = vacancyH s /\ vacancyM (isr_step s o) = vacancyM s).
  { destruct o; cbn [isr_step].
    - unfold markAsOccupied0, set_value, set_new, set_oc, OCCUPATION_TIMEOUT_M. cbn.
      destruct (occupationCountdownM s); cbn; lia.
    - unfold markAsPossiblyOccupied0, cas_oc, set_oc, set_new. change OCCUPATION_TIMEOUT_LIKELY_M with 40.
      destruct (0 =? occupationCountdownM s); cbn [occupationCountdownM vacancyH vacancyM]; rewrite Z.eqb_refl; cbn [occupationCountdownM vacancyH vacancyM]; lia. }
  destruct HS as (S1 & S2 & S3). unfold isr. cbn [fold_left]. fold (isr l (isr_step s o)).
  assert (HB : 0 <= occupationCountdownM (isr_step s o) <= 50) by (rewrite S1; destruct o; lia).
  destruct (IH (isr_step s o) HB) as (I1 & I2 & I3 & I4 & I5). rewrite I4, I5.
  split; [destruct o; lia|]. split; [|split; [|auto]].
  - intros [-> |Hin]; [lia|auto].
  - intros [-> |Hin]; [lia|auto].
Qed.

(** The interrupt-time marks that run during one main-line operation. *)
Definition gap_count (o : oop) : nat := match o with ORead => 6 | OOcc => 4 | OPoss => 3 | OJust => 2 | _ => 0 end.
Definition during (o : oop) (g : Gaps) (m : iop) : Prop :=
  exists i, (i < gap_count o)%nat /\ In m (g i).

Lemma oc_of_read g s :
  occupationCountdownM (fst (occ_read g s)) =
  occupationCountdownM (isr (g 5%nat) (isr (g 4%nat) (isr (g 3%nat) (isr (g 2%nat)
    (let o := occupationCountdownM (isr (g 0%nat) s) in let s1 := isr (g 1%nat) (isr (g 0%nat) s) in
     if 0 =? o then s1 else cas_oc s1 o (u8 (o - 1))))))).
Proof.
  (* the countdown is a function of the countdown and of the marks *)
  assert (HL : forall l s1 s2, occupationCountdownM s1 = occupationCountdownM s2 -> occupationCountdownM (isr l s1) = occupationCountdownM (isr l s2)).
  { induction l as [|o l IH]; intros s1 s2 E; [exact E|]. unfold isr. cbn [fold_left]. apply IH. destruct o; cbn [isr_step].
    - unfold markAsOccupied0. cbn. destruct (occupationCountdownM s1), (occupationCountdownM s2); reflexivity.
    - unfold markAsPossiblyOccupied0, cas_oc, set_oc, set_new. rewrite E.
      destruct (0 =? occupationCountdownM s2); cbn [occupationCountdownM]; rewrite ?E, Z.eqb_refl; reflexivity. }
  unfold occ_read. cbv zeta. cbn [fst]. set (s2 := if 0 =? occupationCountdownM (isr (g 0%nat) s) then _ else _).
  clearbody s2. cbn [set_value occupationCountdownM]. apply HL.
  set (s4 := isr (g 4%nat) _). transitivity (occupationCountdownM s4).
  { clearbody s4. repeat (match goal with |- context [if ?b then _ else _] => destruct b end); reflexivity. }
  unfold s4. apply HL. unfold cas_new.
  repeat (match goal with |- context [if ?b then _ else _] => destruct b end); reflexivity.
Qed.

(** An occupied mark made by an interrupt at any point of a minute read or of another mark
    leaves at least 49 minutes on the timer when that operation ends; a possible mark
    at least 39. *)
Theorem C40_mark_not_lost : forall s o g,
  OInv s -> o = ORead \/ o = OOcc \/ o = OPoss \/ o = OJust ->
  (during o g IOcc -> 49 <= occupationCountdownM (ostep_i g s o) <= 50) /\
  (during o g IPoss -> 39 <= occupationCountdownM (ostep_i g s o) <= 50).
Proof.
  intros s o g (HI & _) Ho. destruct Ho as [-> |[-> |[-> | ->]]]; cbn [ostep_i]; unfold during; cbn [gap_count].
  - rewrite oc_of_read. cbv zeta.
    destruct (isr_oc (g 0%nat) s HI) as (A0 & B0 & C0 & _). set (s0 := isr (g 0%nat) s) in *.
    destruct (isr_oc (g 1%nat) s0 ltac:(lia)) as (A1 & B1 & C1 & _). set (s1 := isr (g 1%nat) s0) in *.
    set (s2 := if 0 =? occupationCountdownM s0 then s1 else _).
    assert (H2 : occupationCountdownM s2 = occupationCountdownM s1 /\ (occupationCountdownM s0 = 0 \/ occupationCountdownM s1 <> occupationCountdownM s0) \/
                 occupationCountdownM s2 = occupationCountdownM s1 - 1 /\ 0 < occupationCountdownM s1 /\ occupationCountdownM s1 = occupationCountdownM s0).
    { unfold s2, cas_oc. destruct (0 =? occupationCountdownM s0) eqn:E; [left; split; [reflexivity|left; lia]|].
      destruct (occupationCountdownM s1 =? occupationCountdownM s0) eqn:E2; [right|left; split; [reflexivity|right; lia]].
      cbn. rewrite u8_id by (unfold byte; lia). lia. }
    clearbody s2.
    destruct (isr_oc (g 2%nat) s2 ltac:(lia)) as (A2 & B2 & C2 & _). set (s3 := isr (g 2%nat) s2) in *.
    destruct (isr_oc (g 3%nat) s3 ltac:(lia)) as (A3 & B3 & C3 & _). set (s4 := isr (g 3%nat) s3) in *.
    destruct (isr_oc (g 4%nat) s4 ltac:(lia)) as (A4 & B4 & C4 & _). set (s5 := isr (g 4%nat) s4) in *.
    destruct (isr_oc (g 5%nat) s5 ltac:(lia)) as (A5 & B5 & C5 & _).
    split; intros (i & Hi & Hin); destruct i as [|[|[|[|[|[|i]]]]]]; try lia;
      repeat match goal with H : In _ (g ?k) -> _, H' : In _ (g ?k) |- _ => first [specialize (H H') | clear H] end; lia.
  - unfold markAsOccupied. cbn. unfold OCCUPATION_TIMEOUT_M. lia.
  - unfold markAsPossiblyOccupied. cbv zeta.
    destruct (isr_oc (g 0%nat) s HI) as (A0 & B0 & C0 & _). set (s0 := isr (g 0%nat) s) in *.
    destruct (isr_oc (g 1%nat) s0 ltac:(lia)) as (A1 & B1 & C1 & _). set (s1 := isr (g 1%nat) s0) in *.
    set (s2 := if 0 =? occupationCountdownM s0 then set_new s1 _ else s1).
    assert (H2 : occupationCountdownM s2 = occupationCountdownM s1) by (unfold s2; destruct (_ =? _); reflexivity). clearbody s2.
    destruct (isr_oc (g 2%nat) s2 ltac:(lia)) as (A2 & B2 & C2 & _). set (s3 := isr (g 2%nat) s2) in *.
    assert (H3 : occupationCountdownM s3 <= occupationCountdownM (cas_oc s3 (occupationCountdownM s0) (Z.max (occupationCountdownM s0) OCCUPATION_TIMEOUT_LIKELY_M)) <= 50).
    { unfold cas_oc. change OCCUPATION_TIMEOUT_LIKELY_M with 40. destruct (_ =? _) eqn:E; cbn; lia. }
    split; intros (i & Hi & Hin); destruct i as [|[|[|i]]]; try lia;
      repeat match goal with H : In _ (g ?k) -> _, H' : In _ (g ?k) |- _ => first [specialize (H H') | clear H] end; lia.
  - unfold markAsJustPossiblyOccupied. cbv zeta.
    destruct (isr_oc (g 0%nat) s HI) as (A0 & B0 & C0 & _). set (s0 := isr (g 0%nat) s) in *.
    destruct (isr_oc (g 1%nat) s0 ltac:(lia)) as (A1 & B1 & C1 & _). set (s1 := isr (g 1%nat) s0) in *.
    set (s2 := if vacancyH s0 >? weakVacantHThrH then s1 else _).
    assert (H3 : occupationCountdownM s1 <= occupationCountdownM s2 <= 50).
    { unfold s2, cas_oc. change OCCUPATION_TIMEOUT_MAYBE_M with 20. destruct (vacancyH s0 >? _); [lia|]. destruct (_ =? _) eqn:E; cbn; lia. }
    split; intros (i & Hi & Hin); destruct i as [|[|i]]; try lia;
      repeat match goal with H : In _ (g ?k) -> _, H' : In _ (g ?k) |- _ => first [specialize (H H') | clear H] end; lia.
Qed.
(** So the room is reported occupied then, and recently occupied. *)
Theorem C40_reported_occupied : forall s o g,
  OInv s -> o = ORead \/ o = OOcc \/ o = OPoss \/ o = OJust -> during o g IOcc ->
  isLikelyOccupied (ostep_i g s o) = true /\ isLikelyRecentlyOccupied (ostep_i g s o) = true.
Proof.
  intros s o g HI Ho Hd. destruct (C40_mark_not_lost s o g HI Ho) as [H _]. specialize (H Hd).
  unfold isLikelyOccupied, isLikelyRecentlyOccupied. change OCCUPATION_TIMEOUT_LIKELY_M with 40. lia.
Qed.


(** Every state reachable under any interleaving is well formed. *)
Lemma isr_inv l : forall s, OInv s -> OInv (isr l s).
Proof.
  induction l as [|o l IH]; intros s HI; [exact HI|]. unfold isr. cbn [fold_left]. apply IH.
  destruct HI as (H1 & H2 & H3 & H4 & H5). destruct o; cbn [isr_step].
  - unfold markAsOccupied0, OInv, set_value, set_new, set_oc, OCCUPATION_TIMEOUT_M, NEW_OCCUPANCY_TIMEOUT_M. pr.
    destruct (0 =? occupationCountdownM s); pr; lia.
  - unfold markAsPossiblyOccupied0, OInv, cas_oc, set_new, set_oc, NEW_OCCUPANCY_TIMEOUT_M. change OCCUPATION_TIMEOUT_LIKELY_M with 40.
    destruct (0 =? occupationCountdownM s); pr; rewrite Z.eqb_refl; pr; lia.
Qed.
Lemma inv_set_oc s x : OInv s -> 0 <= x <= 50 -> OInv (set_oc s x).
Proof. unfold OInv, set_oc. pr. lia. Qed.
Lemma inv_set_new s x : OInv s -> 0 <= x <= 3 -> OInv (set_new s x).
Proof. unfold OInv, set_new. pr. lia. Qed.
Lemma inv_set_value s x : OInv s -> 0 <= x <= 100 -> OInv (set_value s x).
Proof. unfold OInv, set_value. pr. lia. Qed.
Lemma inv_set_vac s h m : OInv s -> 0 <= h <= 255 -> 0 <= m < 60 -> OInv (set_vac s h m).
Proof. unfold OInv, set_vac. pr. lia. Qed.
Lemma inv_cas_oc s e d : OInv s -> 0 <= d <= 50 -> OInv (cas_oc s e d).
Proof. intros H Hd. unfold cas_oc. destruct (_ =? e); [apply inv_set_oc|]; assumption. Qed.
Lemma inv_cas_new s e d : OInv s -> 0 <= d <= 3 -> OInv (cas_new s e d).
Proof. intros H Hd. unfold cas_new. destruct (_ =? e); [apply inv_set_new|]; assumption. Qed.
Lemma ostep_i_inv g s o : OInv s -> OInv (ostep_i g s o).
Proof.
  intros HI. destruct o; cbn [ostep_i].
  - unfold occ_read. cbv zeta. cbn [fst].
    pose proof (isr_inv (g 0%nat) _ HI) as H0. set (s0 := isr (g 0%nat) s) in *.
    pose proof (isr_inv (g 1%nat) _ H0) as H1. set (s1 := isr (g 1%nat) s0) in *.
    set (s2 := if 0 =? occupationCountdownM s0 then s1 else _).
    assert (H2 : OInv s2).
    { unfold s2. destruct H0 as (B & _). destruct (0 =? _) eqn:E; [exact H1|]. apply inv_cas_oc; [exact H1|]. rewrite u8_id by (unfold byte; lia). lia. }
    clearbody s2. pose proof (isr_inv (g 2%nat) _ H2) as H3. set (s3 := isr (g 2%nat) s2) in *.
    pose proof (isr_inv (g 3%nat) _ H3) as H4. set (s4 := isr (g 3%nat) s3) in *.
    set (s5 := if 0 =? newOccupancyCountdownM s3 then s4 else _).
    assert (H5 : OInv s5).
    { unfold s5. destruct H3 as (_ & B & _). destruct (0 =? _) eqn:E; [exact H4|]. apply inv_cas_new; [exact H4|]. rewrite u8_id by (unfold byte; lia). lia. }
    clearbody s5. pose proof (isr_inv (g 4%nat) _ H5) as H6. set (s6 := isr (g 4%nat) s5) in *.
    apply inv_set_value.
    + apply isr_inv. destruct (occupationCountdownM s6 >? 0); [apply inv_set_vac; auto; lia|].
      pose proof H6 as (_ & _ & B3 & B4 & _). destruct (vacancyH s6 <? 255) eqn:E1; [|exact H6].
      rewrite (u8_id (vacancyM s6 + 1)) by (unfold byte; lia).
      destruct (vacancyM s6 + 1 >=? 60) eqn:E2; apply inv_set_vac; auto; try lia. rewrite u8_id by (unfold byte; lia). lia.
    + destruct H6 as (B & _). destruct (0 =? occupationCountdownM s6) eqn:E; [lia|]. unfold OCCUPATION_TIMEOUT_M, OCCCP_SHIFT.
      rewrite Z.shiftl_mul_pow2 by lia. change (2 ^ 1) with 2. rewrite u8_id by (unfold byte; lia). lia.
  - unfold markAsOccupied. apply inv_set_oc; [|unfold OCCUPATION_TIMEOUT_M; lia]. apply isr_inv.
    destruct (0 =? _); [apply inv_set_new; [|unfold NEW_OCCUPANCY_TIMEOUT_M; lia]|]; apply isr_inv, isr_inv, inv_set_value; try lia; apply isr_inv, HI.
  - unfold markAsPossiblyOccupied. pose proof (isr_inv (g 0%nat) _ HI) as H0. pose proof H0 as (B & _).
    apply inv_cas_oc; [|change OCCUPATION_TIMEOUT_LIKELY_M with 40; lia]. apply isr_inv.
    destruct (0 =? _); [apply inv_set_new; [|unfold NEW_OCCUPANCY_TIMEOUT_M; lia]|]; apply isr_inv, isr_inv, HI.
  - unfold markAsJustPossiblyOccupied. pose proof (isr_inv (g 0%nat) _ HI) as H0. pose proof H0 as (B & _).
    destruct (_ >? _); [apply isr_inv, H0|]. apply inv_cas_oc; [|change OCCUPATION_TIMEOUT_MAYBE_M with 20; lia]. apply isr_inv, H0.
  - destruct HI as (H1 & H2 & H3 & H4 & H5). unfold OInv, markAsVacant. pr. lia.
  - destruct HI as (H1 & H2 & H3 & H4 & H5). unfold OInv, setHolidayMode. pr. lia.
  - unfold OInv, occ_reset. pr. lia.
Qed.
(** A history of main-line operations, each with the interrupt-time marks during it. *)
Definition orun_i (l : list (oop * Gaps)) : Occ := fold_left (fun s x => ostep_i (snd x) s (fst x)) l Occ0.
Lemma orun_i_inv l : OInv (orun_i l).
Proof.
  unfold orun_i. assert (H : forall l s, OInv s -> OInv (fold_left (fun s x => ostep_i (snd x) s (fst x)) l s)).
  { clear. induction l as [|[o g] l IH]; intros s HI; [exact HI|]. cbn [fold_left]. apply IH, ostep_i_inv, HI. }
  apply H, OInv0.
Qed.
Theorem C40_any_history : forall l o g,
  o = ORead \/ o = OOcc \/ o = OPoss \/ o = OJust -> during o g IOcc ->
  let s := orun_i (l ++ [(o, g)]) in
  49 <= occupationCountdownM s <= 50 /\ isLikelyOccupied s = true /\ isLikelyRecentlyOccupied s = true.
Proof.
  intros l o g Ho Hd. cbv zeta. unfold orun_i. rewrite fold_left_app. cbn [fold_left fst snd]. fold (orun_i l).
  split; [apply (C40_mark_not_lost _ o g (orun_i_inv l) Ho), Hd|]. apply C40_reported_occupied; auto. apply orun_i_inv.
Qed.

(** The reported value can lose the race: a mark made just before the read stores its
    result is overwritten, so the value and the vacancy hours still say vacant though the
    timer is full ... *)
Theorem C40_value_race_refuted :
  exists l g, during ORead g IOcc /\
    let s := ostep_i g (orun Occ0 l) ORead in
    isLikelyOccupied s = true /\ occ_get s = 0 /\ getVacancyH s = 3.
Proof.
  exists (OOcc :: ORead :: OVacant :: repeat ORead 185), (fun i => if (i =? 5)%nat then [IOcc] else []).
  split; [exists 5%nat; split; [cbn; lia|left; reflexivity]|]. vm_compute. auto.
Qed.
(** ... until the next read, which always repairs it. *)
Theorem C40_repaired_by_next_read : forall l o g,
  o = ORead \/ o = OOcc \/ o = OPoss \/ o = OJust -> during o g IOcc ->
  let s := orun_i (l ++ [(o, g); (ORead, nogaps)]) in
  isLikelyOccupied s = true /\ 96 <= occ_get s /\ getVacancyH s = 0 /\ vacHSubSensor s = 0.
Proof.
  intros l o g Ho Hd. cbv zeta. unfold orun_i. rewrite fold_left_app. cbn [fold_left fst snd]. fold (orun_i l).
  destruct (C40_mark_not_lost _ o g (orun_i_inv l) Ho) as [H _]. specialize (H Hd).
  pose proof (ostep_i_inv g _ o (orun_i_inv l)) as HI1. set (s := ostep_i g (orun_i l) o) in *.
  change (ostep_i nogaps s ORead) with (ostep s ORead).
  pose proof (read_oc _ HI1) as R. pose proof (read_rest _ HI1) as (_ & R0 & R1 & _).
  destruct (R1 ltac:(lia)) as [R2 _]. unfold isLikelyOccupied, occ_get, getVacancyH, vacHSubSensor. rewrite R2.
  replace (negb (occ_value (ostep s ORead) =? 0)) with true by lia. lia.
Qed.
(** A mark in the middle of the read of a vacant room. *)
Example C40_nonvacuous :
  during ORead (fun i => if (i =? 1)%nat then [IPoss; IOcc] else []) IOcc /\
  occupationCountdownM (orun_i [(OPoss, nogaps); (ORead, fun i => if (i =? 1)%nat then [IPoss; IOcc] else [])]) = 50.
Proof. split; [exists 1%nat; split; [cbn; lia|right; left; reflexivity]|reflexivity]. Qed.

Print Assumptions C39_occupied_iff.
Print Assumptions C39_confidence.
Print Assumptions C39_vacancy_hours.
Print Assumptions C39_holiday.
Print Assumptions C40_any_history.
Print Assumptions C40_repaired_by_next_read.
