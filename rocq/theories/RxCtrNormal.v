(** C19: the receive counter store without power failures. *)
From Verif Require Import Base CrcModel CrcSpec CrcLin CrcProofs SecureModel SecureProps EepromModel EepromProofs EepromProps AssocProps TxCtrModel TxCtrProofs RxCtrModel RxCtrProofs.
#[local] Opaque crc7_run crc7_5B_update.

Lemma inv8_sub b : byte b -> inv8 b = 255 - b.
Proof.
  intros H. pose proof (below_spec 256 (fun b => inv8 b =? 255 - b) ltac:(vm_compute; reflexivity) b H) as E.
  cbv beta in E. lia.
Qed.
Lemma crc0_range l : 0 <= crc7_run 0 l < 128.
Proof. apply crc7_run_range. lia. Qed.
Lemma inv8_crc_byte l : byte (inv8 (crc7_run 0 l)).
Proof. apply inv8_byte. pose proof (crc0_range l). unfold byte. lia. Qed.
Lemma map_inv8_inv l : map inv8 (map inv8 l) = l.
Proof. rewrite map_map. rewrite (map_ext _ (fun x => x)) by apply inv8_inv. apply map_id. Qed.

(** ** A complete / incomplete rewrite of one copy *)
Lemma upd_ws_len m loc new : Zlen new = 6 -> length (upd_ws m loc new) = 8%nat.
Proof.
  intros H. unfold upd_ws. cbn [length]. rewrite app_length, at_addr_len, map_length. unfold Zlen in H. simpl. lia.
Qed.
Lemma at_other loc l q m : (q < loc \/ loc + Zlen l <= q) -> applyw (at_addr loc l) m q = m q.
Proof. intros H. rewrite applyw_at. destruct (loc <=? q) eqn:E1, (q <? loc + Zlen l) eqn:E2; simpl; try reflexivity. lia. Qed.

Lemma rdctr_upd m m' loc new : Zlen new = 6 ->
  rdctr (applyw (upd_ws m loc new) m') loc = Some new.
Proof.
  intros H6. unfold upd_ws.
  change ((loc + 6, Z.land (m (loc + 6)) 127) :: at_addr loc (map inv8 new) ++ [(loc + 6, inv8 (crc7_run 0 new))])
    with ([(loc + 6, Z.land (m (loc + 6)) 127)] ++ at_addr loc (map inv8 new) ++ [(loc + 6, inv8 (crc7_run 0 new))]).
  rewrite !applyw_app. set (m1 := applyw [(loc + 6, _)] m'). 
  unfold rdctr. 
  assert (E : block (applyw [(loc + 6, inv8 (crc7_run 0 new))] (applyw (at_addr loc (map inv8 new)) m1)) loc 6 = map inv8 new).
  { rewrite (block_ext _ (applyw (at_addr loc (map inv8 new)) m1)).
    - replace 6%nat with (length (map inv8 new)) by (rewrite map_length; unfold Zlen in H6; lia).
      apply block_applyw_at.
    - intros q Hq. apply applyw_other. intros w [<-|[]]. cbn [fst]. lia. }
  rewrite E, map_inv8_inv. cbn [applyw fold_left fst snd]. unfold upd at 1. rewrite Z.eqb_refl, inv8_inv, Z.eqb_refl.
  reflexivity.
Qed.

Lemma land127_small x : 0 <= Z.land x 127 < 128.
Proof. change 127 with (Z.ones 7). rewrite Z.land_ones by lia. change (2 ^ 7) with 128. apply Z.mod_pos_bound. lia. Qed.

Lemma rdctr_upd_partial m m' loc new k : Zlen new = 6 -> (1 <= k < 8)%nat ->
  rdctr (applyw (firstn k (upd_ws m loc new)) m') loc = None.
Proof.
  intros H6 Hk. destruct k as [|k]; [lia|]. unfold upd_ws. cbn [firstn].
  assert (HL : length (at_addr loc (map inv8 new)) = 6%nat).
  { rewrite at_addr_len, map_length. unfold Zlen in H6. lia. }
  rewrite firstn_app, HL. replace (k - 6)%nat with 0%nat by lia. rewrite firstn_O, app_nil_r, firstn_at_addr.
  set (l := firstn k (map inv8 new)).
  assert (Hl : Zlen l <= 6).
  { unfold l. rewrite Zlen_firstn, Zlen_map. lia. }
  unfold rdctr. cbn [applyw fold_left fst snd].
  change (fold_left (fun (m0 : Z -> Z) (w : Z * Z) => upd m0 (fst w) (snd w)) (at_addr loc l)
           (upd m' (loc + 6) (Z.land (m (loc + 6)) 127)))
    with (applyw (at_addr loc l) (upd m' (loc + 6) (Z.land (m (loc + 6)) 127))).
  rewrite (at_other loc l (loc + 6)) by lia. unfold upd at 2. rewrite Z.eqb_refl.
  set (c := map inv8 _). pose proof (crc0_range c) as R.
  pose proof (land127_small (m (loc + 6))) as R2. rewrite inv8_sub by (unfold byte; lia).
  replace (crc7_run 0 c =? 255 - Z.land (m (loc + 6)) 127) with false by lia. reflexivity.
Qed.

(** ** Unary part *)
Lemma u2_code n : 0 <= n <= 16 ->
  u8 (unary2_decode (u8 (Z.shiftr (unary2_encode n) 8)) (u8 (unary2_encode n))) = n.
Proof. intros H. upto 16%nat. Qed.
Lemma incr_unary a n m : 0 <= n <= 16 -> incr_of (applyw (unary_ws a n) m) a = n.
Proof.
  intros H. unfold incr_of, unary_ws. cbn [applyw fold_left fst snd]. unfold upd.
  replace (a + 15 =? a + 15) with true by lia. replace (a + 23 =? a + 15) with false by lia.
  replace (a + 23 =? a + 23) with true by lia. apply u2_code. exact H.
Qed.
Lemma unary_ws_addr a n w : In w (unary_ws a n) -> fst w = a + 23 \/ fst w = a + 15.
Proof. intros [<-|[<-|[]]]; cbn [fst]; auto. Qed.
Lemma full_ws_addr m a new w : Zlen new = 6 -> In w (full_ws m a new) -> a + 8 <= fst w < a + 24.
Proof.
  intros H6 H. unfold full_ws in H. apply in_app_or in H. destruct H as [H|H].
  - apply upd_ws_other in H; auto. lia.
  - apply in_app_or in H. destruct H as [H|H].
    + apply upd_ws_other in H; auto. lia.
    + destruct H as [<-|[<-|[]]]; cbn [fst]; lia.
Qed.

Lemma unary_find_sound base new : Zlen base = 6 -> Forall byte base -> Zlen new = 6 -> Forall byte new ->
  forall fuel incr n, 0 <= incr -> unary_find base new incr fuel = Some n ->
  incr <= n <= 16 /\ msgcounteradd base n = Some (true, new).
Proof.
  intros HB6 HB H6 HN. induction fuel; intros incr n Hi; cbn [unary_find]; [discriminate|].
  destruct (incr >? 16) eqn:E; [discriminate|].
  destruct (C09_add_behaviour base incr HB6 HB ltac:(unfold byte; lia)) as (ok & tot & EA & T6 & TB & _).
  rewrite EA. destruct ok; [|discriminate].
  destruct (C08_cmp_numeric tot new T6 H6 TB HN) as (r & -> & A & B & C).
  destruct (r =? 0) eqn:Er.
  - intros H. apply some_inj in H. subst n. split; [lia|]. rewrite EA. repeat f_equal.
    apply be_inj; auto; [unfold Zlen in *; lia|lia].
  - intros H. apply IHfuel in H; [|lia]. destruct H. split; [lia|assumption].
Qed.

Lemma add0 c : Zlen c = 6 -> Forall byte c -> msgcounteradd c 0 = Some (true, c).
Proof.
  intros H6 HB. destruct (C09_add_partial c 0 H6 HB ltac:(unfold byte; lia)) as (ok & c' & E & H).
  { left. pose proof (Z.mod_pos_bound (be c) (2 ^ 40)). lia. }
  pose proof (be_range c HB) as R. rewrite H6 in R. change (256 ^ 6) with (2 ^ 48) in R.
  destruct H as [(_ & -> & HE)|(Hx & _)]; [|lia]. rewrite E. repeat f_equal.
  destruct (C09_add_behaviour c 0 H6 HB ltac:(unfold byte; lia)) as (ok2 & c2 & E2 & L2 & B2 & _).
  rewrite E in E2. apply some_pair_inj in E2. destruct E2 as [_ ->].
  apply be_inj; auto; [unfold Zlen in *; lia|lia].
Qed.

(** ** Other rows, other IDs *)
Lemma scan_ids m m' prefix : (forall i q, 0 <= i < 8 -> 768 + 32 * i <= q < 776 + 32 * i -> m q = m' q) ->
  forall n i, 0 <= i -> i + Z.of_nat n = 8 -> scan m prefix i n = scan m' prefix i n.
Proof.
  intros H. induction n; intros i H0 Hn; cbn [scan]; [reflexivity|].
  rewrite (row_id_ext m m' i) by (intros; apply (H i); lia). rewrite IHn by lia. reflexivity.
Qed.
Lemma row_of_ids m m' id : (forall i q, 0 <= i < 8 -> 768 + 32 * i <= q < 776 + 32 * i -> m q = m' q) ->
  row_of m id = row_of m' id.
Proof. intros H. unfold row_of. rewrite (scan_ids m m' id H 8 0) by lia. reflexivity. Qed.
Lemma scan_row m id n : forall i j x, Zlen id = 8 -> scan m id i n = Some (j, x) ->
  i <= j < i + Z.of_nat n /\ x = row_id m j /\ x = id.
Proof.
  induction n; intros i j x H8; cbn [scan]; [discriminate|].
  destruct (255 =? _); [discriminate|]. pose proof (match_bool id (row_id m i)) as HB. destruct (_ || _).
  - intros H. apply some_pair_inj in H. destruct H as [<- <-]. split; [lia|]. split; [reflexivity|].
    destruct HB as [HB _]. specialize (HB eq_refl). unfold starts_with in HB. rewrite <- HB.
    rewrite firstn_all2; [reflexivity|]. unfold row_id. rewrite block_len. unfold Zlen in H8. lia.
  - intros H. apply IHn in H; [|exact H8]. split; [lia|tauto].
Qed.
(** A row found: its address, aligned, and its ID. *)
Lemma row_of_spec m id a : Zlen id = 8 -> row_of m id = Some a ->
  exists i, 0 <= i < 8 /\ a = 768 + 32 * i /\ block m a 8 = id.
Proof.
  unfold row_of. intros H8. destruct (scan m id 0 8) as [[i x]|] eqn:E; [|discriminate].
  intros H. apply some_inj in H. subst a. apply scan_row in E; [|exact H8].
  destruct E as (A & B & C). exists i. split; [lia|]. split; [reflexivity|]. rewrite B in C. exact C.
Qed.
Lemma rows_differ m id id' a a' : Zlen id = 8 -> Zlen id' = 8 -> id <> id' ->
  row_of m id = Some a -> row_of m id' = Some a' -> a + 32 <= a' \/ a' + 32 <= a.
Proof.
  intros H H' HN E E'. apply row_of_spec in E; auto. apply row_of_spec in E'; auto.
  destruct E as (i & A & -> & B), E' as (j & A' & -> & B').
  destruct (Z.eq_dec i j) as [->|Hd]; [|lia]. exfalso. apply HN. congruence.
Qed.

(** Writes to the counter bytes of row [a] only. *)
Definition within (a : Z) (ws : list (Z * Z)) : Prop := forall w, In w ws -> a + 8 <= fst w < a + 24.
Lemma within_ids m m' a ws i0 : a = 768 + 32 * i0 -> within a ws -> meq m' (applyw ws m) ->
  forall q, (q < a + 8 \/ a + 24 <= q) -> m' q = m q.
Proof.
  intros -> HW HM q Hq. rewrite HM. apply applyw_other. intros w Hw. specialize (HW w Hw). lia.
Qed.

Lemma within_row_of m m' a ws i0 id : a = 768 + 32 * i0 -> within a ws -> meq m' (applyw ws m) ->
  row_of m' id = row_of m id.
Proof.
  intros Ha HW HM. apply row_of_ids. intros i q Hi Hq. eapply within_ids; eauto. subst a. lia.
Qed.
Lemma within_other m m' a ws i0 id id' : a = 768 + 32 * i0 -> within a ws -> meq m' (applyw ws m) ->
  Zlen id = 8 -> Zlen id' = 8 -> id <> id' -> row_of m id = Some a ->
  lookup_last m' id' = lookup_last m id'.
Proof.
  intros Ha HW HM H8 H8' HN HR. unfold lookup_last.
  rewrite (within_row_of m m' a ws i0 id' Ha HW HM). destruct (row_of m id') as [a'|] eqn:E; [|reflexivity].
  pose proof (rows_differ m id id' a a' H8 H8' HN HR E).
  apply last_ext. intros q Hq. eapply within_ids; eauto. lia.
Qed.

(** ** The effect of a plan *)
Lemma plan_within m a new ws : Zlen new = 6 -> plan m a new = Some ws -> within a ws.
Proof.
  intros H6. unfold plan. destruct (base_of m a); [|discriminate].
  destruct (msgcounteradd _ _) as [[[|] mx]|]; try discriminate.
  destruct (_ >=? _).
  - destruct (unary_find _ _ _ _) as [n|]; [|discriminate]. intros H. apply some_inj in H. subst ws.
    intros w Hw. apply unary_ws_addr in Hw. lia.
  - intros H. apply some_inj in H. subst ws. intros w Hw. eapply full_ws_addr; eauto.
Qed.
Lemma rdctr_full_P m a new m' : Zlen new = 6 -> rdctr (applyw (full_ws m a new) m') (a + 8) = Some new.
Proof.
  intros H6. unfold full_ws. rewrite applyw_app.
  erewrite rdctr_ext; [apply (rdctr_upd m m' (a + 8) new H6)|].
  intros q Hq. apply applyw_other. intros w Hw. apply in_app_or in Hw. destruct Hw as [Hw|[<-|[<-|[]]]].
  - apply upd_ws_other in Hw; auto. lia.
  - cbn [fst]. lia.
  - cbn [fst]. lia.
Qed.
Lemma rdctr_full_S m a new m' : Zlen new = 6 -> rdctr (applyw (full_ws m a new) m') (a + 16) = Some new.
Proof.
  intros H6. unfold full_ws. rewrite !applyw_app.
  erewrite rdctr_ext; [apply (rdctr_upd m (applyw (upd_ws m (a + 8) new) m') (a + 16) new H6)|].
  intros q Hq. apply applyw_other. intros w [<-|[<-|[]]]; cbn [fst]; lia.
Qed.
Lemma full_unary m a new m' : applyw (full_ws m a new) m' (a + 15) = 255 /\ applyw (full_ws m a new) m' (a + 23) = 255.
Proof.
  unfold full_ws. rewrite !applyw_app. cbn [applyw fold_left fst snd]. unfold upd.
  replace (a + 15 =? a + 15) with true by lia. replace (a + 23 =? a + 15) with false by lia.
  replace (a + 23 =? a + 23) with true by lia. auto.
Qed.
Lemma plan_last m a new ws : bytes_mem m -> Zlen new = 6 -> Forall byte new -> plan m a new = Some ws ->
  last_of (applyw ws m) a = Some new.
Proof.
  intros HB H6 HN. unfold plan. destruct (base_of m a) as [b|] eqn:EB; [|discriminate].
  destruct (base_six _ _ _ HB EB) as [B6 BB].
  destruct (msgcounteradd b 16) as [[[|] mx]|]; try discriminate.
  destruct (_ >=? _).
  - destruct (unary_find _ _ _ _) as [n|] eqn:EU; [|discriminate]. intros H. apply some_inj in H. subst ws.
    apply unary_find_sound in EU; auto; [|pose proof (incr_byte m a) as X; unfold byte in X; lia].
    destruct EU as [Hn EA]. pose proof (incr_byte m a) as X. unfold byte in X.
    unfold last_of. rewrite incr_unary by lia.
    assert (base_of (applyw (unary_ws a n) m) a = Some b) as ->.
    { unfold base_of. rewrite (rdctr_ext _ m (a + 8)), (rdctr_ext _ m (a + 16)); [exact EB| |];
        intros q Hq; apply applyw_other; intros w Hw; apply unary_ws_addr in Hw; lia. }
    rewrite EA. reflexivity.
  - intros H. apply some_inj in H. subst ws. unfold last_of, base_of. rewrite rdctr_full_P by auto.
    unfold incr_of. destruct (full_unary m a new m) as [-> ->].
    change (u8 (unary2_decode 255 255)) with 0. rewrite add0 by auto. reflexivity.
Qed.
Lemma plan_len m a new ws : Zlen new = 6 -> plan m a new = Some ws -> (length ws <= 18)%nat.
Proof.
  intros H6. unfold plan. destruct (base_of m a); [|discriminate].
  destruct (msgcounteradd _ _) as [[[|] mx]|]; try discriminate.
  destruct (_ >=? _).
  - destruct (unary_find _ _ _ _) as [n|]; [|discriminate]. intros H. apply some_inj in H. subst ws. simpl. lia.
  - intros H. apply some_inj in H. subst ws. unfold full_ws. rewrite !app_length, !upd_ws_len by auto. simpl. lia.
Qed.

Lemma upd_ws_bytes m loc new w : bytes_mem m -> Forall byte new -> In w (upd_ws m loc new) -> byte (snd w).
Proof.
  intros HB HN. unfold upd_ws. intros [<-|H]; cbn [snd].
  - pose proof (land127_small (m (loc + 6))). unfold byte. lia.
  - apply in_app_or in H. destruct H as [H|[<-|[]]]; [|apply inv8_crc_byte].
    apply at_addr_in in H. destruct H as [_ H]. eapply Forall_forall in H; [exact H|]. apply map_inv8_bytes. exact HN.
Qed.
Lemma full_ws_bytes m a new w : bytes_mem m -> Forall byte new -> In w (full_ws m a new) -> byte (snd w).
Proof.
  intros HB HN H. unfold full_ws in H. apply in_app_or in H. destruct H as [H|H]; [eapply upd_ws_bytes; eauto|].
  apply in_app_or in H. destruct H as [H|[<-|[<-|[]]]]; [eapply upd_ws_bytes; eauto| |]; unfold byte; cbn [snd]; lia.
Qed.
Lemma plan_bytes m a new ws : bytes_mem m -> Forall byte new -> plan m a new = Some ws ->
  forall w, In w ws -> byte (snd w).
Proof.
  intros HB HN. unfold plan. destruct (base_of m a); [|discriminate].
  destruct (msgcounteradd _ _) as [[[|] mx]|]; try discriminate.
  destruct (_ >=? _).
  - destruct (unary_find _ _ _ _) as [n|]; [|discriminate]. intros H. apply some_inj in H. subst ws.
    intros w [<-|[<-|[]]]; apply u8_byte.
  - intros H. apply some_inj in H. subst ws. intros w Hw. eapply full_ws_bytes; eauto.
Qed.
Lemma bytes_meq a b : meq a b -> bytes_mem b -> bytes_mem a.
Proof. intros H HB q. rewrite H. apply HB. Qed.

Lemma ids_table m m' : (forall i q, 0 <= i < 8 -> 768 + 32 * i <= q < 776 + 32 * i -> m' q = m q) -> ids m' = ids m.
Proof.
  intros H. unfold ids. assert (HG : forall n i, 0 <= i -> i + Z.of_nat n = 8 -> ids_from m' i n = ids_from m i n).
  { induction n; intros i H0 Hn; cbn [ids_from]; [reflexivity|].
    rewrite (row_id_ext m' m i) by (intros; apply (H i); lia). rewrite (H i) by lia. rewrite IHn by lia. reflexivity. }
  apply HG; lia.
Qed.
