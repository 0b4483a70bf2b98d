(** C19: receive counters in normal operation, over any history. *)
From Verif Require Import Base CrcModel CrcSpec CrcLin CrcProofs SecureModel SecureProps EepromModel EepromProofs EepromProps AssocProps TxCtrModel TxCtrProofs RxCtrModel RxCtrProofs RxCtrNormal.
#[local] Opaque crc7_run crc7_5B_update.

(** ** Vocabulary *)
(** An 8-byte node ID and a 6-byte message counter. *)
Definition is_id (id : list Z) : Prop := Zlen id = 8.
Definition is_ctr (c : list Z) : Prop := Zlen c = 6 /\ Forall byte c.
(** What the API reports as the last message counter of a node (None: failure). *)
Definition reads_back (s : EE) (id : list Z) : option (list Z) :=
  match getLastRXMsgCtr id s 0%nat with (_, Some (r, _)) => r | _ => None end.

Lemma reads_back_eq s id : is_id id -> reads_back s id = lookup_last (mem s) id.
Proof.
  intros H. unfold reads_back.
  destruct (does_getLast id s H 0%nat) as [(s' & k & E & Hf & _)|(s' & f' & E & _)]; [simpl in Hf; lia|].
  rewrite E. reflexivity.
Qed.

Lemma auth_effect id new s f : is_id id -> is_ctr new -> bytes_mem (mem s) -> (18 <= f)%nat ->
  exists s' f', authAndUpdateRXMsgCtr id new s f =
      (s', Some (match auth_plan (mem s) id new with None => false | Some _ => true end, f')) /\
    (f - 18 <= f')%nat /\
    match auth_plan (mem s) id new with None => meq (mem s') (mem s) | Some ws => meq (mem s') (applyw ws (mem s)) end.
Proof.
  intros H8 [H6 HN] HB Hf.
  pose proof (does_auth id new s H8 H6 HN HB f) as H.
  assert (HL : (length (match auth_plan (mem s) id new with None => [] | Some ws => ws end) <= 18)%nat).
  { unfold auth_plan. destruct (newer _ _ _); [|simpl; lia]. destruct (row_of _ _) as [a|]; [|simpl; lia].
    destruct (plan _ _ _) as [ws|] eqn:E; [|simpl; lia]. eapply plan_len; eauto. }
  destruct H as [(s' & k & _ & Hlt & _)|(s' & f' & E & Hf' & Hm)]; [lia|].
  exists s', f'. split; [exact E|]. split; [lia|].
  destruct (auth_plan (mem s) id new); exact Hm.
Qed.

(** *** From any EEPROM content whatever. *)
(** Accepted: the stored counter was readable and smaller, and the API now
    reports exactly the new one; nothing outside the counter bytes of one
    association-table row is changed, and what the API reports for every other
    node is unchanged.  Refused: nothing at all changes. *)
Theorem C19_update_any_content : forall id new s f,
  is_id id -> is_ctr new -> bytes_mem (mem s) -> (18 <= f)%nat ->
  exists s' f' ok, authAndUpdateRXMsgCtr id new s f = (s', Some (ok, f')) /\ bytes_mem (mem s') /\
    (ok = true ->
       (exists c, reads_back s id = Some c /\ be c < be new) /\
       reads_back s' id = Some new /\
       (forall id', is_id id' -> id' <> id -> reads_back s' id' = reads_back s id') /\
       (exists i, 0 <= i < 8 /\ block (mem s) (768 + 32 * i) 8 = id /\
          forall q, ~ 768 + 32 * i + 8 <= q < 768 + 32 * i + 24 -> mem s' q = mem s q)) /\
    (ok = false -> forall q, mem s' q = mem s q).
Proof.
  intros id new s f H8 HC HB Hf. pose proof HC as [H6 HN].
  destruct (auth_effect id new s f H8 HC HB Hf) as (s' & f' & E & _ & Hm).
  exists s', f'. eexists. split; [exact E|]. clear E.
  unfold auth_plan in *. unfold newer in *.
  destruct (lookup_last (mem s) id) as [c|] eqn:EL; [|split; [eapply bytes_meq; eauto|split; [discriminate|auto]]].
  destruct (be new >? be c) eqn:EN; [|split; [eapply bytes_meq; eauto|split; [discriminate|auto]]].
  destruct (row_of (mem s) id) as [a|] eqn:ER; [|split; [eapply bytes_meq; eauto|split; [discriminate|auto]]].
  destruct (plan (mem s) a new) as [ws|] eqn:EP; [|split; [eapply bytes_meq; eauto|split; [discriminate|auto]]].
  pose proof (plan_within _ _ _ _ H6 EP) as HW.
  destruct (row_of_spec _ _ _ H8 ER) as (i & Hi & Ha & HID).
  split; [|split; [|discriminate]].
  { intros q. rewrite Hm. revert q. apply applyw_bytes; [exact HB|]. eapply plan_bytes; eauto. }
  intros _. split; [exists c; rewrite reads_back_eq by exact H8; split; [exact EL|lia]|]. split.
  - rewrite reads_back_eq by exact H8. unfold lookup_last.
    rewrite (within_row_of _ _ a ws i id Ha HW Hm), ER.
    rewrite (last_ext (mem s') (applyw ws (mem s))) by (intros; apply Hm). apply plan_last; auto.
  - split.
    + intros id' H8' Hne. rewrite !reads_back_eq by assumption.
      eapply within_other with (id := id); eauto.
    + exists i. split; [exact Hi|]. rewrite <- Ha. split; [exact HID|].
      intros q Hq. eapply within_ids; eauto. lia.
Qed.

(** ** The meaning of a consistent stored counter *)
(** A copy of 6-byte counter [b] at [loc]: inverted, followed by inverted CRC. *)
Definition copy_at (m : Z -> Z) (loc : Z) (b : list Z) : Prop :=
  (forall j, 0 <= j < 6 -> m (loc + j) = 255 - znth b j) /\ m (loc + 6) = 255 - crc7_run 0 b.
(** Row at [a] holds counter [c]: both copies hold some base [b], and the
    unary bytes the difference, which does not carry out of the low 40 bits. *)
Definition row_holds (m : Z -> Z) (a : Z) (c : list Z) : Prop :=
  is_ctr c /\ exists b n, is_ctr b /\ copy_at m (a + 8) b /\ copy_at m (a + 16) b /\
    unary_code16 n (256 * m (a + 15) + m (a + 23)) /\
    be c = be b + n /\ be b mod 2 ^ 40 + n < 2 ^ 40.
(** Row [i] is the (first) row of the association table for node [id]. *)
Definition row_for (m : Z -> Z) (id : list Z) (i : Z) : Prop :=
  0 <= i /\ nth_error (ids m) (Z.to_nat i) = Some id /\
  forall j, 0 <= j < i -> nth_error (ids m) (Z.to_nat j) <> Some id.
Definition holds (m : Z -> Z) (id : list Z) (c : list Z) : Prop :=
  exists i, row_for m id i /\ row_holds m (768 + 32 * i) c.

Lemma is_ctr_range c : is_ctr c -> 0 <= be c < 2 ^ 48.
Proof. intros [H6 HB]. pose proof (be_range c HB) as R. rewrite H6 in R. change (256 ^ 6) with (2 ^ 48) in R. exact R. Qed.
Lemma is_ctr_inj c c' : is_ctr c -> is_ctr c' -> be c = be c' -> c = c'.
Proof. intros [H6 HB] [H6' HB'] HE. apply be_inj; auto. unfold Zlen in *. lia. Qed.

Lemma ids_from_len8 m n : forall i id, In id (ids_from m i n) -> Zlen id = 8.
Proof.
  induction n; intros i id; cbn [ids_from]; [intros []|]. destruct (_ =? _); [intros []|].
  intros [<-|H]; [unfold row_id, Zlen; rewrite block_len; reflexivity|eauto].
Qed.
Lemma starts_with_8 id id' : Zlen id = 8 -> Zlen id' = 8 -> starts_with id id' <-> id' = id.
Proof.
  intros H H'. unfold starts_with. rewrite firstn_all2 by (unfold Zlen in *; lia). tauto.
Qed.
Lemma row_for_row_of m id i : is_id id -> row_for m id i -> row_of m id = Some (768 + 32 * i).
Proof.
  intros H8 (H0 & H1 & H2). unfold row_of. pose proof (scan_spec m id 8 0) as HS. fold (ids m) in HS.
  destruct (scan m id 0 8) as [[j x]|].
  - destruct HS as (Hj & Hx & Hs & Hn). rewrite Z.sub_0_r in Hx.
    assert (x = id).
    { apply starts_with_8; auto. apply nth_error_In in Hx. eapply ids_from_len8; exact Hx. }
    subst x. destruct (Z.lt_trichotomy i j) as [Hl|[Hl|Hl]].
    + exfalso. apply (Hn i id ltac:(lia)); [rewrite Z.sub_0_r; exact H1|]. apply starts_with_8; auto.
    + subst; reflexivity.
    + exfalso. apply (H2 j ltac:(lia)). exact Hx.
  - exfalso. apply nth_error_In in H1. apply (HS id H1). apply starts_with_8; auto.
Qed.
Lemma row_of_row_for m id a : is_id id -> row_of m id = Some a -> exists i, row_for m id i /\ a = 768 + 32 * i.
Proof.
  intros H8. unfold row_of. pose proof (scan_spec m id 8 0) as HS. fold (ids m) in HS.
  destruct (scan m id 0 8) as [[j x]|]; [|discriminate]. intros H. apply some_inj in H. subst a.
  destruct HS as (Hj & Hx & Hs & Hn). rewrite Z.sub_0_r in Hx.
  assert (x = id).
  { apply starts_with_8; auto. apply nth_error_In in Hx. eapply ids_from_len8; exact Hx. }
  subst x. exists j. split; [|reflexivity]. split; [lia|]. split; [exact Hx|].
  intros k Hk HE. apply (Hn k id Hk); [rewrite Z.sub_0_r; exact HE|apply starts_with_8; auto].
Qed.

Lemma copy_rdctr m loc b : is_ctr b -> copy_at m loc b -> rdctr m loc = Some b.
Proof.
  intros [H6 HB] [H1 H2].
  assert (E : map inv8 (block m loc 6) = b).
  { apply zlist_ext.
    - rewrite Zlen_map. unfold Zlen at 1. rewrite block_len. lia.
    - rewrite Zlen_map. unfold Zlen. rewrite block_len. intros i Hi. rewrite znth_inv8 by (unfold Zlen; rewrite block_len; lia).
      rewrite block_znth by lia. rewrite H1 by lia. pose proof (znth_byte b i HB) as X.
      rewrite <- inv8_sub by exact X. apply inv8_inv. }
  unfold rdctr. rewrite E, H2. pose proof (crc0_range b) as R.
  rewrite <- inv8_sub by (unfold byte; lia). rewrite inv8_inv, Z.eqb_refl. reflexivity.
Qed.
Lemma rdctr_copy m loc b : bytes_mem m -> rdctr m loc = Some b -> copy_at m loc b.
Proof.
  intros HM. unfold rdctr. destruct (_ =? _) eqn:E; [|discriminate]. intros H. apply some_inj in H. subst b.
  split.
  - intros j Hj. rewrite znth_inv8 by (unfold Zlen; rewrite block_len; lia). rewrite block_znth by lia.
    rewrite inv8_sub by apply HM. lia.
  - apply Z.eqb_eq in E. rewrite E. rewrite inv8_sub by apply HM. lia.
Qed.
Lemma code_incr m a n : bytes_mem m -> unary_code16 n (256 * m (a + 15) + m (a + 23)) -> incr_of m a = n.
Proof.
  intros HM [Hn Hc]. unfold incr_of. pose proof (HM (a + 15)) as A. pose proof (HM (a + 23)) as B.
  unfold byte in A, B.
  rewrite <- (u2_code n Hn) at 1.
  assert (HX : unary2_encode n = 256 * m (a + 15) + m (a + 23)).
  { rewrite Hc. apply (proj1 C20_unary2_partial). exact Hn. }
  assert (u8 (Z.shiftr (unary2_encode n) 8) = m (a + 15) /\ u8 (unary2_encode n) = m (a + 23)) as [-> ->].
  { rewrite HX. rewrite Z.shiftr_div_pow2 by lia. change (2 ^ 8) with 256. unfold u8. lia. }
  reflexivity.
Qed.
Lemma incr_code m a n : 0 <= n <= 16 ->
  unary_code16 n (256 * applyw (unary_ws a n) m (a + 15) + applyw (unary_ws a n) m (a + 23)).
Proof.
  intros Hn. unfold unary_ws. cbn [applyw fold_left fst snd]. unfold upd.
  replace (a + 15 =? a + 15) with true by lia. replace (a + 23 =? a + 15) with false by lia.
  replace (a + 23 =? a + 23) with true by lia. rewrite Z.shiftr_div_pow2 by lia. change (2 ^ 8) with 256.
  destruct (proj1 (proj1 C20_unary2_partial n Hn)) as [_ HE]. split; [exact Hn|]. rewrite <- HE.
  pose proof (below_spec 17 (fun n => (0 <=? unary2_encode n) && (unary2_encode n <? 65536)) ltac:(vm_compute; reflexivity) n ltac:(lia)) as X.
  cbv beta in X. unfold u8. lia.
Qed.

Lemma row_holds_ext m m' a c : (forall q, a + 8 <= q < a + 24 -> m' q = m q) -> row_holds m a c -> row_holds m' a c.
Proof.
  intros H (HC & b & n & Hb & (P1 & P2) & (S1 & S2) & HU & HE & HW). split; [exact HC|]. exists b, n.
  split; [exact Hb|]. unfold copy_at. rewrite !H by lia.
  split; [split; [intros; rewrite H by lia; auto|auto]|].
  split; [split; [intros; rewrite H by lia; auto|auto]|]. auto.
Qed.
Lemma row_holds_views m a c : bytes_mem m -> row_holds m a c ->
  exists b n, is_ctr b /\ base_of m a = Some b /\ rdctr m (a + 8) = Some b /\ rdctr m (a + 16) = Some b /\
   incr_of m a = n /\ 0 <= n <= 16 /\ be c = be b + n /\
   be b mod 2 ^ 40 + n < 2 ^ 40 /\ last_of m a = Some c.
Proof.
  intros HM (HC & b & n & Hb & HP & HS & HU & HE & HW). exists b, n. pose proof Hb as [B6 BB].
  pose proof (copy_rdctr _ _ _ Hb HP) as RP. pose proof (copy_rdctr _ _ _ Hb HS) as RS.
  pose proof (code_incr _ _ _ HM HU) as HI. destruct HU as [Hn _].
  assert (HB : base_of m a = Some b) by (unfold base_of; rewrite RP; reflexivity).
  repeat (split; [assumption|]). unfold last_of. rewrite HB, HI.
  pose proof (is_ctr_range c HC) as RC.
  destruct (C09_add_partial b n B6 BB ltac:(unfold byte; lia)) as (ok & c' & EA & [(_ & -> & HE')|(Hx & _)]); [left; lia| |lia].
  destruct (C09_add_behaviour b n B6 BB ltac:(unfold byte; lia)) as (ok2 & c2 & EA2 & L2 & B2 & _).
  rewrite EA in EA2. apply some_pair_inj in EA2. destruct EA2 as [_ <-].
  rewrite EA. f_equal. apply is_ctr_inj; [split; assumption|exact HC|lia].
Qed.

Lemma unary_find_complete b new k : is_ctr b -> is_ctr new -> be new = be b + k -> k <= 16 ->
  be b mod 2 ^ 40 + 16 < 2 ^ 40 -> be b + 16 < 2 ^ 48 ->
  forall fuel incr, 0 <= incr <= k -> (Z.to_nat (k - incr) < fuel)%nat -> unary_find b new incr fuel = Some k.
Proof.
  intros [B6 BB] [N6 NB] HE Hk HW HM. induction fuel; intros incr Hi Hf; [lia|]. cbn [unary_find].
  replace (incr >? 16) with false by lia.
  destruct (C09_add_behaviour b incr B6 BB ltac:(unfold byte; lia)) as (ok & tot & EA & T6 & TB & _ & HA).
  destruct (HA ltac:(lia)) as [-> HT]. clear HA. rewrite EA.
  assert (HT' : be tot = be b + incr).
  { rewrite HT. rewrite Z.mod_small by (pose proof (Z.mod_pos_bound (be b) (2 ^ 40)); lia).
    pose proof (Z.div_mod (be b) (2 ^ 40)). lia. }
  destruct (C08_cmp_numeric tot new T6 N6 TB NB) as (r & -> & A & B & C).
  destruct (r =? 0) eqn:Er.
  - f_equal. lia.
  - apply IHfuel; lia.
Qed.

Lemma row_holds_plan m a c new : bytes_mem m -> row_holds m a c -> is_ctr new -> be c < be new -> be c + 16 < 2 ^ 48 ->
  exists ws, plan m a new = Some ws /\ row_holds (applyw ws m) a new.
Proof.
  intros HM HR HN Hlt Hmax. pose proof HN as [N6 NB].
  destruct (row_holds_views _ _ _ HM HR) as (b & n & Hb & EB & RP & RS & EI & Hn & HE & HW & _).
  pose proof Hb as [B6 BB]. unfold plan. rewrite EB, EI.
  pose proof (is_ctr_range b Hb) as RB. pose proof (is_ctr_range new HN) as RN.
  destruct (C09_add_behaviour b 16 B6 BB ltac:(unfold byte; lia)) as (ok & mx & EA & M6 & MB & _ & HA).
  destruct (HA ltac:(lia)) as [-> HX]. clear HA. rewrite EA.
  pose proof (Z.div_mod (be b) (2 ^ 40) ltac:(lia)) as HD. pose proof (Z.mod_pos_bound (be b) (2 ^ 40) ltac:(lia)) as HMod.
  destruct (Z_lt_dec (be b mod 2 ^ 40 + 16) (2 ^ 40)) as [Hno|Hwrap].
  - rewrite Z.mod_small in HX by lia. replace (be mx) with (be b + 16) by lia.
    destruct (be b + 16 >=? be new) eqn:EG.
    + rewrite (unary_find_complete b new (be new - be b)) by (auto; lia).
      eexists. split; [reflexivity|]. split; [exact HN|]. exists b, (be new - be b). split; [exact Hb|].
      assert (HO : forall q, q <> a + 15 -> q <> a + 23 -> applyw (unary_ws a (be new - be b)) m q = m q).
      { intros q H1 H2. apply applyw_other. intros w Hw. apply unary_ws_addr in Hw. lia. }
      destruct (rdctr_copy _ _ _ HM RP) as [P1 P2]. destruct (rdctr_copy _ _ _ HM RS) as [S1 S2].
      split; [split; [intros j Hj; rewrite HO by lia; auto|rewrite HO by lia; auto]|].
      split; [split; [intros j Hj; rewrite HO by lia; auto|rewrite HO by lia; auto]|].
      split; [apply incr_code; lia|]. split; [lia|]. lia.
    + eexists. split; [reflexivity|]. split; [exact HN|]. exists new, 0. split; [exact HN|].
      assert (HBM : bytes_mem (applyw (full_ws m a new) m)) by (apply applyw_bytes; [exact HM|intros w Hw; apply (full_ws_bytes m a new w HM NB Hw)]).
      split; [apply rdctr_copy; [exact HBM|apply rdctr_full_P; exact N6]|].
      split; [apply rdctr_copy; [exact HBM|apply rdctr_full_S; exact N6]|].
      destruct (full_unary m a new m) as [-> ->]. split; [split; [lia|reflexivity]|]. split; [lia|].
      pose proof (Z.mod_pos_bound (be new) (2 ^ 40)); lia.
  - assert (be mx < be new).
    { rewrite HX. pose proof (Z.mod_small (be b mod 2 ^ 40 + 16 - 2 ^ 40) (2 ^ 40) ltac:(lia)) as E.
      replace (be b mod 2 ^ 40 + 16) with (be b mod 2 ^ 40 + 16 - 2 ^ 40 + 1 * 2 ^ 40) by lia.
      rewrite Z.mod_add by lia. rewrite E. lia. }
    replace (be mx >=? be new) with false by lia.
    eexists. split; [reflexivity|]. split; [exact HN|]. exists new, 0. split; [exact HN|].
    assert (HBM : bytes_mem (applyw (full_ws m a new) m)) by (apply applyw_bytes; [exact HM|intros w Hw; apply (full_ws_bytes m a new w HM NB Hw)]).
    split; [apply rdctr_copy; [exact HBM|apply rdctr_full_P; exact N6]|].
    split; [apply rdctr_copy; [exact HBM|apply rdctr_full_S; exact N6]|].
    destruct (full_unary m a new m) as [-> ->]. split; [split; [lia|reflexivity]|]. split; [lia|].
    pose proof (Z.mod_pos_bound (be new) (2 ^ 40)); lia.
Qed.

Lemma holds_reads s id c : is_id id -> bytes_mem (mem s) -> holds (mem s) id c -> reads_back s id = Some c.
Proof.
  intros H8 HM (i & HR & HH). rewrite reads_back_eq by exact H8. unfold lookup_last.
  rewrite (row_for_row_of _ _ _ H8 HR). destruct (row_holds_views _ _ _ HM HH) as (b & n & _ & _ & _ & _ & _ & _ & _ & _ & HL).
  exact HL.
Qed.
Lemma row_for_meq m m' id i : is_id id -> row_of m' id = row_of m id -> row_for m id i -> row_for m' id i.
Proof.
  intros H8 HE HR. pose proof (row_for_row_of _ _ _ H8 HR) as E. rewrite <- HE in E.
  destruct (row_of_row_for _ _ _ H8 E) as (j & Hj & Hij). replace i with j by lia. exact Hj.
Qed.

(** *** A consistent counter: exactly the newer ones are accepted, and the
    store is consistent with the new counter afterwards. *)
Theorem C19_update_exact : forall id new c s f,
  is_id id -> is_ctr new -> bytes_mem (mem s) -> (18 <= f)%nat -> holds (mem s) id c -> be c + 16 < 2 ^ 48 ->
  reads_back s id = Some c /\
  exists s' f', authAndUpdateRXMsgCtr id new s f = (s', Some (be c <? be new, f')) /\ bytes_mem (mem s') /\
    (be c < be new -> holds (mem s') id new /\ reads_back s' id = Some new) /\
    (be new <= be c -> forall q, mem s' q = mem s q) /\
    (forall id' c', is_id id' -> id' <> id -> holds (mem s) id' c' -> holds (mem s') id' c') /\
    ids (mem s') = ids (mem s).
Proof.
  intros id new c s f H8 HC HB Hf HH Hmax. pose proof (holds_reads s id c H8 HB HH) as HRB.
  split; [exact HRB|]. pose proof HC as [H6 HN].
  destruct (auth_effect id new s f H8 HC HB Hf) as (s' & f' & E & _ & Hm).
  destruct HH as (i & HR & HH). pose proof (row_for_row_of _ _ _ H8 HR) as ER.
  assert (HS : 0 <= i < 8).
  { destruct (row_of_spec _ _ _ H8 ER) as (j & Hj & Hij & _). lia. }
  unfold auth_plan, newer in *. rewrite reads_back_eq in HRB by exact H8. rewrite HRB, ER in *.
  destruct (be new >? be c) eqn:EN.
  - destruct (row_holds_plan _ _ _ _ HB HH HC ltac:(lia) Hmax) as (ws & EP & HH').
    rewrite EP in *. replace (be c <? be new) with true by lia.
    exists s', f'. split; [exact E|].
    assert (HB' : bytes_mem (mem s')).
    { intros q. rewrite Hm. revert q. apply applyw_bytes; [exact HB|]. eapply plan_bytes; eauto. }
    pose proof (plan_within _ _ _ _ H6 EP) as HW.
    pose proof (within_ids _ _ _ ws i eq_refl HW Hm) as HO.
    assert (HH2 : holds (mem s') id new).
    { exists i. split.
      - apply (row_for_meq (mem s)); auto. eapply within_row_of; eauto.
      - eapply row_holds_ext; [|exact HH']. intros q Hq. apply Hm. }
    split; [exact HB'|]. split; [intros _; split; [exact HH2|apply holds_reads; auto]|]. split; [lia|]. split.
    + intros id' c' H8' Hne (j & HRj & HHj). exists j. split.
      * apply (row_for_meq (mem s)); auto. eapply within_row_of; eauto.
      * eapply row_holds_ext; [|exact HHj]. intros q Hq.
        pose proof (rows_differ _ id id' _ _ H8 H8' (not_eq_sym Hne) ER (row_for_row_of _ _ _ H8' HRj)).
        apply HO. lia.
    + apply ids_table. intros r q Hr Hq. apply HO. lia.
  - replace (be c <? be new) with false by lia. exists s', f'. split; [exact E|].
    split; [eapply RxCtrNormal.bytes_meq; eauto|]. split; [lia|]. split; [intros _; exact Hm|]. split.
    + intros id' c' H8' Hne (j & HRj & HHj). exists j. split.
      * apply (row_for_meq (mem s)); auto. apply row_of_meq. exact Hm.
      * eapply row_holds_ext; [|exact HHj]. intros q Hq. apply Hm.
    + apply ids_table. intros r q Hr Hq. apply Hm.
Qed.

(** *** Histories: any interleaving of counters presented for any nodes. *)
Fixpoint present (s : EE) (l : list (list Z * list Z)) : option (list bool * EE) :=
  match l with
  | [] => Some ([], s)
  | (id, c) :: r =>
    match authAndUpdateRXMsgCtr id c s 18%nat with
    | (s', Some (ok, _)) => match present s' r with Some (oks, s2) => Some (ok :: oks, s2) | None => None end
    | (_, None) => None
    end
  end.
(** The specification: a node's counter is accepted exactly if it exceeds
    the node's last one, which it then becomes. *)
Definition set_last (t : list Z -> option Z) (id : list Z) (v : Z) : list Z -> option Z :=
  fun x => if list_eqb x id then Some v else t x.
Fixpoint spec_run (t : list Z -> option Z) (l : list (list Z * list Z)) : list bool * (list Z -> option Z) :=
  match l with
  | [] => ([], t)
  | (id, c) :: r =>
    match t id with
    | Some v => if v <? be c then let (oks, t2) := spec_run (set_last t id (be c)) r in (true :: oks, t2)
                else let (oks, t2) := spec_run t r in (false :: oks, t2)
    | None => let (oks, t2) := spec_run t r in (false :: oks, t2)
    end
  end.
(** The store represents table [t]. *)
Definition stores (s : EE) (t : list Z -> option Z) : Prop :=
  bytes_mem (mem s) /\
  forall id, is_id id ->
    match t id with
    | Some v => v + 16 < 2 ^ 48 /\ exists c, be c = v /\ holds (mem s) id c
    | None => ~ In id (ids (mem s))
    end.

Lemma absent_none m id : is_id id -> ~ In id (ids m) -> row_of m id = None.
Proof.
  intros H8 HN. destruct (row_of m id) as [a|] eqn:E; [|reflexivity].
  destruct (row_of_row_for _ _ _ H8 E) as (i & (_ & H & _) & _). apply nth_error_In in H. tauto.
Qed.
Theorem C19_history : forall l s t, stores s t ->
  (forall id c, In (id, c) l -> is_id id /\ is_ctr c /\ be c + 16 < 2 ^ 48) ->
  exists s', present s l = Some (fst (spec_run t l), s') /\ stores s' (snd (spec_run t l)).
Proof.
  induction l as [|[id c] l IH]; intros s t HS HL; cbn [present spec_run fst snd]; [exists s; auto|].
  destruct (HL id c (or_introl eq_refl)) as (H8 & HC & Hmax).
  assert (HL' : forall id c, In (id, c) l -> is_id id /\ is_ctr c /\ be c + 16 < 2 ^ 48) by (intros; apply HL; right; auto).
  destruct HS as [HB HS]. pose proof (HS id H8) as HT. destruct (t id) as [v|] eqn:ET.
  - destruct HT as (Hv & c0 & <- & HH).
    destruct (C19_update_exact id c c0 s 18 H8 HC HB ltac:(lia) HH Hv) as (_ & s' & f' & E & HB' & H1 & H2 & H3 & H4).
    rewrite E. destruct (be c0 <? be c) eqn:EL.
    + assert (HS' : stores s' (set_last t id (be c))).
      { split; [exact HB'|]. intros x Hx. unfold set_last. destruct (list_eqb x id) eqn:EX.
        - apply list_eqb_eq in EX. subst x. split; [exact Hmax|]. exists c. split; [reflexivity|]. apply H1. lia.
        - assert (x <> id) by (intros ->; rewrite (proj2 (list_eqb_eq id id) eq_refl) in EX; discriminate).
          specialize (HS x Hx). destruct (t x) as [w|]; [|rewrite H4; exact HS].
          destruct HS as (A & c1 & B & C). split; [exact A|]. exists c1. split; [exact B|]. apply H3; auto. }
      destruct (IH s' _ HS' HL') as (s2 & E2 & HS2). destruct (spec_run (set_last t id (be c)) l) as [oks t2].
      rewrite E2. exists s2. auto.
    + assert (HS' : stores s' t).
      { split; [exact HB'|]. intros x Hx. specialize (HS x Hx). specialize (H2 ltac:(lia)).
        destruct (t x) as [w|]; [|rewrite H4; exact HS].
        destruct HS as (A & c1 & B & (j & C & D)). split; [exact A|]. exists c1. split; [exact B|]. exists j. split.
        - apply (row_for_meq (mem s)); auto. apply row_of_meq. exact H2.
        - eapply row_holds_ext; [|exact D]. intros; apply H2. }
      destruct (IH s' _ HS' HL') as (s2 & E2 & HS2). destruct (spec_run t l) as [oks t2].
      rewrite E2. exists s2. auto.
  - destruct (auth_effect id c s 18 H8 HC HB ltac:(lia)) as (s' & f' & E & _ & Hm).
    unfold auth_plan, newer, lookup_last in *. rewrite (absent_none _ _ H8 HT) in *. rewrite E.
    assert (HS' : stores s' t).
    { split; [eapply RxCtrNormal.bytes_meq; eauto|]. intros x Hx. specialize (HS x Hx).
      assert (HI : ids (mem s') = ids (mem s)) by (apply ids_table; intros; apply Hm).
      destruct (t x) as [w|]; [|rewrite HI; exact HS].
      destruct HS as (A & c1 & B & (j & C & D)). split; [exact A|]. exists c1. split; [exact B|]. exists j. split.
      - apply (row_for_meq (mem s)); auto. apply row_of_meq. exact Hm.
      - eapply row_holds_ext; [|exact D]. intros; apply Hm. }
    destruct (IH s' _ HS' HL') as (s2 & E2 & HS2). destruct (spec_run t l) as [oks t2].
    rewrite E2. exists s2. auto.
Qed.

(** *** A newly added node starts at counter 0. *)
Theorem C19_new_node : forall id s f, is_id id -> znth id 0 <> 255 -> Forall byte id -> bytes_mem (mem s) ->
  compact (mem s) -> ~ In id (ids (mem s)) -> Zlen (ids (mem s)) < 8 -> (32 <= f)%nat ->
  exists s' r f', addNodeAssociation id s f = (s', Some (r, f')) /\ holds (mem s') id [0; 0; 0; 0; 0; 0].
Proof.
  intros id s f H8 H0 HBid HB HC HNin Hlen Hf.
  destruct (C22_add id s f H8 H0 HC Hf) as (s' & r & f' & E & HC' & _ & H2).
  destruct (H2 Hlen) as (-> & HI & HE & _). exists s', (Zlen (ids (mem s))), f'. split; [exact E|].
  set (n := Zlen (ids (mem s))) in *. pose proof (Zlen_nonneg (ids (mem s))) as Hn0. fold n in Hn0.
  exists n. split.
  - split; [exact Hn0|]. rewrite HI. unfold n, Zlen. rewrite Nat2Z.id. split.
    + rewrite nth_error_app2 by lia. rewrite Nat.sub_diag. reflexivity.
    + intros j Hj HX. rewrite nth_error_app1 in HX by lia. apply nth_error_In in HX. tauto.
  - assert (Hz : is_ctr [0; 0; 0; 0; 0; 0]).
    { split; [reflexivity|]. repeat (constructor; [unfold byte; lia|]). constructor. }
    split; [exact Hz|]. exists [0; 0; 0; 0; 0; 0], 0. split; [exact Hz|].
    assert (HCp : forall o, o = 8 \/ o = 16 -> copy_at (mem s') (768 + 32 * n + o) [0; 0; 0; 0; 0; 0]).
    { intros o Ho. split.
      - intros j Hj. rewrite HE by lia. assert (j = 0 \/ j = 1 \/ j = 2 \/ j = 3 \/ j = 4 \/ j = 5) as Hjj by lia.
        repeat destruct Hjj as [-> | Hjj]; try (subst j); reflexivity.
      - rewrite HE by lia. reflexivity. }
    split; [apply HCp; auto|]. split; [apply HCp; auto|]. rewrite !HE by lia.
    split; [split; [lia|reflexivity]|]. split; [reflexivity|reflexivity].
Qed.
