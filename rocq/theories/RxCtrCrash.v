(** C17, C18: the receive counter store under power failures. *)
From Verif Require Import Base CrcModel CrcSpec CrcLin CrcProofs SecureModel SecureProps EepromModel EepromProofs EepromProps AssocProps TxCtrModel TxCtrProofs RxCtrModel RxCtrProofs RxCtrNormal RxCtrProps.
#[local] Opaque crc7_run crc7_5B_update.

(** The counter can be advanced by 255 without carrying out of its low 40 bits. *)
Definition no_carry (c : list Z) : Prop := be c mod 2 ^ 40 + 255 < 2 ^ 40.

(** A row that reads as [c] = base + unary part. *)
Definition reads (m : Z -> Z) (a : Z) (c : list Z) : Prop :=
  is_ctr c /\ exists b n, is_ctr b /\ base_of m a = Some b /\ incr_of m a = n /\ be c = be b + n /\ last_of m a = Some c.

Lemma reads_ext m m' a c : (forall q, a + 8 <= q < a + 24 -> m' q = m q) -> reads m a c -> reads m' a c.
Proof.
  intros H (HC & b & n & H1 & H2 & H3 & H4 & H5). split; [exact HC|]. exists b, n.
  rewrite (base_ext m' m a H), (incr_ext m' m a H), (last_ext m' m a H). auto.
Qed.
Lemma row_holds_reads m a c : bytes_mem m -> row_holds m a c -> reads m a c.
Proof.
  intros HM HR. destruct (row_holds_views _ _ _ HM HR) as (b & n & H1 & H2 & _ & _ & H3 & _ & H4 & _ & H5).
  destruct HR as [HC _]. split; [exact HC|]. exists b, n. auto.
Qed.
(** base + unary part, when that does not carry. *)
Lemma reads_intro m a b n : is_ctr b -> base_of m a = Some b -> incr_of m a = n ->
  be b mod 2 ^ 40 + n < 2 ^ 40 -> be b + n < 2 ^ 48 -> exists c, reads m a c /\ be c = be b + n.
Proof.
  intros Hb HB HI HW HM. pose proof Hb as [B6 BB].
  assert (Hn : byte n) by (rewrite <- HI; apply incr_byte).
  destruct (C09_add_partial b n B6 BB Hn) as (ok & c & EA & [(_ & -> & HE)|(Hx & _)]); [left; exact HW| |lia].
  destruct (C09_add_behaviour b n B6 BB Hn) as (ok2 & c2 & EA2 & L2 & B2 & _).
  rewrite EA in EA2. apply some_pair_inj in EA2. destruct EA2 as [_ <-].
  exists c. split; [|exact HE]. split; [split; assumption|]. exists b, n. repeat (split; [assumption|]).
  unfold last_of. rewrite HB, HI, EA. reflexivity.
Qed.
Lemma no_carry_max c : is_ctr c -> no_carry c -> be c + 255 < 2 ^ 48.
Proof.
  intros HC H. pose proof (is_ctr_range c HC) as R. unfold no_carry in H.
  change (2 ^ 48) with (256 * 2 ^ 40) in *. lia.
Qed.

(** ** Unary bytes half way *)
Lemma unary_half n n' : 0 <= n <= n' -> n' <= 16 ->
  let hi := u8 (Z.shiftr (unary2_encode n) 8) in let lo := u8 (unary2_encode n') in
  n <= u8 (unary2_decode hi lo) <= n'.
Proof.
  intros H1 H2. pose proof (below2_spec 17 17 (fun n n' => (n' <? n) ||
     (let d := u8 (unary2_decode (u8 (Z.shiftr (unary2_encode n) 8)) (u8 (unary2_encode n'))) in
      (n <=? d) && (d <=? n'))) ltac:(vm_compute; reflexivity) n n' ltac:(lia) ltac:(lia)) as H.
  cbv beta in H. cbv zeta in *. lia.
Qed.
Lemma code_bytes m a n : bytes_mem m -> unary_code16 n (256 * m (a + 15) + m (a + 23)) ->
  m (a + 15) = u8 (Z.shiftr (unary2_encode n) 8) /\ m (a + 23) = u8 (unary2_encode n).
Proof.
  intros HM [Hn Hc]. pose proof (HM (a + 15)) as A. pose proof (HM (a + 23)) as B. unfold byte in A, B.
  destruct (proj1 (proj1 C20_unary2_partial n Hn)) as [_ HX]. rewrite <- Hc in HX. rewrite HX.
  rewrite Z.shiftr_div_pow2 by lia. change (2 ^ 8) with 256. unfold u8. lia.
Qed.
Lemma unary_half_code n n' : 0 <= n <= n' -> n' <= 16 ->
  exists d, n <= d <= n' /\
  unary_code16 d (256 * u8 (Z.shiftr (unary2_encode n) 8) + u8 (unary2_encode n')).
Proof.
  intros H1 H2. set (hi := u8 (Z.shiftr (unary2_encode n) 8)). set (lo := u8 (unary2_encode n')).
  exists (if n' <=? 8 then n' else if n <=? 8 then 8 else n).
  pose proof (below2_spec 17 17 (fun n n' => (n' <? n) ||
     (let d := (if n' <=? 8 then n' else if n <=? 8 then 8 else n) in 
      (n <=? d) && (d <=? n') && (256 * u8 (Z.shiftr (unary2_encode n) 8) + u8 (unary2_encode n') =? 65536 - 2 ^ d)))
      ltac:(vm_compute; reflexivity) n n' ltac:(lia) ltac:(lia)) as H.
  cbv beta zeta in H. fold hi lo in H. split; [lia|]. split; lia.
Qed.
Lemma incr_erased m a : m (a + 23) = 255 -> bytes_mem m -> (m (a + 15) = 255 /\ incr_of m a = 0) \/ incr_of m a = 255.
Proof.
  intros H HM. unfold incr_of. rewrite H. unfold unary2_decode. destruct (255 =? m (a + 15)) eqn:E.
  - left. split; [lia|reflexivity].
  - right. reflexivity.
Qed.

(** ** An interrupted update of a consistent row *)
Lemma firstn_app_case {A} k (l1 l2 : list A) :
  ((k <= length l1)%nat /\ firstn k (l1 ++ l2) = firstn k l1) \/
  ((length l1 < k)%nat /\ firstn k (l1 ++ l2) = l1 ++ firstn (k - length l1) l2).
Proof.
  rewrite firstn_app. destruct (Nat.le_gt_cases k (length l1)) as [H|H].
  - left. split; [exact H|]. replace (k - length l1)%nat with 0%nat by lia. rewrite firstn_O, app_nil_r. reflexivity.
  - right. split; [exact H|]. rewrite firstn_all2 by lia. reflexivity.
Qed.

Lemma full_prefix_reads m a c new k : bytes_mem m -> row_holds m a c -> is_ctr new -> be c < be new -> no_carry new ->
  exists c', reads (applyw (firstn k (full_ws m a new)) m) a c' /\ be c <= be c' <= be new + 255.
Proof.
  intros HM HR HN Hlt HNC. pose proof HN as [N6 NB]. pose proof (no_carry_max _ HN HNC) as Hmax.
  pose proof (row_holds_views _ _ _ HM HR) as (b & n & Hb & EB & RP & RS & EI & Hn & HE & HW & _).
  pose proof HR as [HC _].
  set (m' := applyw (firstn k (full_ws m a new)) m).
  assert (HM' : bytes_mem m').
  { apply applyw_bytes; [exact HM|]. intros w Hw. apply (full_ws_bytes m a new w HM NB).
    rewrite <- (firstn_skipn k (full_ws m a new)). apply in_or_app. auto. }
  assert (HNEW : forall j, base_of m' a = Some new -> incr_of m' a = j -> 0 <= j <= 255 ->
            exists c', reads m' a c' /\ be c <= be c' <= be new + 255).
  { intros j E1 E2 Hj. destruct (reads_intro m' a new j HN E1 E2) as (c' & H1 & H2); [unfold no_carry in HNC; lia|lia|].
    exists c'. split; [exact H1|]. lia. }
  assert (HU : u8 (unary2_decode (m (a + 15)) (m (a + 23))) = n) by exact EI.
  unfold full_ws in m'. 
  destruct (firstn_app_case k (upd_ws m (a + 8) new) (upd_ws m (a + 16) new ++ [(a + 23, 255); (a + 15, 255)]))
    as [[Hk EF]|[Hk EF]]; rewrite upd_ws_len in Hk by exact N6; unfold m' in *; rewrite EF in *; clear EF.
  - (* during or just after the primary copy *)
    assert (HO : forall q, (q < a + 8 \/ a + 15 <= q) -> applyw (firstn k (upd_ws m (a + 8) new)) m q = m q).
    { intros q Hq. apply applyw_other. intros w Hw.
      assert (Hw' : In w (upd_ws m (a + 8) new)) by (rewrite <- (firstn_skipn k (upd_ws m (a + 8) new)); apply in_or_app; auto).
      apply upd_ws_other in Hw'; auto. lia. }
    assert (EI' : incr_of (applyw (firstn k (upd_ws m (a + 8) new)) m) a = n).
    { unfold incr_of. rewrite !HO by lia. exact HU. }
    destruct k as [|k].
    + (* nothing done *)
      exists c. split; [apply row_holds_reads; [exact HM|exact HR]|]. lia.
    + destruct (Nat.eq_dec (S k) 8) as [E8|E8].
      * apply (HNEW n); [|exact EI'|lia]. unfold base_of. rewrite firstn_all2 by (rewrite upd_ws_len by exact N6; lia).
        rewrite rdctr_upd by exact N6. reflexivity.
      * exists c. split; [|lia].
        assert (base_of (applyw (firstn (S k) (upd_ws m (a + 8) new)) m) a = Some b) as EB'.
        { unfold base_of. rewrite rdctr_upd_partial by (auto; lia).
          rewrite (rdctr_ext _ m (a + 16)); [exact RS|]. intros q Hq. apply HO. lia. }
        destruct (reads_intro _ a b n Hb EB' EI') as (c' & H1 & H2); [exact HW|pose proof (is_ctr_range c HC); lia|].
        replace c with c'; [exact H1|]. apply is_ctr_inj; [apply H1|exact HC|lia].
  - rewrite upd_ws_len in * by exact N6. rewrite applyw_app in *.
    set (m1 := applyw (upd_ws m (a + 8) new) m) in *.
    assert (RP1 : rdctr m1 (a + 8) = Some new) by (apply rdctr_upd; exact N6).
    assert (HO1 : forall q, (q < a + 8 \/ a + 15 <= q) -> m1 q = m q).
    { intros q Hq. apply applyw_other. intros w Hw. apply upd_ws_other in Hw; auto. lia. }
    destruct (firstn_app_case (k - 8) (upd_ws m (a + 16) new) [(a + 23, 255); (a + 15, 255)])
      as [[Hk2 EF]|[Hk2 EF]]; rewrite upd_ws_len in Hk2 by exact N6; rewrite EF in *; clear EF.
    + (* during or just after the secondary copy *)
      assert (HO2 : forall q, (q < a + 16 \/ a + 23 <= q) -> applyw (firstn (k - 8) (upd_ws m (a + 16) new)) m1 q = m1 q).
      { intros q Hq. apply applyw_other. intros w Hw.
        assert (Hw' : In w (upd_ws m (a + 16) new)) by (rewrite <- (firstn_skipn (k - 8) (upd_ws m (a + 16) new)); apply in_or_app; auto).
        apply upd_ws_other in Hw'; auto. lia. }
      apply (HNEW n); [| |lia].
      * unfold base_of. rewrite (rdctr_ext _ m1 (a + 8)) by (intros q Hq; apply HO2; lia). rewrite RP1. reflexivity.
      * unfold incr_of. rewrite !HO2, !HO1 by lia. exact HU.
    + (* erasing the unary bytes *)
      rewrite upd_ws_len in * by exact N6. rewrite applyw_app in *.
      set (m2 := applyw (upd_ws m (a + 16) new) m1) in *.
      assert (HO2 : forall q, (q < a + 16 \/ a + 23 <= q) -> m2 q = m1 q).
      { intros q Hq. apply applyw_other. intros w Hw. apply upd_ws_other in Hw; auto. lia. }
      set (ws := firstn (k - 8 - 8) [(a + 23, 255); (a + 15, 255)]) in *.
      assert (Hws : forall w, In w ws -> fst w = a + 23 \/ fst w = a + 15).
      { intros w Hw. assert (Hw' : In w [(a + 23, 255); (a + 15, 255)]).
        { rewrite <- (firstn_skipn (k - 8 - 8)). apply in_or_app. left. exact Hw. }
        destruct Hw' as [<-|[<-|[]]]; cbn [fst]; auto. }
      assert (E23 : applyw ws m2 (a + 23) = 255).
      { unfold ws. destruct (k - 8 - 8)%nat as [|k2] eqn:Ek; [lia|]. cbn [firstn].
        destruct k2 as [|k2].
        - cbn [firstn applyw fold_left fst snd]. unfold upd. rewrite Z.eqb_refl. reflexivity.
        - cbn [firstn]. rewrite firstn_nil. cbn [applyw fold_left fst snd]. unfold upd.
          replace (a + 23 =? a + 15) with false by lia. rewrite Z.eqb_refl. reflexivity. }
      assert (EB' : base_of (applyw ws m2) a = Some new).
      { unfold base_of. rewrite (rdctr_ext _ m1 (a + 8)); [rewrite RP1; reflexivity|].
        intros q Hq. rewrite applyw_other; [apply HO2; lia|]. intros w Hw. apply Hws in Hw. lia. }
      destruct (incr_erased _ a E23 HM') as [[_ E0]|E255].
      * apply (HNEW 0); auto. lia.
      * apply (HNEW 255); auto. lia.
Qed.

Lemma unary_prefix_holds m a c new k ws : bytes_mem m -> row_holds m a c -> is_ctr new -> be c < be new ->
  plan m a new = Some ws -> ws <> full_ws m a new ->
  exists c', row_holds (applyw (firstn k ws) m) a c' /\ be c <= be c' <= be new.
Proof.
  intros HM HR HN Hlt EP Hne. pose proof HN as [N6 NB]. pose proof HR as [HC _].
  pose proof (row_holds_views _ _ _ HM HR) as (b & n & Hb & EB & RP & RS & EI & Hn & HE & HW & _).
  pose proof Hb as [B6 BB].
  unfold plan in EP. rewrite EB, EI in EP.
  destruct (C09_add_behaviour b 16 B6 BB ltac:(unfold byte; lia)) as (ok & mx & EA & M6 & MB & _ & HA).
  rewrite EA in EP. destruct ok; [|discriminate].
  destruct (be mx >=? be new) eqn:EG; [|apply some_inj in EP; subst ws; tauto].
  destruct (unary_find b new n 17) as [n'|] eqn:EU; [|discriminate]. apply some_inj in EP. subst ws.
  apply unary_find_sound in EU; auto; [|lia]. destruct EU as [Hn' EA'].
  destruct (C09_add_behaviour b n' B6 BB ltac:(unfold byte; lia)) as (ok' & c2 & EA2 & _ & _ & H48 & HA2).
  rewrite EA' in EA2. apply some_pair_inj in EA2. destruct EA2 as [<- <-].
  assert (HB48 : be b + n' < 2 ^ 48) by (destruct (Z_lt_dec (be b + n') (2 ^ 48)); [assumption|destruct H48; [lia|discriminate]]).
  destruct (HA2 HB48) as [_ HNew]. clear HA2 HA H48.
  pose proof (Z.div_mod (be b) (2 ^ 40) ltac:(lia)) as HD. pose proof (Z.mod_pos_bound (be b) (2 ^ 40) ltac:(lia)) as HMod.
  (* the sum did not carry, since new > c >= b *)
  assert (HNoW : be b mod 2 ^ 40 + n' < 2 ^ 40).
  { destruct (Z_lt_dec (be b mod 2 ^ 40 + n') (2 ^ 40)) as [|Hge]; [assumption|exfalso].
    replace (be b mod 2 ^ 40 + n') with (be b mod 2 ^ 40 + n' - 2 ^ 40 + 1 * 2 ^ 40) in HNew by lia.
    rewrite Z.mod_add in HNew by lia. rewrite Z.mod_small in HNew by lia. lia. }
  rewrite Z.mod_small in HNew by lia. assert (HNew' : be new = be b + n') by lia. clear HNew.
  pose proof HR as (_ & b2 & n2 & Hb2 & HP & HS & HU & HE2 & HW2).
  assert (b2 = b) by (pose proof (copy_rdctr _ _ _ Hb2 HP) as X; rewrite RP in X; apply some_inj in X; auto). subst b2.
  assert (n2 = n) by (pose proof (code_incr _ _ _ HM HU); lia). subst n2.
  destruct (code_bytes _ _ _ HM HU) as [HV15 HV23].
  assert (HMid : forall m' d, (forall q, q <> a + 15 -> q <> a + 23 -> m' q = m q) ->
      unary_code16 d (256 * m' (a + 15) + m' (a + 23)) -> n <= d <= n' ->
      exists c', row_holds m' a c' /\ be c <= be c' <= be new).
  { intros m' d HO HD' Hd.
    destruct (C09_add_partial b d B6 BB ltac:(unfold byte; lia)) as (ok & c' & EA3 & [(_ & -> & HE3)|(Hx & _)]); [left; lia| |lia].
    destruct (C09_add_behaviour b d B6 BB ltac:(unfold byte; lia)) as (ok2 & c3 & EA4 & L3 & B3 & _).
    rewrite EA3 in EA4. apply some_pair_inj in EA4. destruct EA4 as [_ <-].
    exists c'. split; [|lia]. split; [split; assumption|]. exists b, d. split; [exact Hb|].
    destruct HP as [P1 P2], HS as [S1 S2].
    split; [split; [intros j Hj; rewrite HO by lia; auto|rewrite HO by lia; auto]|].
    split; [split; [intros j Hj; rewrite HO by lia; auto|rewrite HO by lia; auto]|].
    split; [exact HD'|]. lia. }
  destruct k as [|[|k]].
  - exists c. split; [exact HR|lia].
  - destruct (unary_half_code n n' ltac:(lia) ltac:(lia)) as (d & Hd & HCd).
    apply (HMid _ d); [| |lia].
    + intros q H1 H2. apply applyw_other. intros w [<-|[]]. cbn [fst]. lia.
    + unfold unary_ws. cbn [firstn applyw fold_left fst snd]. unfold upd.
      replace (a + 15 =? a + 23) with false by lia. rewrite Z.eqb_refl, HV15. exact HCd.
  - apply (HMid _ n'); [| |lia].
    + intros q H1 H2. rewrite firstn_all2 by (simpl; lia). apply applyw_other. intros w Hw. apply unary_ws_addr in Hw. lia.
    + rewrite firstn_all2 by (simpl; lia). apply incr_code. lia.
Qed.

Lemma plan_prefix_reads m a c new k ws : bytes_mem m -> row_holds m a c -> is_ctr new -> be c < be new -> no_carry new ->
  plan m a new = Some ws ->
  exists c', reads (applyw (firstn k ws) m) a c' /\ be c <= be c' <= be new + 255.
Proof.
  intros HM HR HN Hlt HNC EP. pose proof HN as [N6 NB].
  assert (HD : ws = full_ws m a new \/ ws <> full_ws m a new).
  { unfold plan in EP. destruct (base_of m a); [|discriminate].
    destruct (msgcounteradd _ _) as [[[|] mx]|]; try discriminate.
    destruct (_ >=? _); [|apply some_inj in EP; auto].
    destruct (unary_find _ _ _ _); [|discriminate]. apply some_inj in EP. subst ws. right. intros HX.
    apply (f_equal (@length _)) in HX. unfold full_ws in HX. rewrite !app_length, !upd_ws_len in HX by exact N6.
    simpl in HX. lia. }
  destruct HD as [-> | HD]; [apply full_prefix_reads; auto|].
  destruct (unary_prefix_holds m a c new k ws HM HR HN Hlt EP HD) as (c' & H1 & H2).
  exists c'. split; [|lia]. apply row_holds_reads; [|exact H1].
  apply applyw_bytes; [exact HM|]. intros w Hw. apply (plan_bytes m a new ws HM NB EP w).
  rewrite <- (firstn_skipn k ws). apply in_or_app. auto.
Qed.

(** An interrupted request: which writes were made. *)
Lemma auth_crash id new s f s' : is_id id -> is_ctr new -> bytes_mem (mem s) ->
  authAndUpdateRXMsgCtr id new s f = (s', None) ->
  exists a ws k, row_of (mem s) id = Some a /\ plan (mem s) a new = Some ws /\
    newer (mem s) id new = true /\ meq (mem s') (applyw (firstn k ws) (mem s)).
Proof.
  intros H8 [H6 HN] HB E. pose proof (does_auth id new s H8 H6 HN HB f) as [(s2 & k & E2 & Hf & _ & Hm)|(s2 & f' & E2 & _)];
    rewrite E in E2; [|discriminate]. apply pair_inj in E2. destruct E2 as [<- _].
  unfold auth_plan in *. destruct (newer (mem s) id new) eqn:EN; [|simpl in Hf; lia].
  destruct (row_of (mem s) id) as [a|]; [|simpl in Hf; lia].
  destruct (plan (mem s) a new) as [ws|] eqn:EP; [|simpl in Hf; lia]. exists a, ws, k. auto.
Qed.
Lemma within_firstn a ws k : within a ws -> within a (firstn k ws).
Proof. intros H w Hw. apply H. rewrite <- (firstn_skipn k ws). apply in_or_app. auto. Qed.

(** ** C17 *)
(** Full claim: after one interrupted update of a consistent counter, the
    counter reads back as at least the old value, or not at all.
    Proved for new counters whose low 40 bits are not within 255 of carrying. *)
Theorem C17_one_power_failure_partial : forall id new c s f s',
  is_id id -> is_ctr new -> no_carry new -> bytes_mem (mem s) -> holds (mem s) id c ->
  authAndUpdateRXMsgCtr id new s f = (s', None) ->
  be c < be new /\
  (exists c', reads_back s' id = Some c' /\ be c <= be c' <= be new + 255) /\
  (forall id', is_id id' -> id' <> id -> reads_back s' id' = reads_back s id').
Proof.
  intros id new c s f s' H8 HN HNC HB (i & HR & HH) E.
  destruct (auth_crash _ _ _ _ _ H8 HN HB E) as (a & ws & k & ER & EP & EN & Hm).
  pose proof (row_for_row_of _ _ _ H8 HR) as ER2. rewrite ER in ER2. apply some_inj in ER2. subst a.
  assert (Hlt : be c < be new).
  { unfold newer, lookup_last in EN. rewrite ER in EN.
    destruct (row_holds_views _ _ _ HB HH) as (b & n & _ & _ & _ & _ & _ & _ & _ & _ & HL). rewrite HL in EN. lia. }
  split; [exact Hlt|].
  pose proof (within_firstn _ _ k (plan_within _ _ _ _ (proj1 HN) EP)) as HW.
  split.
  - destruct (plan_prefix_reads _ _ _ _ k _ HB HH HN Hlt HNC EP) as (c' & (HC' & b & n & _ & _ & _ & _ & HL) & Hc').
    exists c'. split; [|exact Hc']. rewrite reads_back_eq by exact H8. unfold lookup_last.
    rewrite (within_row_of _ _ _ _ i id eq_refl HW Hm), ER.
    rewrite (last_ext (mem s') (applyw (firstn k ws) (mem s))) by (intros; apply Hm). exact HL.
  - intros id' H8' Hne. rewrite !reads_back_eq by assumption. eapply within_other with (id := id); eauto.
Qed.

(** A memory with one association whose row holds base [b] and unary [hi] [lo]. *)
Definition one_node (id b : list Z) (hi lo : Z) : EE :=
  mkEE (applyw (at_addr 768 (id ++ map inv8 b ++ [inv8 (crc7_run 0 b); hi] ++ map inv8 b ++ [inv8 (crc7_run 0 b); lo]))
          (fun _ => 255)) [].
Definition nodeA : list Z := [128; 129; 130; 131; 132; 133; 134; 135].
#[local] Transparent crc7_run crc7_5B_update.

(** The part excluded is false: the stored counter 1 (base 0 + 1); an update to
    2^40-1 is interrupted just after the first copy has been written; the
    counter then reads as 0, and message 1 is accepted a second time. *)
Theorem C17_one_power_failure_refuted :
  let s := one_node nodeA [0; 0; 0; 0; 0; 0] 255 254 in
  let new := [0; 255; 255; 255; 255; 255] in
  holds (mem s) nodeA [0; 0; 0; 0; 0; 1] /\ bytes_mem (mem s) /\
  exists s', authAndUpdateRXMsgCtr nodeA new s 7%nat = (s', None) /\
    reads_back s' nodeA = Some [0; 0; 0; 0; 0; 0] /\
    exists s2 f, authAndUpdateRXMsgCtr nodeA [0; 0; 0; 0; 0; 1] s' 18%nat = (s2, Some (true, f)).
Proof.
  cbv zeta. split; [|split].
  - exists 0. split.
    + split; [lia|]. split; [vm_compute; reflexivity|]. intros j Hj. lia.
    + assert (H0 : forall x, byte x -> is_ctr [0; 0; 0; 0; 0; x]).
      { intros x Hx. split; [reflexivity|]. repeat (constructor; [first [exact Hx|unfold byte; lia]|]). constructor. }
      split; [apply H0; unfold byte; lia|]. exists [0; 0; 0; 0; 0; 0], 1. split; [apply H0; unfold byte; lia|].
      assert (HJ : forall (P : Z -> Prop), P 0 -> P 1 -> P 2 -> P 3 -> P 4 -> P 5 -> forall j, 0 <= j < 6 -> P j).
      { intros P ? ? ? ? ? ? j Hj. assert (j = 0 \/ j = 1 \/ j = 2 \/ j = 3 \/ j = 4 \/ j = 5) as HH by lia.
        repeat destruct HH as [-> | HH]; auto. subst; auto. }
      split; [split; [apply HJ; vm_compute; reflexivity|vm_compute; reflexivity]|].
      split; [split; [apply HJ; vm_compute; reflexivity|vm_compute; reflexivity]|].
      split; [split; [lia|vm_compute; reflexivity]|]. split; [vm_compute; reflexivity|vm_compute; reflexivity].
  - apply applyw_bytes; [intros q; unfold byte; lia|]. intros w Hw. apply at_addr_in in Hw. destruct Hw as [_ Hw].
    assert (HA : forall l, forallb (fun x => (0 <=? x) && (x <? 256)) l = true -> forall x, In x l -> byte x).
    { intros l Hl x Hx. rewrite forallb_forall in Hl. apply Hl in Hx. unfold byte. lia. }
    eapply HA; [|exact Hw]. vm_compute. reflexivity.
  - eexists. split; [vm_compute; reflexivity|]. split; [vm_compute; reflexivity|].
    eexists _, _. vm_compute. reflexivity.
Qed.
#[local] Opaque crc7_run crc7_5B_update.

(** ** C18 *)
(** A life: requests (node, counter), each with the number of EEPROM byte
    operations that can complete before the power fails; nothing but the EEPROM
    survives a power failure (the receive side keeps no other state). *)
Inductive RxOut := RxAccepted | RxRefused | RxInterrupted.
Definition rx_step (s : EE) (e : list Z * list Z * nat) : EE * RxOut :=
  let '(id, c, f) := e in
  match authAndUpdateRXMsgCtr id c s f with
  | (s', Some (true, _)) => (s', RxAccepted)
  | (s', Some (false, _)) => (s', RxRefused)
  | (s', None) => (s', RxInterrupted)
  end.
Fixpoint rx_life (s : EE) (l : list (list Z * list Z * nat)) : list RxOut * EE :=
  match l with
  | [] => ([], s)
  | e :: r => let (s1, o) := rx_step s e in let (os, s2) := rx_life s1 r in (o :: os, s2)
  end.
(** The counters accepted from node [id], in order. *)
Fixpoint accepted (id : list Z) (l : list (list Z * list Z * nat)) (os : list RxOut) : list Z :=
  match l, os with
  | (x, c, _) :: r, o :: os' =>
      (if list_eqb x id then match o with RxAccepted => [be c] | _ => [] end else []) ++ accepted id r os'
  | _, _ => []
  end.
Fixpoint increasing (v : Z) (l : list Z) : Prop :=
  match l with [] => True | x :: r => v < x /\ increasing x r end.

(** Between any two interrupted updates for node [id] there is an accepted
    message more than 16 beyond the counter then stored ([whole]: there has been
    one since the last interruption), and interrupted counters are not within
    255 of a carry out of their low 40 bits. *)
Fixpoint spaced (id : list Z) (whole : bool) (s : EE) (l : list (list Z * list Z * nat)) : Prop :=
  match l with
  | [] => True
  | ((x, c, f) as e) :: r =>
    let (s1, o) := rx_step s e in
    if list_eqb x id then
      match o with
      | RxInterrupted => whole = true /\ no_carry c /\ spaced id false s1 r
      | RxAccepted => spaced id (whole || match reads_back s id with Some v => be v + 16 <? be c | None => false end) s1 r
      | RxRefused => spaced id whole s1 r
      end
    else spaced id whole s1 r
  end.

Definition RxInv (id : list Z) (whole : bool) (v : Z) (s : EE) : Prop :=
  bytes_mem (mem s) /\ exists i c, row_for (mem s) id i /\ be c >= v /\
    if whole then row_holds (mem s) (768 + 32 * i) c else reads (mem s) (768 + 32 * i) c.

Lemma RxInv_reads id whole v s : is_id id -> RxInv id whole v s ->
  exists i c, row_for (mem s) id i /\ be c >= v /\ reads (mem s) (768 + 32 * i) c /\ reads_back s id = Some c /\
    (whole = true -> row_holds (mem s) (768 + 32 * i) c).
Proof.
  intros H8 (HB & i & c & HR & Hv & HH). exists i, c. split; [exact HR|]. split; [exact Hv|].
  assert (HRD : reads (mem s) (768 + 32 * i) c).
  { destruct whole; [apply row_holds_reads; auto|exact HH]. }
  split; [exact HRD|]. split; [|destruct whole; [auto|discriminate]].
  rewrite reads_back_eq by exact H8. unfold lookup_last. rewrite (row_for_row_of _ _ _ H8 HR).
  destruct HRD as (_ & b & n & _ & _ & _ & _ & HL). exact HL.
Qed.

(** Acceptance keeps the row readable as base + unary part; and it is
    consistent again if the counter moved by more than 16. *)
Lemma plan_reads m a c new ws : bytes_mem m -> reads m a c -> is_ctr new -> be c < be new -> plan m a new = Some ws ->
  reads (applyw ws m) a new /\ (row_holds m a c \/ be c + 16 < be new -> row_holds (applyw ws m) a new).
Proof.
  intros HM HR HN Hlt EP. pose proof HN as [N6 NB].
  pose proof HR as (HC & b & n & Hb & EB & EI & HE & HL).
  pose proof Hb as [B6 BB]. pose proof (plan_last _ _ _ _ HM N6 NB EP) as HLast.
  assert (HBM : bytes_mem (applyw ws m)) by (apply applyw_bytes; [exact HM|]; apply (plan_bytes m a new ws HM NB EP)).
  pose proof (incr_byte m a) as HIB. unfold byte in HIB. rewrite EI in HIB.
  pose proof EP as EP0. unfold plan in EP. rewrite EB, EI in EP.
  destruct (C09_add_behaviour b 16 B6 BB ltac:(unfold byte; lia)) as (ok & mx & EA & M6 & MB & HA0 & HA).
  rewrite EA in EP. destruct ok; [|discriminate].
  pose proof (Z.div_mod (be b) (2 ^ 40) ltac:(lia)) as HD. pose proof (Z.mod_pos_bound (be b) (2 ^ 40) ltac:(lia)) as HMod.
  destruct (be mx >=? be new) eqn:EG.
  - destruct (unary_find b new n 17) as [n'|] eqn:EU; [|discriminate]. apply some_inj in EP. subst ws.
    apply unary_find_sound in EU; auto; [|lia]. destruct EU as [Hn' EA'].
    destruct (C09_add_behaviour b n' B6 BB ltac:(unfold byte; lia)) as (ok' & c2 & EA2 & _ & _ & H48 & HA2).
    rewrite EA' in EA2. apply some_pair_inj in EA2. destruct EA2 as [<- <-].
    assert (HB48 : be b + n' < 2 ^ 48) by (destruct (Z_lt_dec (be b + n') (2 ^ 48)); [assumption|destruct H48; [lia|discriminate]]).
    destruct (HA2 HB48) as [_ HNew].
    assert (HNoW : be b mod 2 ^ 40 + n' < 2 ^ 40).
    { destruct (Z_lt_dec (be b mod 2 ^ 40 + n') (2 ^ 40)) as [|Hge]; [assumption|exfalso].
      replace (be b mod 2 ^ 40 + n') with (be b mod 2 ^ 40 + n' - 2 ^ 40 + 1 * 2 ^ 40) in HNew by lia.
      rewrite Z.mod_add in HNew by lia. rewrite Z.mod_small in HNew by lia. lia. }
    rewrite Z.mod_small in HNew by lia. assert (HNew' : be new = be b + n') by lia.
    split.
    + split; [exact HN|]. exists b, n'. split; [exact Hb|].
      split; [|split; [apply incr_unary; lia|auto]].
      unfold base_of. rewrite (rdctr_ext _ m (a + 8)), (rdctr_ext _ m (a + 16)); [exact EB| |];
        intros q Hq; apply applyw_other; intros w Hw; apply unary_ws_addr in Hw; lia.
    + intros [HRH|Hbig]; [|lia].
      destruct (Z_lt_dec (be c + 16) (2 ^ 48)) as [Hc|Hc].
      * destruct (row_holds_plan _ _ _ _ HM HRH HN Hlt Hc) as (ws & E1 & E2). rewrite EP0 in E1. apply some_inj in E1.
        rewrite E1. exact E2.
      * (* near the top of the range *)
        pose proof HRH as (_ & b2 & n2 & Hb2 & HP & HS & HU & HE2 & HW2).
        assert (b2 = b).
        { pose proof (copy_rdctr _ _ _ Hb2 HP) as X. unfold base_of in EB. rewrite X in EB. apply some_inj in EB. auto. }
        subst b2. split; [exact HN|]. exists b, n'. split; [exact Hb|].
        assert (HO : forall q, q <> a + 15 -> q <> a + 23 -> applyw (unary_ws a n') m q = m q).
        { intros q H1 H2. apply applyw_other. intros w Hw. apply unary_ws_addr in Hw. lia. }
        destruct HP as [P1 P2], HS as [S1 S2].
        split; [split; [intros j Hj; rewrite HO by lia; auto|rewrite HO by lia; auto]|].
        split; [split; [intros j Hj; rewrite HO by lia; auto|rewrite HO by lia; auto]|].
        split; [apply incr_code; lia|]. lia.
  - apply some_inj in EP. subst ws.
    assert (HRH : row_holds (applyw (full_ws m a new) m) a new).
    { split; [exact HN|]. exists new, 0. split; [exact HN|].
      split; [apply rdctr_copy; [exact HBM|apply rdctr_full_P; exact N6]|].
      split; [apply rdctr_copy; [exact HBM|apply rdctr_full_S; exact N6]|].
      destruct (full_unary m a new m) as [-> ->]. split; [split; [lia|reflexivity]|]. split; [lia|].
      pose proof (Z.mod_pos_bound (be new) (2 ^ 40)); lia. }
    split; [apply row_holds_reads; auto|auto].
Qed.

Lemma rx_step_cases s id c f : is_id id -> is_ctr c -> bytes_mem (mem s) ->
  (exists s', rx_step s (id, c, f) = (s', RxRefused) /\ meq (mem s') (mem s)) \/
  (exists a ws k s', row_of (mem s) id = Some a /\ plan (mem s) a c = Some ws /\ newer (mem s) id c = true /\
     ((rx_step s (id, c, f) = (s', RxAccepted) /\ meq (mem s') (applyw ws (mem s))) \/
      (rx_step s (id, c, f) = (s', RxInterrupted) /\ meq (mem s') (applyw (firstn k ws) (mem s))))).
Proof.
  intros H8 [H6 HN] HB. unfold rx_step. pose proof (does_auth id c s H8 H6 HN HB f) as H.
  unfold auth_plan in H. destruct (newer (mem s) id c) eqn:EN.
  2:{ left. destruct H as [(s' & k & _ & Hf & _)|(s' & f' & E & _ & Hm)]; [simpl in Hf; lia|]. rewrite E. exists s'. auto. }
  destruct (row_of (mem s) id) as [a|] eqn:ER.
  2:{ left. destruct H as [(s' & k & _ & Hf & _)|(s' & f' & E & _ & Hm)]; [simpl in Hf; lia|]. rewrite E. exists s'. auto. }
  destruct (plan (mem s) a c) as [ws|] eqn:EP.
  2:{ left. destruct H as [(s' & k & _ & Hf & _)|(s' & f' & E & _ & Hm)]; [simpl in Hf; lia|]. rewrite E. exists s'. auto. }
  right. destruct H as [(s' & k & E & _ & _ & Hm)|(s' & f' & E & _ & Hm)]; rewrite E.
  - exists a, ws, k, s'. auto 6.
  - exists a, ws, 0%nat, s'. auto 6.
Qed.

Lemma RxInv_ext id whole v s s' : is_id id -> RxInv id whole v s -> bytes_mem (mem s') ->
  row_of (mem s') id = row_of (mem s) id ->
  (forall i, row_for (mem s) id i -> forall q, 768 + 32 * i + 8 <= q < 768 + 32 * i + 24 -> mem s' q = mem s q) ->
  RxInv id whole v s'.
Proof.
  intros H8 (HB & i & c & HR & Hv & HH) HB' HRow HM. split; [exact HB'|]. exists i, c.
  split; [apply (row_for_meq (mem s)); auto|]. split; [exact Hv|].
  destruct whole; [eapply row_holds_ext; [|exact HH]|eapply reads_ext; [|exact HH]]; intros q Hq; apply (HM i HR q Hq).
Qed.

(** Full claim: over any life whatever, accepted counters strictly increase and
    the counter stays readable.  Proved for lives satisfying [spaced]. *)
Theorem C18_repeated_power_failures_partial : forall id l s c0,
  is_id id -> (forall x c f, In (x, c, f) l -> is_id x /\ is_ctr c) ->
  bytes_mem (mem s) -> holds (mem s) id c0 -> spaced id true s l ->
  increasing (be c0) (accepted id l (fst (rx_life s l))) /\
  exists c', reads_back (snd (rx_life s l)) id = Some c' /\ be c0 <= be c' /\
    Forall (fun v => v <= be c') (accepted id l (fst (rx_life s l))).
Proof.
  intros id l s c0 H8 HL HB HH.
  enough (HG : forall l s whole v, (forall x c f, In (x, c, f) l -> is_id x /\ is_ctr c) ->
     RxInv id whole v s -> spaced id whole s l ->
     increasing v (accepted id l (fst (rx_life s l))) /\
     exists c', reads_back (snd (rx_life s l)) id = Some c' /\ v <= be c' /\
       Forall (fun v => v <= be c') (accepted id l (fst (rx_life s l)))).
  { apply HG; [exact HL|]. split; [exact HB|]. destruct HH as (i & HR & HH). exists i, c0. split; [exact HR|]. split; [lia|exact HH]. }
  clear l s c0 HL HB HH. induction l as [|[[x c] f] l IH]; intros s whole v HL HI HS; cbn [rx_life accepted spaced fst snd] in *.
  - destruct (RxInv_reads _ _ _ _ H8 HI) as (i & c & _ & Hv & _ & HRB & _). split; [exact I|]. exists c. split; [exact HRB|]. split; [lia|constructor].
  - destruct (HL x c f (or_introl eq_refl)) as [HX HC].
    assert (HL' : forall x c f, In (x, c, f) l -> is_id x /\ is_ctr c) by (intros; eapply HL; right; eauto).
    pose proof HI as (HB & _).
    destruct (rx_step_cases s x c f HX HC HB) as [(s1 & E & Hm)|(a & ws & k & s1 & ER & EP & EN & HCase)].
    + rewrite E in *. destruct (rx_life s1 l) as [os s2] eqn:ELf. cbn [fst snd].
      assert (HI1 : RxInv id whole v s1).
      { eapply RxInv_ext; [exact H8|exact HI| | |].
        - eapply RxCtrNormal.bytes_meq; eauto.
        - apply row_of_meq. exact Hm.
        - intros; apply Hm. }
      assert (HS' : spaced id whole s1 l) by (destruct (list_eqb x id); exact HS).
      specialize (IH s1 whole v HL' HI1 HS'). rewrite ELf in IH. cbn [fst snd] in IH.
      destruct (list_eqb x id); cbn [app]; exact IH.
    + pose proof HC as [C6 CB]. pose proof (plan_within _ _ _ _ C6 EP) as HW.
      destruct (row_of_spec _ _ _ HX ER) as (i & Hi & Ha & _).
      destruct (list_eqb x id) eqn:EX.
      * apply list_eqb_eq in EX. subst x.
        destruct (RxInv_reads _ _ _ _ H8 HI) as (j & cc & HRow & Hv & HRd & HRB & HWh).
        pose proof (row_for_row_of _ _ _ H8 HRow) as ER2. rewrite ER in ER2. apply some_inj in ER2.
        assert (Hlt : be cc < be c).
        { unfold newer in EN. rewrite <- reads_back_eq in EN by exact H8. rewrite HRB in EN. lia. }
        rewrite <- ER2 in HRd, HWh.
        destruct HCase as [[E Hm]|[E Hm]]; rewrite E in *.
        -- (* accepted *)
           destruct (plan_reads _ _ _ _ _ HB HRd HC Hlt EP) as [HR1 HR2].
           rewrite HRB in HS.
           assert (HI1 : RxInv id (whole || (be cc + 16 <? be c)) (be c) s1).
           { split; [intros q; rewrite Hm; revert q; apply applyw_bytes; [exact HB|eapply plan_bytes; eauto]|].
             exists j, c. split; [apply (row_for_meq (mem s)); auto; eapply within_row_of; eauto|].
             split; [lia|]. rewrite <- ER2.
             destruct (whole || (be cc + 16 <? be c)) eqn:EW.
             - eapply row_holds_ext; [|apply HR2; destruct whole; [left; auto|right; cbn [orb] in EW; lia]].
               intros q Hq. apply Hm.
             - eapply reads_ext; [|exact HR1]. intros q Hq. apply Hm. }
           destruct (rx_life s1 l) as [os s2] eqn:ELf.
           specialize (IH s1 _ _ HL' HI1 HS). rewrite ELf in IH. cbn [fst snd] in *.
           cbn [app increasing].
           destruct IH as (IH1 & c' & IH2 & IH3 & IH4). split; [split; [lia|exact IH1]|].
           exists c'. split; [exact IH2|]. split; [lia|]. constructor; [exact IH3|exact IH4].
        -- (* interrupted *)
           destruct HS as (-> & HNC & HS). specialize (HWh eq_refl).
           destruct (plan_prefix_reads _ _ _ _ k _ HB HWh HC Hlt HNC EP) as (c' & HR1 & Hc').
           assert (HI1 : RxInv id false v s1).
           { split.
             - intros q. rewrite Hm. revert q. apply applyw_bytes; [exact HB|]. intros w Hw.
               eapply plan_bytes; [exact HB|exact CB|exact EP|]. rewrite <- (firstn_skipn k ws). apply in_or_app. auto.
             - exists j, c'. split; [apply (row_for_meq (mem s)); auto; eapply within_row_of; [exact Ha|apply within_firstn; exact HW|exact Hm]|].
               split; [lia|]. rewrite <- ER2. eapply reads_ext; [|exact HR1]. intros q Hq. apply Hm. }
           destruct (rx_life s1 l) as [os s2] eqn:ELf.
           specialize (IH s1 _ _ HL' HI1 HS). rewrite ELf in IH. cbn [fst snd] in *. cbn [app]. exact IH.
      * assert (Hne : x <> id) by (intros ->; rewrite (proj2 (list_eqb_eq id id) eq_refl) in EX; discriminate).
        assert (HI1 : RxInv id whole v s1).
        { assert (HWk : exists ws', within a ws' /\ meq (mem s1) (applyw ws' (mem s)) /\ (forall w, In w ws' -> In w ws)).
          { destruct HCase as [[_ Hm]|[_ Hm]].
            - exists ws. auto.
            - exists (firstn k ws). split; [apply within_firstn; exact HW|]. split; [exact Hm|].
              intros w Hw. rewrite <- (firstn_skipn k ws). apply in_or_app. auto. }
          destruct HWk as (ws' & HW' & Hm & Hsub).
          eapply RxInv_ext; [exact H8|exact HI| | |].
          - intros q. rewrite Hm. revert q. apply applyw_bytes; [exact HB|]. intros w Hw. eapply plan_bytes; eauto.
          - eapply within_row_of; eauto.
          - intros j HRj q Hq. pose proof (rows_differ _ x id _ _ HX H8 Hne ER (row_for_row_of _ _ _ H8 HRj)).
            eapply within_ids; eauto. lia. }
        assert (HS' : exists o, rx_step s (x, c, f) = (s1, o) /\ spaced id whole s1 l).
        { destruct HCase as [[E _]|[E _]]; rewrite E in *; eexists; split; eauto. }
        destruct HS' as (o & E & HS'). rewrite E.
        specialize (IH s1 whole v HL' HI1 HS'). destruct (rx_life s1 l) as [os s2] eqn:ELf. cbn [fst snd] in *. cbn [app]. exact IH.
Qed.

(** Once unreadable, always unreadable: nothing from the node is ever accepted again. *)
Theorem C18_unreadable_is_final : forall id l s, is_id id ->
  (forall x c f, In (x, c, f) l -> is_id x /\ is_ctr c) -> bytes_mem (mem s) -> reads_back s id = None ->
  accepted id l (fst (rx_life s l)) = [] /\ reads_back (snd (rx_life s l)) id = None.
Proof.
  intros id l s H8. revert s. induction l as [|[[x c] f] l IH]; intros s HL HB HN; cbn [rx_life accepted fst snd]; [auto|].
  destruct (HL x c f (or_introl eq_refl)) as [HX HC]. pose proof HC as [C6 CB].
  assert (HL' : forall x c f, In (x, c, f) l -> is_id x /\ is_ctr c) by (intros; eapply HL; right; eauto).
  pose proof HN as HN'. rewrite reads_back_eq in HN' by exact H8.
  assert (HG : exists s1 o, rx_step s (x, c, f) = (s1, o) /\ bytes_mem (mem s1) /\ reads_back s1 id = None /\
            (list_eqb x id = true -> o = RxRefused)).
  { destruct (rx_step_cases s x c f HX HC HB) as [(s1 & E & Hm)|(a & ws & k & s1 & ER & EP & EN & HCase)].
    - exists s1, RxRefused. split; [exact E|]. split; [eapply RxCtrNormal.bytes_meq; eauto|]. split; [|auto].
      rewrite reads_back_eq by exact H8. unfold lookup_last. rewrite (row_of_meq _ _ id Hm).
      unfold lookup_last in HN'. destruct (row_of (mem s) id); [|reflexivity].
      rewrite <- HN'. apply last_ext. intros; apply Hm.
    - destruct (list_eqb x id) eqn:EX.
      + apply list_eqb_eq in EX. subst x. unfold newer in EN. rewrite HN' in EN. discriminate.
      + assert (Hne : x <> id) by (intros ->; rewrite (proj2 (list_eqb_eq id id) eq_refl) in EX; discriminate).
        pose proof (plan_within _ _ _ _ C6 EP) as HW.
        destruct (row_of_spec _ _ _ HX ER) as (i & Hi & Ha & _).
        assert (HB1 : forall ws', (forall w, In w ws' -> In w ws) -> meq (mem s1) (applyw ws' (mem s)) -> bytes_mem (mem s1)).
        { intros ws' Hs Hm q. rewrite Hm. revert q. apply applyw_bytes; [exact HB|]. intros w Hw.
          eapply plan_bytes; eauto. }
        destruct HCase as [[E Hm]|[E Hm]]; (eexists s1, _; split; [exact E|]).
        * split; [apply (HB1 ws); auto|]. split; [|discriminate].
          rewrite reads_back_eq by exact H8. rewrite <- HN'. eapply within_other with (id := x); eauto.
        * split; [apply (HB1 (firstn k ws)); auto; intros w Hw; rewrite <- (firstn_skipn k ws); apply in_or_app; auto|].
          split; [|discriminate]. rewrite reads_back_eq by exact H8. rewrite <- HN'.
          eapply within_other with (id := x); [exact Ha|apply within_firstn; exact HW|exact Hm|auto|auto|exact Hne|exact ER]. }
  destruct HG as (s1 & o & E & HB1 & HN1 & HO). rewrite E.
  specialize (IH s1 HL' HB1 HN1). destruct (rx_life s1 l) as [os s2]. cbn [fst snd] in *.
  destruct (list_eqb x id); [|exact IH]. rewrite (HO eq_refl). exact IH.
Qed.
#[local] Transparent crc7_run crc7_5B_update.

(** Two power failures: (1) in the rewrite for 1000, and (2) in the next one, for 5000. *)
Definition freshA : EE := one_node nodeA [0; 0; 0; 0; 0; 0] 255 255.
Definition c1000 := [0; 0; 0; 0; 3; 232].
Definition c1005 := [0; 0; 0; 0; 3; 237].
Definition c5000 := [0; 0; 0; 0; 19; 136].

(** Replay: 1005 is accepted, and after the second failure accepted again. *)
Theorem C18_replay_refuted :
  fst (rx_life freshA [(nodeA, c1000, 4%nat); (nodeA, c1005, 18%nat); (nodeA, c5000, 1%nat); (nodeA, c1005, 18%nat)])
   = [RxInterrupted; RxAccepted; RxInterrupted; RxAccepted].
Proof. vm_compute. reflexivity. Qed.
(** Loss: both copies invalid, so (by C18_unreadable_is_final) nothing is ever accepted again. *)
Theorem C18_loss_refuted :
  let l := [(nodeA, c1000, 5%nat); (nodeA, c5000, 1%nat)] in
  fst (rx_life freshA l) = [RxInterrupted; RxInterrupted] /\ reads_back (snd (rx_life freshA l)) nodeA = None.
Proof. split; vm_compute; reflexivity. Qed.

(** The hypotheses are met: a life with two interruptions separated by a whole rewrite. *)
Example C18_nonvacuous :
  let l := [(nodeA, c1000, 4%nat); (nodeA, c1005, 18%nat); (nodeA, [0;0;0;0;4;0], 18%nat); (nodeA, c5000, 1%nat); (nodeA, c5000, 18%nat)] in
  spaced nodeA true freshA l /\ fst (rx_life freshA l) = [RxInterrupted; RxAccepted; RxAccepted; RxInterrupted; RxAccepted].
Proof. split; [|vm_compute; reflexivity]. vm_compute. repeat split. Qed.
Example C17_nonvacuous : let r := authAndUpdateRXMsgCtr nodeA c1000 freshA 3%nat in snd r = None /\ no_carry c1000 /\ reads_back freshA nodeA = Some [0; 0; 0; 0; 0; 0] /\ reads_back (fst r) nodeA = Some [0; 0; 0; 0; 0; 0].
Proof. split; [vm_compute; reflexivity|]. split; [reflexivity|]. split; vm_compute; reflexivity. Qed.
Example C19_nonvacuous : match present freshA [(nodeA, c1000); (nodeA, c1000); (nodeA, c1005); (nodeA, c5000); (nodeA, c1005)]
  with Some (oks, s') => oks = [true; false; true; true; false] /\ reads_back s' nodeA = Some c5000 | None => False end.
Proof. vm_compute. split; reflexivity. Qed.
