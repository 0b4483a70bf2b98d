(** Lemmas about the transmit counter store. *)
From Verif Require Import Base CrcLin EepromModel EepromProofs TxCtrModel.

(** ** CRC-8: byte valued and linear. *)
Lemma land255_u8 x : Z.land x 255 = u8 x.
Proof. unfold u8. change 255 with (Z.ones 8). rewrite Z.land_ones by lia. reflexivity. Qed.
Lemma crc8_bit_alt d : crc8_bit d =
  Z.lxor (Z.land (Z.shiftl d 1) 255) (if Z.testbit d 7 then 7 else 0).
Proof.
  unfold crc8_bit. change 128 with (2 ^ 7). rewrite land_pow2_testbit by lia. rewrite land255_u8.
  destruct (Z.testbit d 7); [reflexivity|]. rewrite Z.lxor_0_r. reflexivity.
Qed.
Lemma crc8_bit_byte d : byte (crc8_bit d).
Proof.
  unfold crc8_bit. destruct (negb _); [|apply u8_byte]. apply lxor8; [apply u8_byte|unfold byte; lia].
Qed.
Lemma crc8_bit_linear a b : crc8_bit (Z.lxor a b) = Z.lxor (crc8_bit a) (crc8_bit b).
Proof.
  rewrite !crc8_bit_alt. rewrite Z.shiftl_lxor, Z.lxor_spec.
  assert (HD : forall a b, Z.land (Z.lxor a b) 255 = Z.lxor (Z.land a 255) (Z.land b 255)).
  { intros. apply Z.bits_inj'. intros n Hn.
    rewrite !Z.land_spec, !Z.lxor_spec, !Z.land_spec.
    destruct (Z.testbit a0 n), (Z.testbit b0 n), (Z.testbit 255 n); reflexivity. }
  rewrite HD. set (A := Z.land (Z.shiftl a 1) 255). set (B := Z.land (Z.shiftl b 1) 255).
  destruct (Z.testbit a 7), (Z.testbit b 7); cbn [xorb]; rewrite ?Z.lxor_0_r.
  - rewrite Z.lxor_assoc, (Z.lxor_comm 7), !Z.lxor_assoc. f_equal. rewrite Z.lxor_nilpotent, Z.lxor_0_r. reflexivity.
  - rewrite !Z.lxor_assoc. f_equal. apply Z.lxor_comm.
  - rewrite Z.lxor_assoc. reflexivity.
  - reflexivity.
Qed.
Lemma crc8_update_byte c d : byte (crc8_update c d).
Proof. unfold crc8_update. apply crc8_bit_byte. Qed.
Lemma lxor_swap a b c d : Z.lxor (Z.lxor a b) (Z.lxor c d) = Z.lxor (Z.lxor a c) (Z.lxor b d).
Proof. rewrite !Z.lxor_assoc. f_equal. rewrite <- !Z.lxor_assoc. f_equal. apply Z.lxor_comm. Qed.
Lemma crc8_update_linear c d c' d' :
  crc8_update (Z.lxor c c') (Z.lxor d d') = Z.lxor (crc8_update c d) (crc8_update c' d').
Proof. unfold crc8_update. rewrite lxor_swap. rewrite !crc8_bit_linear. reflexivity. Qed.
Lemma crc8_3_byte a b c : byte (crc8_3 a b c).
Proof. apply crc8_update_byte. Qed.
Lemma crc8_3_linear a b c a' b' c' :
  crc8_3 (Z.lxor a a') (Z.lxor b b') (Z.lxor c c') = Z.lxor (crc8_3 a b c) (crc8_3 a' b' c').
Proof. unfold crc8_3. rewrite <- !crc8_update_linear. rewrite Z.lxor_0_l. reflexivity. Qed.

#[local] Opaque crc8_3 crc8_update crc8_bit.
Lemma inv8_inv b : inv8 (inv8 b) = b.
Proof. unfold inv8. rewrite Z.lxor_assoc, Z.lxor_nilpotent, Z.lxor_0_r. reflexivity. Qed.
Lemma inv8_byte b : byte b -> byte (inv8 b).
Proof. intros. apply lxor8; [auto|unfold byte; lia]. Qed.

(** ** The 3-byte counter as a number. *)
Definition val3 (c : Ctr3) : Z := let '(a, b, l) := c in a * 65536 + b * 256 + l.
Definition bytes3 (c : Ctr3) : Prop := let '(a, b, l) := c in byte a /\ byte b /\ byte l.
Definition fld (j v : Z) : Z :=
  if j =? 0 then v / 65536 else if j =? 1 then (v / 256) mod 256 else if j =? 2 then v mod 256
  else crc8_3 (v / 65536) ((v / 256) mod 256) (v mod 256).
Definition enc3 (v : Z) : Ctr3 := (v / 65536, (v / 256) mod 256, v mod 256).

Lemma enc3_val c : bytes3 c -> enc3 (val3 c) = c.
Proof.
  destruct c as [[a b] l]. intros (Ha & Hb & Hl). unfold byte in *. unfold enc3, val3.
  repeat f_equal; lia.
Qed.
Lemma val3_enc v : 0 <= v -> val3 (enc3 v) = v.
Proof. intros. unfold val3, enc3. lia. Qed.
Lemma enc3_bytes v : 0 <= v < 16777216 -> bytes3 (enc3 v).
Proof. intros. unfold enc3, bytes3, byte. lia. Qed.
Lemma val3_range c : bytes3 c -> 0 <= val3 c < 16777216.
Proof. destruct c as [[a b] l]. unfold bytes3, byte, val3. lia. Qed.

Lemma bump3_num c : bytes3 c ->
  bytes3 (fst (bump3 c)) /\
  (snd (bump3 c) = true <-> val3 c = 16777215) /\
  (snd (bump3 c) = false -> val3 (fst (bump3 c)) = val3 c + 1) /\
  (snd (bump3 c) = true -> val3 (fst (bump3 c)) = 0).
Proof.
  destruct c as [[a b] l]. intros (Ha & Hb & Hl). unfold byte in *. unfold bump3.
  assert (HU : forall x, 0 <= x < 256 -> (x = 255 /\ u8 (x + 1) = 0) \/ (x < 255 /\ u8 (x + 1) = x + 1)).
  { intros. unfold u8. lia. }
  destruct (HU l Hl) as [[El ->]|[El ->]].
  2:{ replace (0 =? l + 1) with false by lia. cbn [negb fst snd bytes3 val3]. unfold byte. repeat split; try lia; discriminate. }
  change (negb (0 =? 0)) with false. cbv iota.
  destruct (HU b Hb) as [[Eb ->]|[Eb ->]].
  2:{ replace (0 =? b + 1) with false by lia. cbn [negb fst snd bytes3 val3]. unfold byte. repeat split; try lia; discriminate. }
  change (negb (0 =? 0)) with false. cbv iota.
  destruct (HU a Ha) as [[Ea ->]|[Ea ->]].
  - change (negb (0 =? 0)) with false. cbn [negb fst snd bytes3 val3]. unfold byte. repeat split; try lia; discriminate.
  - replace (0 =? a + 1) with false by lia. cbn [negb fst snd bytes3 val3]. unfold byte. repeat split; try lia; discriminate.
Qed.

Lemma mask4_range x : 0 <= x -> 0 <= mask4 x < 16.
Proof.
  intros. unfold mask4. rewrite Z.land_comm. change 15 with (Z.ones 4). rewrite Z.land_ones by lia.
  change (2 ^ 4) with 16. apply Z.mod_pos_bound. lia.
Qed.

(** ** Contents of the store. *)
Definition raw (m : Z -> Z) (j : Z) : Z := inv8 (m (104 + j)).
Definition rd3 (m : Z -> Z) : option Ctr3 := read3 (map inv8 (block m TXC_START TXC_LEN)).

Lemma rd3_raw m : rd3 m =
  match readOne (raw m 0) (raw m 1) (raw m 2) (raw m 3) with
  | Some c => Some c | None => readOne (raw m 4) (raw m 5) (raw m 6) (raw m 7) end.
Proof. reflexivity. Qed.
Lemma rd3_meq m m' : (forall q, 104 <= q < 112 -> m q = m' q) -> rd3 m = rd3 m'.
Proof. intros H. rewrite !rd3_raw. unfold raw. rewrite !H by lia. reflexivity. Qed.

#[local] Opaque read3 block.
Lemma readOne_val a b l k c : byte a -> byte b -> byte l ->
  readOne a b l k = Some c -> c = (a, b, l) /\ k = crc8_3 a b l /\ val3 c <> 16777215 /\ bytes3 c.
Proof.
  intros Ha Hb Hl. unfold readOne. destruct (crc8_3 a b l =? k) eqn:E; cbn [negb]; [|discriminate].
  destruct ((255 =? a) && (255 =? b) && (255 =? l)) eqn:E2; [discriminate|].
  intros H. apply some_inj in H. subst c. apply Z.eqb_eq in E. subst k.
  unfold bytes3, val3, byte in *. repeat split; lia.
Qed.
Lemma readOne_good c : bytes3 c -> let '(a, b, l) := c in
  readOne a b l (crc8_3 a b l) = if val3 c =? 16777215 then None else Some c.
Proof.
  destruct c as [[a b] l]. intros (Ha & Hb & Hl). unfold byte in *. unfold readOne. rewrite Z.eqb_refl. cbn [negb].
  unfold val3. destruct ((255 =? a) && (255 =? b) && (255 =? l)) eqn:E2;
    destruct (a * 65536 + b * 256 + l =? 16777215) eqn:E3; try reflexivity; exfalso; lia.
Qed.

(** The updates made by a save. *)
Definition W (c : Ctr3) : list (Z * Z) := at_addr TXC_START (map inv8 (two_copies c)).

Lemma does_save_checked l : forall p s, does (save_checked p l) s (at_addr p (map inv8 l)) true.
Proof.
  induction l as [|x r IH]; intros p s; cbn [save_checked map at_addr]; [apply does_ret|].
  change ((p, inv8 x) :: at_addr (p + 1) (map inv8 r)) with ([(p, inv8 x)] ++ at_addr (p + 1) (map inv8 r)).
  eapply does_bind; [apply does_smart_update|]. intros s1 H1.
  eapply does_bind0; [apply does_read|]. intros s2 H2. cbv beta.
  rewrite H1. cbn [applyw fold_left fst snd]. unfold upd. rewrite Z.eqb_refl, Z.eqb_refl. cbn [negb]. apply IH.
Qed.
Lemma does_getPrefix s : does getTXNVCtrPrefix s [] (rd3 (mem s)).
Proof.
  unfold getTXNVCtrPrefix, loadRawTX. eapply does_bind0.
  - eapply does_bind0; [apply does_read_block|]. intros. apply does_ret.
  - intros s' H. cbv beta. unfold rd3. apply does_ret.
Qed.

(** What a completed or interrupted save leaves. *)
Lemma two_copies_len c : length (two_copies c) = 8%nat.
Proof. destruct c as [[a b] l]. reflexivity. Qed.
Lemma W_len c : length (W c) = 8%nat.
Proof. unfold W. rewrite at_addr_len, map_length. apply two_copies_len. Qed.
Lemma two_copies_fld c j : bytes3 c -> 0 <= j < 8 -> znth (two_copies c) j = fld (j mod 4) (val3 c).
Proof.
  intros Hc Hj. pose proof (enc3_val c Hc) as HE. destruct c as [[a b] l].
  unfold enc3 in HE. apply pair_inj in HE. destruct HE as [HE E2]. apply pair_inj in HE. destruct HE as [E0 E1].
  assert (j = 0 \/ j = 1 \/ j = 2 \/ j = 3 \/ j = 4 \/ j = 5 \/ j = 6 \/ j = 7) as HJ by lia.
  unfold fld. rewrite E0, E1, E2. unfold two_copies. cbv zeta. clear E0 E1 E2. generalize (crc8_3 a b l). intros kk.
  destruct HJ as [-> |[-> |[-> |[-> |[-> |[-> |[-> | ->]]]]]]]; reflexivity.
Qed.
Lemma znth_inv8 l j : 0 <= j < Zlen l -> znth (map inv8 l) j = inv8 (znth l j).
Proof.
  intros H. unfold znth. rewrite (nth_indep _ 0 (inv8 0)) by (rewrite map_length; unfold Zlen in H; lia).
  apply map_nth.
Qed.
Lemma raw_W k c m j : bytes3 c -> 0 <= j < 8 ->
  raw (applyw (firstn k (W c)) m) j = raw m j \/ raw (applyw (firstn k (W c)) m) j = fld (j mod 4) (val3 c).
Proof.
  intros Hc Hj. unfold W. rewrite firstn_at_addr. unfold raw. rewrite applyw_at.
  unfold TXC_START. destruct (_ && _) eqn:E; [right|left; reflexivity].
  replace (104 + j - 104) with j by lia. rewrite <- two_copies_fld by auto.
  assert (0 <= j < Z.of_nat k) by (unfold Zlen in *; rewrite firstn_length, map_length, two_copies_len in E; lia).
  rewrite znth_firstn by lia. rewrite znth_inv8 by (unfold Zlen; rewrite two_copies_len; lia). apply inv8_inv.
Qed.
Lemma raw_W_all c m j : bytes3 c -> 0 <= j < 8 -> raw (applyw (W c) m) j = fld (j mod 4) (val3 c).
Proof.
  intros Hc Hj. unfold W, raw. rewrite applyw_at. unfold TXC_START.
  assert (HL : Zlen (map inv8 (two_copies c)) = 8) by (unfold Zlen; rewrite map_length, two_copies_len; reflexivity).
  rewrite HL. replace ((104 <=? 104 + j) && (104 + j <? 104 + 8)) with true by lia.
  replace (104 + j - 104) with j by lia. rewrite <- two_copies_fld by auto.
  rewrite znth_inv8 by (unfold Zlen; rewrite two_copies_len; lia). apply inv8_inv.
Qed.

Lemma rd3_W c m : bytes3 c -> rd3 (applyw (W c) m) = if val3 c =? 16777215 then None else Some c.
Proof.
  intros Hc. pose proof (readOne_good c Hc) as HG. rewrite rd3_raw. rewrite !raw_W_all by (auto; lia).
  pose proof (enc3_val c Hc) as HE. destruct c as [[a b] l].
  unfold enc3 in HE. apply pair_inj in HE. destruct HE as [HE E2]. apply pair_inj in HE. destruct HE as [E0 E1].
  change (0 mod 4) with 0. change (1 mod 4) with 1. change (2 mod 4) with 2. change (3 mod 4) with 3.
  change (4 mod 4) with 0. change (5 mod 4) with 1. change (6 mod 4) with 2. change (7 mod 4) with 3.
  unfold fld. change (0 =? 0) with true. change (1 =? 0) with false. change (1 =? 1) with true.
  change (2 =? 0) with false. change (2 =? 1) with false. change (2 =? 2) with true.
  change (3 =? 0) with false. change (3 =? 1) with false. change (3 =? 2) with false. cbv iota.
  rewrite E0, E1, E2. cbv beta iota in HG. rewrite HG. destruct (val3 (a, b, l) =? 16777215); reflexivity.
Qed.

Lemma rd3_bytes m c : bytes_mem m -> rd3 m = Some c -> bytes3 c /\ val3 c < 16777215.
Proof.
  intros Hm. rewrite rd3_raw.
  assert (HB : forall j, byte (raw m j)) by (intros; apply inv8_byte, Hm).
  destruct (readOne (raw m 0) (raw m 1) (raw m 2) (raw m 3)) as [d|] eqn:E.
  - intros H. apply some_inj in H. subst d. apply readOne_val in E; auto. destruct E as (_ & _ & Hne & Hb).
    split; [auto|]. pose proof (val3_range c Hb). lia.
  - clear E. intros E. apply readOne_val in E; auto. destruct E as (_ & _ & Hne & Hb).
    split; [auto|]. pose proof (val3_range c Hb). lia.
Qed.

(** incrementTXNVCtrPrefix. *)
Lemma does_increment_none s : rd3 (mem s) = None -> does incrementTXNVCtrPrefix s [] false.
Proof.
  intros H. unfold incrementTXNVCtrPrefix, loadRawTX.
  eapply does_bind0; [eapply does_bind0; [apply does_read_block|intros; apply does_ret]|].
  intros s' Hs. cbv beta. unfold incrementBuf. unfold rd3 in H. rewrite H. apply does_ret.
Qed.
Lemma does_increment s c : bytes_mem (mem s) -> rd3 (mem s) = Some c ->
  does incrementTXNVCtrPrefix s (W (enc3 (val3 c + 1))) true.
Proof.
  intros HM H. destruct (rd3_bytes _ _ HM H) as [HB HV].
  destruct (bump3_num c HB) as (B1 & B2 & B3 & B4).
  unfold incrementTXNVCtrPrefix, loadRawTX.
  eapply does_bind0; [eapply does_bind0; [apply does_read_block|intros; apply does_ret]|].
  intros s' Hs. cbv beta. unfold incrementBuf. unfold rd3 in H. rewrite H.
  destruct (bump3 c) as [c' [|]]; cbn [fst snd] in *.
  - exfalso. destruct B2 as [B2 _]. specialize (B2 eq_refl). lia.
  - specialize (B3 eq_refl). rewrite <- B3, enc3_val by auto. unfold saveRawTX, W. apply does_save_checked.
Qed.

Lemma reset_noise_bytes r : bytes3 (reset_noise r) /\ 1 <= val3 (reset_noise r) < 1048576.
Proof.
  destruct r as [[x y] z]. unfold reset_noise.
  pose proof (u8_byte x) as Hx. pose proof (u8_byte y) as Hy. pose proof (u8_byte z) as Hz.
  pose proof (mask4_range (u8 x) ltac:(unfold byte in *; lia)) as Hm. unfold byte in *.
  destruct ((0 =? u8 y) && (0 =? mask4 (u8 x))) eqn:E; unfold bytes3, val3, byte.
  - assert (HO : 1 <= Z.lor (u8 z) 1 < 256); [|lia]. split.
    + assert (0 <= Z.lor (u8 z) 1) by (apply Z.lor_nonneg; lia).
      assert (Z.lor (u8 z) 1 <> 0); [|lia]. intros E0. apply Z.lor_eq_0_iff in E0. lia.
    + change 256 with (2 ^ 8). apply Z.log2_lt_pow2.
      * assert (0 <= Z.lor (u8 z) 1) by (apply Z.lor_nonneg; lia).
        assert (Z.lor (u8 z) 1 <> 0); [|lia]. intros E0. apply Z.lor_eq_0_iff in E0. lia.
      * rewrite Z.log2_lor by lia. change (Z.log2 1) with 0.
        pose proof (Z.log2_nonneg (u8 z)).
        destruct (Z.eq_dec (u8 z) 0) as [->|]; [simpl; lia|].
        assert (Z.log2 (u8 z) < 8); [|lia]. apply Z.log2_lt_pow2; lia.
  - lia.
Qed.

(** The ephemeral part after a call. *)
Definition eph_next (ram : TxRam) (r : Rnd) : Ctr3 * bool :=
  bump3 (if negb (inited ram) then let '(e0, e1, e2) := re r in (mask4 (u8 e0), u8 e1, u8 e2) else eph ram).
Lemma eph_start_bytes r : bytes3 (let '(e0, e1, e2) := re r in (mask4 (u8 e0), u8 e1, u8 e2)) /\
  val3 (let '(e0, e1, e2) := re r in (mask4 (u8 e0), u8 e1, u8 e2)) < 1048576.
Proof.
  destruct (re r) as [[x y] z].
  pose proof (u8_byte x) as Hx. pose proof (u8_byte y) as Hy. pose proof (u8_byte z) as Hz.
  pose proof (mask4_range (u8 x) ltac:(unfold byte in *; lia)) as Hm. unfold bytes3, val3, byte in *. lia.
Qed.

Definition out6 (c e : Ctr3) : list Z :=
  let '(b0, b1, b2) := c in let '(e0, e1, e2) := e in [b0; b1; b2; e0; e1; e2].

(** getNextTXMsgCtr: the updates made, and the result, in each case. *)
Definition next_result (v : option Ctr3) (e : Ctr3) : option (list Z) :=
  match v with None => None | Some c => Some (out6 c e) end.

Lemma does_tail ws s (e : Ctr3) (ram' : TxRam) v : rd3 (applyw ws (mem s)) = v ->
  forall s', meq (mem s') (applyw ws (mem s)) ->
  does (run p <- getTXNVCtrPrefix;
        match p with
        | None => ret (None : option (list Z), ram')
        | Some (b0, b1, b2) => let '(e0, e1, e2) := e in ret (Some [b0; b1; b2; e0; e1; e2], ram')
        end) s' [] (next_result v e, ram').
Proof.
  intros Hv s' Hs. eapply does_bind0; [apply does_getPrefix|]. intros s2 H2. cbv beta.
  rewrite (rd3_meq (mem s') (applyw ws (mem s))) by (intros; apply Hs). rewrite Hv.
  destruct v as [[[b0 b1] b2]|]; destruct e as [[e0 e1] e2]; cbn [next_result out6]; apply does_ret.
Qed.

(** Read failure at first use after a restart. *)
Lemma does_next_init_none ram r s : inited ram = false -> rd3 (mem s) = None ->
  does (getNextTXMsgCtr ram r) s [] (None, mkTxRam true (eph ram)).
Proof.
  intros HI HR. unfold getNextTXMsgCtr. rewrite HI. cbn [negb].
  eapply does_bind0.
  - eapply does_bind0; [apply does_getPrefix|]. intros s1 H1. cbv beta. rewrite HR. apply does_ret.
  - intros s2 H2. cbv beta iota. apply does_ret.
Qed.
Lemma eph_next_init ram r : inited ram = false -> snd (eph_next ram r) = false /\ bytes3 (fst (eph_next ram r)).
Proof.
  intros HI. unfold eph_next. rewrite HI. cbn [negb]. destruct (eph_start_bytes r) as [HB HV].
  destruct (bump3_num _ HB) as (B1 & B2 & B3 & B4). split; [|exact B1].
  destruct (snd (bump3 _)); [|reflexivity]. destruct B2 as [B2 _]. specialize (B2 eq_refl). lia.
Qed.
(** First use with a zero prefix: reset to noise. *)
Lemma does_next_reset ram r s : inited ram = false -> rd3 (mem s) = Some (0, 0, 0) ->
  does (getNextTXMsgCtr ram r) s (W (reset_noise (rn r)))
    (Some (out6 (reset_noise (rn r)) (fst (eph_next ram r))), mkTxRam true (fst (eph_next ram r))).
Proof.
  intros HI HR. unfold getNextTXMsgCtr. destruct (eph_next_init ram r HI) as [HN _]. unfold eph_next in *.
  rewrite HI in *. cbn [negb] in *.
  rewrite <- (app_nil_r (W _)).
  eapply does_bind.
  - eapply does_bind0; [apply does_getPrefix|]. intros s1 H1. cbv beta. rewrite HR.
    change ((0 =? 0) && (0 =? 0) && (0 =? 0)) with true. cbv iota.
    rewrite <- (app_nil_r (W _)). eapply does_bind.
    + unfold resetTX. rewrite <- (app_nil_r (W _)). eapply does_bind.
      * unfold saveRawTX. apply does_save_checked.
      * intros s2 H2. cbv beta. apply does_ret.
    + intros s2 H2. cbv beta iota. apply does_ret.
  - intros s3 H3. cbv beta iota.
    destruct (bump3 _) as [e ovf]. cbn [fst snd] in *. subst ovf. cbn [orb].
    eapply does_bind0; [apply does_ret|]. intros s4 H4. cbv beta. cbn [negb].
    destruct (reset_noise_bytes (rn r)) as [HB HV].
    assert (HG : rd3 (applyw (W (reset_noise (rn r))) (mem s)) = Some (reset_noise (rn r))).
    { rewrite rd3_W by auto. replace (val3 _ =? 16777215) with false by lia. reflexivity. }
    pose proof (does_tail _ s e (mkTxRam true e) _ HG s4 (meq_trans _ _ _ H4 H3)) as HT.
    cbn [next_result] in HT. exact HT.
Qed.
(** First use with a non-zero prefix: increment. *)
Definition after_inc (v : Z) : option Ctr3 := if v + 1 =? 16777215 then None else Some (enc3 (v + 1)).
Lemma rd3_inc c m : bytes3 c -> val3 c < 16777215 -> rd3 (applyw (W (enc3 (val3 c + 1))) m) = after_inc (val3 c).
Proof.
  intros HB HV. pose proof (val3_range c HB). rewrite rd3_W by (apply enc3_bytes; lia).
  rewrite val3_enc by lia. reflexivity.
Qed.
Lemma does_next_inc ram r s c : inited ram = false -> bytes_mem (mem s) -> rd3 (mem s) = Some c -> val3 c <> 0 ->
  does (getNextTXMsgCtr ram r) s (W (enc3 (val3 c + 1)))
    (next_result (after_inc (val3 c)) (fst (eph_next ram r)), mkTxRam true (fst (eph_next ram r))).
Proof.
  intros HI HM HR HZ. destruct (rd3_bytes _ _ HM HR) as [HB HV].
  unfold getNextTXMsgCtr. unfold eph_next in *.
  rewrite HI in *. cbn [negb] in *.
  eapply does_bind0.
  - eapply does_bind0; [apply does_getPrefix|]. intros s1 H1. cbv beta. rewrite HR.
    destruct c as [[a b] l]. replace ((0 =? a) && (0 =? b) && (0 =? l)) with false.
    + apply does_ret.
    + unfold val3 in HZ. destruct (0 =? a) eqn:E1, (0 =? b) eqn:E2, (0 =? l) eqn:E3; try reflexivity. lia.
  - intros s1 H1. cbv beta iota.
    destruct (bump3 _) as [e ovf]. cbn [fst snd orb] in *.
    rewrite <- (app_nil_r (W _)). eapply does_bind.
    + apply does_increment.
      * intros q. rewrite H1. apply HM.
      * rewrite (rd3_meq _ (mem s)) by (intros; apply H1). exact HR.
    + intros s4 H4. cbv beta. cbn [negb]. apply (does_tail (W (enc3 (val3 c + 1))) s).
      * apply rd3_inc; auto.
      * eapply meq_trans; [exact H4|]. apply applyw_meq. exact H1.
Qed.
(** Later uses. *)
Lemma does_next_plain ram r s : inited ram = true -> snd (eph_next ram r) = false ->
  does (getNextTXMsgCtr ram r) s [] (next_result (rd3 (mem s)) (fst (eph_next ram r)), mkTxRam true (fst (eph_next ram r))).
Proof.
  intros HI HO. unfold getNextTXMsgCtr. unfold eph_next in *. rewrite HI in *. cbn [negb] in *.
  eapply does_bind0; [apply does_ret|]. intros s1 H1. cbv beta iota.
  destruct (bump3 _) as [e ovf]. cbn [fst snd] in *. subst ovf. cbn [orb].
  eapply does_bind0; [apply does_ret|]. intros s4 H4. cbv beta. cbn [negb].
  apply (does_tail [] s); [reflexivity|]. eapply meq_trans; [exact H4|exact H1].
Qed.
Lemma does_next_roll ram r s c : inited ram = true -> snd (eph_next ram r) = true ->
  bytes_mem (mem s) -> rd3 (mem s) = Some c ->
  does (getNextTXMsgCtr ram r) s (W (enc3 (val3 c + 1)))
     (next_result (after_inc (val3 c)) (fst (eph_next ram r)), mkTxRam true (fst (eph_next ram r))).
Proof.
  intros HI HO HM HR. destruct (rd3_bytes _ _ HM HR) as [HB HV].
  unfold getNextTXMsgCtr. unfold eph_next in *. rewrite HI in *. cbn [negb] in *.
  eapply does_bind0; [apply does_ret|]. intros s1 H1. cbv beta iota.
  destruct (bump3 _) as [e ovf]. cbn [fst snd] in *. subst ovf. cbn [orb].
  rewrite <- (app_nil_r (W _)). eapply does_bind.
  - apply does_increment.
    + intros q. rewrite H1. apply HM.
    + rewrite (rd3_meq _ (mem s)) by (intros; apply H1). exact HR.
  - intros s4 H4. cbv beta. cbn [negb]. apply (does_tail (W (enc3 (val3 c + 1))) s).
    + apply rd3_inc; auto.
    + eapply meq_trans; [exact H4|]. apply applyw_meq. exact H1.
Qed.
Lemma does_next_roll_none ram r s : inited ram = true -> snd (eph_next ram r) = true ->
  rd3 (mem s) = None ->
  does (getNextTXMsgCtr ram r) s [] (None, mkTxRam true (fst (eph_next ram r))).
Proof.
  intros HI HO HR.
  unfold getNextTXMsgCtr. unfold eph_next in *. rewrite HI in *. cbn [negb] in *.
  eapply does_bind0; [apply does_ret|]. intros s1 H1. cbv beta iota.
  destruct (bump3 _) as [e ovf]. cbn [fst snd] in *. subst ovf. cbn [orb].
  eapply does_bind0.
  - apply does_increment_none. rewrite (rd3_meq _ (mem s)) by (intros; apply H1). exact HR.
  - intros s4 H4. cbv beta. cbn [negb]. apply does_ret.
Qed.
