(** Messages from the radio to actions at the hub. *)
From Verif Require Import Base CrcSpec FrameModel FrameSpec FrameProofs SecureModel SecureSpec SecureProps SecureProofs SecureRawProps EepromModel EepromProofs AssocProps RxCtrModel RxCtrProofs RxCtrNormal RxCtrProps RxCtrCrash SecureRxModel SecureRxProps MsgModel.

(** ** Specification *)
(** The body carried by frame [b] whose decrypted 32-byte text is [q]: the last byte counts the padding. *)
Definition body_of (b q : list Z) : list Z :=
  if f_bl b =? 0 then [] else if znth q 31 <=? 31 then firstn (Z.to_nat (31 - znth q 31)) q else [].
(** The primitive accepts exactly the received header, ciphertext and tag, under the node's ID and the frame's
    counter, and gives [q]. *)
Definition opens (d : Dec) (ws : Z) (key node b q : list Z) : Prop :=
  d ws key (firstn 6 node ++ frame_ctr b) (firstn (Z.to_nat (4 + f_il b)) b)
    (if f_bl b =? 0 then None else Some (firstn 32 (skipn (Z.to_nat (4 + f_il b)) b)))
    (firstn 16 (skipn (Z.to_nat (f_fl b - 16)) b)) = Some q.
(** A secure 'O' (valve / sensor) frame. *)
Definition secure_O (b : list Z) : Prop := well_formed b (Zlen b) /\ f_type b = 207.
(** A body with a stats part: bit 4 of the second byte, then a JSON object. *)
Definition has_json (body : list Z) : bool :=
  (Zlen body >? 3) && negb (Z.land (znth body 1) 16 =? 0) && (znth body 2 =? 123).
(** What each operator does with an authenticated body; [junk] is the previous content of the body buffer. *)
Definition op_acts (minute : Z) (o : oper) (node b body junk : list Z) : list act :=
  match o with
  | OpNull => []
  | OpSerial => if has_json body then [ASerial node (f_seq b) (skipn 3 body)] else []
  | OpRelay => if has_json body then [ARelay (firstn (Z.to_nat (f_fl b)) (skipn 1 b))] else []
  | OpBoiler => let p := znth (body ++ junk) 0 in if p <=? 100 then [ABoiler p minute] else []
  end.

(** ** Decoding, with the plaintext *)
Definition msg_ok (b : list Z) : Prop := Forall byte b /\ f_fl b < Zlen b /\ 2 <= Zlen b.
Definition junk_ok (j : list Z) : Prop := Forall byte j /\ Zlen j = 31.
Definition rxe (b junk : list Z) (ss : Z) (key : option (list Z)) (f : nat) : RxFrame :=
  mkRxFrame b (Some junk) ss key f.

Lemma body_len b q : Zlen q = 32 -> Forall byte q -> 0 <= Zlen (body_of b q) <= 31.
Proof.
  intros HL HB. unfold body_of. pose proof (znth_byte q 31 HB) as Bq. unfold byte in Bq.
  destruct (_ =? 0); [change (Zlen (@nil Z)) with 0; lia|]. destruct (znth q 31 <=? 31) eqn:E; [|change (Zlen (@nil Z)) with 0; lia].
  rewrite Zlen_firstn. lia.
Qed.

Lemma decode_plain d s f b ss key junk r s' pt pl id : dec_sized d -> bytes_mem (mem s) -> msg_ok b -> junk_ok junk ->
  well_formed b (Zlen b) ->
  decodeV0p2 (s, Some f) d (hdr_decoded hdr0 b) (Some b) (Some junk) 0 (repeat 0 8) ss (Some key) = Some (r, s', pt, pl, id) ->
  (exists p, pt = Some p) /\
  (r = 0 \/
   exists q, r = f_fl b + 1 /\ opens d (ss - 58) key id b q /\ f_tl b = 23 /\ In id (ids (mem s)) /\ Zlen id = 8 /\
     starts_with (frame_id b) id /\ (exists i, scan (mem s) (frame_id b) 0 8 = Some (i, id)) /\
     (exists v, reads_back s id = Some v /\ be v < be (frame_ctr b)) /\
     (f_bl b <> 0 -> Zlen q = 32 /\ Forall byte q) /\
     pl = Zlen (body_of b q) /\ pt = Some (body_of b q ++ skipn (length (body_of b q)) junk)).
Proof.
  intros Hd HM (Hb & Hfl & H2) (HJB & HJ) W E.
  destruct (hdr_decoded_facts hdr0 b _ Hb W) as (D1 & D2 & D3 & D4 & D5 & D6 & D7 & D8 & D9).
  pose proof W as (W1 & W2 & W3 & W4 & W5 & W6 & W7 & W8 & W9 & W10 & W11 & W12 & W13).
  assert (Hil : 0 <= f_il b) by (unfold f_il; pose proof (Z.mod_pos_bound (znth b 2) 16); lia).
  pose proof (znth_byte b (3 + f_il b) Hb) as B3. fold (f_bl b) in B3. unfold byte in B3.
  unfold decodeV0p2, decode, decode_scratch_usage in E. rewrite D1, D3 in E.
  assert (FIN : forall x, Some (0, (s, Some f), Some junk, x, repeat 0 8) = Some (r, s', pt, pl, id) ->
     (exists p, pt = Some p) /\ (r = 0 \/ exists q, r = f_fl b + 1 /\ opens d (ss - 58) key id b q /\ f_tl b = 23 /\ In id (ids (mem s)) /\ Zlen id = 8 /\
     starts_with (frame_id b) id /\ (exists i, scan (mem s) (frame_id b) 0 8 = Some (i, id)) /\
     (exists v, reads_back s id = Some v /\ be v < be (frame_ctr b)) /\ (f_bl b <> 0 -> Zlen q = 32 /\ Forall byte q) /\
     pl = Zlen (body_of b q) /\ pt = Some (body_of b q ++ skipn (length (body_of b q)) junk))).
  { intros x K. apply some_inj in K. apply pair_inj in K as [K _]. apply pair_inj in K as [K _]. apply pair_inj in K as [K KP]. apply pair_inj in K as [K _].
    split; [exists junk; congruence|left; congruence]. }
  destruct (14 >? ss) eqn:E1; [exact (FIN _ E)|].
  destruct (negb (23 =? f_tl b)) eqn:E2; [exact (FIN _ E)|]. assert (HTL : f_tl b = 23) by lia.
  assert (H22 : 22 <= f_fl b) by (unfold f_tl in HTL; lia).
  assert (HID : Zlen (hid (hdr_decoded hdr0 b)) = 8).
  { cbn [hdr_decoded hid]. rewrite Zlen_app, Zlen_firstn, !Zlen_skipn. change (Zlen (hid hdr0)) with 8. lia. }
  rewrite rx_lookup_scan in E by (auto; lia).
  assert (HPre : firstn (Z.to_nat (getIl (hdr_decoded hdr0 b))) (hid (hdr_decoded hdr0 b)) = frame_id b).
  { rewrite D8. cbn [hdr_decoded hid]. unfold frame_id. rewrite firstn_app, firstn_firstn, Nat.min_id.
    replace (Z.to_nat (f_il b) - length (firstn (Z.to_nat (f_il b)) (skipn 3 b)))%nat with 0%nat.
    - rewrite firstn_O, app_nil_r. reflexivity.
    - rewrite firstn_length, skipn_length. unfold Zlen in *. lia. }
  rewrite HPre in E. pose proof (scan_spec (mem s) (frame_id b) 8 0) as HS. fold (ids (mem s)) in HS.
  destruct (scan (mem s) (frame_id b) 0 8) as [[i node]|] eqn:ES; [|exact (FIN _ E)].
  destruct HS as (_ & HIn & HSt & _). rewrite Z.sub_0_r in HIn. apply nth_error_In in HIn.
  assert (H8 : is_id node) by (eapply ids_from_len8; exact HIn).
  rewrite (D9 HTL) in E. rewrite sub_some in E by lia. change (Z.to_nat 6) with 6%nat in E.
  fold (frame_ctr b) in E. cbn [bind] in E.
  pose proof (frame_ctr_is b Hb Hfl H22) as HC. pose proof HC as [C6 CB].
  unfold validateRXMsgCtr, rx_last in E. cbn [fst] in E. fold (reads_back s node) in E.
  destruct (reads_back s node) as [cur|] eqn:EL; [|exact (FIN _ E)].
  assert (HCur : is_ctr cur).
  { pose proof EL as EL'. rewrite reads_back_eq in EL' by exact H8. apply lookup_last_six in EL'; [split; tauto|exact HM]. }
  destruct (C08_cmp_numeric (frame_ctr b) cur C6 (proj1 HCur) CB (proj2 HCur)) as (rc & ECmp & HCmp). rewrite ECmp in E. cbn [bind] in E.
  destruct (rc >? 0) eqn:ERC; cbn [negb] in E; [|exact (FIN _ E)].
  unfold decodeFromID, decodeFromID_scratch_usage in E.
  destruct (12 >? subspace ss 14) eqn:E3; [exact (FIN _ E)|].
  replace (Zlen node <? 6) with false in E by (unfold is_id in H8; lia).
  rewrite rd_some in E by lia. cbn [bind] in E. change (znth b 0) with (f_fl b) in E. rewrite u8_id in E by (unfold byte; lia).
  rewrite (D9 HTL) in E. replace (f_fl b - 22 + 6 >? f_fl b + 1) with false in E by lia.
  rewrite sub_full_prefix in E by (unfold is_id in H8; lia). cbn [bind] in E. rewrite sub_some in E by lia. cbn [bind] in E.
  change (Z.to_nat 6) with 6%nat in E. fold (frame_ctr b) in E.
  set (iv := firstn 6 node ++ frame_ctr b) in *.
  assert (Hiv : Zlen iv = 12).
  { unfold iv. rewrite Zlen_app, Zlen_firstn, C6. unfold is_id in H8. lia. }
  assert (Hss : 26 <= ss /\ subspace ss 14 = ss - 14).
  { unfold subspace in *. change (0 =? 14) with false in *. cbn [orb] in *. destruct (ss <=? 14) eqn:E4; lia. }
  assert (DH : decodeHeader hdr0 (Some b) (Zlen b) = Some (4 + f_il b, hdr_decoded hdr0 b)).
  { destruct (decodeHeader_char hdr0 b (Zlen b) ltac:(lia) Hb ltac:(reflexivity)) as [[_ D]|[NW _]]; [exact D|contradiction]. }
  destruct (C11_decodeRaw_exact d hdr0 b (Zlen b) (4 + f_il b) (hdr_decoded hdr0 b) (Some junk) 0
              (subspace (subspace ss 14) 12) key iv Hd Hb eq_refl ltac:(lia) DH ltac:(lia) Hfl Hiv
              ltac:(intros p K; apply some_inj in K; subst p; lia))
    as (rr & pt' & pl' & ER & HR1 & HR2 & HR0).
  rewrite ER in E. cbn [bind] in E.
  destruct (0 =? rr) eqn:E5.
  { destruct (HR0 ltac:(lia)) as [-> _]. exact (FIN _ E). }
  specialize (HR2 ltac:(lia)). destruct HR2 as (RV & HR2).
  destruct HR1 as [HR1 _]. specialize (HR1 ltac:(lia)). destruct HR1 as (G1 & _ & _ & GBL & _ & q & HQ).
  assert (Hsub : subspace (subspace ss 14) 12 = ss - 26).
  { unfold subspace in G1 |- *. change (0 =? 14) with false in *. change (0 =? 12) with false in *. cbn [orb] in *.
    destruct (ss <=? 14); cbn in G1; [lia|]. destruct (ss - 14 <=? 12) eqn:E6; lia. }
  rewrite Hsub in HQ, HR2. specialize (HR2 q HQ). cbv beta iota in HR2. destruct HR2 as (P0 & P1 & P2).
  replace (ss - 26 - 32) with (ss - 58) in HQ by lia.
  assert (SZ : f_bl b <> 0 -> Zlen q = 32 /\ Forall byte q).
  { intros K. destruct (Z.eqb_spec (f_bl b) 0); [contradiction|].
    assert (B32 : Zlen b - (4 + f_il b) >= 32) by (unfold f_tl in HTL; lia). refine (Hd _ _ _ _ _ _ _ _ _ HQ); [change 32%nat with (Z.to_nat 32); rewrite Zlen_firstn, Zlen_skipn; lia|apply Forall_firstn', Forall_skipn'; exact Hb]. }
  assert (PB : pl' = Zlen (body_of b q) /\ pt' = Some (body_of b q ++ skipn (length (body_of b q)) junk)).
  { unfold body_of. destruct (Z.eqb_spec (f_bl b) 0) as [K|K].
    - destruct (P0 K) as [-> ->]. split; reflexivity.
    - destruct (SZ K) as [SZ1 SZ2]. pose proof (znth_byte q 31 SZ2) as Bq. unfold byte in Bq.
      destruct (Z.leb_spec (znth q 31) 31) as [K2|K2].
      + destruct (P1 ltac:(lia) K2) as [-> ->]. split; [rewrite Zlen_firstn; lia|].
        f_equal. f_equal. f_equal. rewrite firstn_length. unfold Zlen in SZ1. lia.
      + destruct (P2 ltac:(lia) K2) as [-> ->]. split; reflexivity. }
  destruct PB as [PB1 PB2].
  destruct (rx_auth (s, Some f) node (frame_ctr b)) as [ok s2] eqn:EA.
  assert (PP : exists p, pt = Some p).
  { destruct ok; apply some_inj in E; apply pair_inj in E as [E _]; apply pair_inj in E as [E _]; apply pair_inj in E as [E K]; exists (body_of b q ++ skipn (length (body_of b q)) junk); congruence. }
  split; [exact PP|].
  destruct ok; apply some_inj in E; apply pair_inj in E as [E K5]; apply pair_inj in E as [E K4]; apply pair_inj in E as [E K3]; apply pair_inj in E as [K1 K2].
  2:{ left. congruence. }
  right. exists q. subst id. split; [congruence|]. split; [exact HQ|]. split; [exact HTL|]. split; [exact HIn|]. split; [exact H8|]. split; [exact HSt|].
  split; [exists i; reflexivity|]. split; [exists cur; split; [exact EL|]; apply Z.gtb_lt in ERC; assert (KK : be (frame_ctr b) > be cur) by (apply HCmp; lia); lia|]. split; [exact SZ|]. split; congruence.
Qed.

(** ** Operators *)
Lemma znth_app_l (a b : list Z) i : 0 <= i < Zlen a -> znth (a ++ b) i = znth a i.
Proof. intros H. unfold znth, Zlen in *. apply app_nth1. lia. Qed.
Lemma run_op_ok minute o node seq b body junk : msg_ok b -> junk_ok junk -> Zlen body <= 31 -> seq = f_seq b ->
  run_op minute o (mkFd node seq b (body ++ skipn (length body) junk) (Zlen body)) = Some (op_acts minute o node b body junk).
Proof.
  intros (Hb & Hfl & H2) (HJB & HJ) HB ->.
  set (p := body ++ skipn (length body) junk).
  assert (HL : Zlen p = 31).
  { unfold p. rewrite Zlen_app, Zlen_skipn. unfold Zlen in *. lia. }
  assert (HF : 0 <= f_fl b) by (pose proof (znth_byte b 0 Hb) as K; unfold byte in K; unfold f_fl; lia).
  assert (WT : worth (mkFd node (f_seq b) b p (Zlen body)) = Some (has_json body)).
  { unfold worth, has_json. cbn [fd_ptext fd_plen]. rewrite rd_some by lia. cbn [bind].
    destruct (Z.gtb_spec (Zlen body) 3) as [G|G]; cbn [negb andb].
    - unfold p. rewrite znth_app_l by lia. destruct (Z.land (znth body 1) 16 =? 0); cbn [negb andb]; [reflexivity|].
      rewrite rd_some by (unfold p in HL; lia). cbn [bind]. rewrite znth_app_l by lia. rewrite Z.eqb_sym. reflexivity.
    - destruct (_ =? 0); reflexivity. }
  destruct o; cbn [run_op op_acts].
  - reflexivity.
  - rewrite WT. cbn [bind fd_ptext fd_id fd_seq fd_plen]. destruct (has_json body) eqn:EH; [|reflexivity].
    assert (G : Zlen body > 3) by (unfold has_json in EH; destruct (Z.gtb_spec (Zlen body) 3); [lia|discriminate]).
    rewrite sub_some by lia. cbn [bind]. f_equal. f_equal. f_equal.
    unfold p. rewrite skipn_app, firstn_app. rewrite firstn_all2 by (rewrite skipn_length; unfold Zlen; lia).
    replace (Z.to_nat (Zlen body - 3) - length (skipn (Z.to_nat 3) body))%nat with 0%nat by (rewrite skipn_length; unfold Zlen; lia).
    rewrite firstn_O, app_nil_r. reflexivity.
  - rewrite WT. cbn [bind fd_ctext]. destruct (has_json body); [|reflexivity].
    rewrite rd_some by lia. cbn [bind]. fold (f_fl b). rewrite sub_some by lia. reflexivity.
  - cbn [fd_ptext]. rewrite rd_some by lia. cbn [bind]. cbv zeta. f_equal.
    assert (E : znth p 0 = znth (body ++ junk) 0) by (unfold p; destruct body; reflexivity). rewrite E. reflexivity.
Qed.

Lemma wf_fl b : msg_ok b -> well_formed b (Zlen b) <-> well_formed b (u8 (f_fl b + 1)).
Proof.
  intros (Hb & Hfl & H2). pose proof (znth_byte b 0 Hb) as B0. fold (f_fl b) in B0. unfold byte in B0.
  assert (Hil : 0 <= f_il b) by (unfold f_il; pose proof (Z.mod_pos_bound (znth b 2) 16); lia).
  destruct (Z.eq_dec (f_fl b) 255) as [E|E].
  - rewrite E. change (u8 (255 + 1)) with 0. unfold well_formed. rewrite E. split; intros K; decompose [and] K; lia.
  - rewrite u8_id by (red; lia). unfold well_formed. split; intros K; decompose [and] K; repeat split; try assumption; try lia; intros; auto with zarith.
Qed.

(** ** One message *)
(** The secure-O handler, for every message, EEPROM content, key, primitive, scratch size, operators, and previous
    content of the body buffer: no undefined behaviour; it claims the message iff it is a well-formed secure O
    frame; otherwise it does nothing; it acts only if the receiver accepts the frame, and then does exactly what the
    operators specify for the authenticated body. *)
Theorem msg_handler d key ss minute o1 o2 junk s f b :
  dec_sized d -> bytes_mem (mem s) -> msg_ok b -> junk_ok junk ->
  exists s' ok acts o,
    handle_O d key ss minute o1 o2 junk (s, Some f) b = Some (s', ok, acts) /\
    (ok = true <-> secure_O b) /\
    (ok = false -> acts = [] /\ s' = (s, Some f)) /\
    (ok = true -> rx_frame d s (rxe b junk (subspace ss 16) key f) = Some (fst s', o) /\ (o <> FrLost -> snd s' <> None)) /\
    (ok = true -> match o with
     | FrAcc node => exists k q, key = Some k /\ opens d (subspace ss 16 - 58) k node b q /\
         In node (ids (mem s)) /\ starts_with (frame_id b) node /\
         (exists i, scan (mem s) (frame_id b) 0 8 = Some (i, node)) /\
         (exists v, reads_back s node = Some v /\ be v < be (frame_ctr b)) /\
         (f_bl b <> 0 -> Zlen q = 32 /\ Forall byte q) /\
         acts = op_acts minute o1 node b (body_of b q) junk ++ op_acts minute o2 node b (body_of b q) junk
     | _ => acts = []
     end).
Proof.
  intros Hd HM Hmsg HJ. pose proof Hmsg as (Hb & Hfl & H2).
  pose proof (znth_byte b 0 Hb) as B0. fold (f_fl b) in B0. unfold byte in B0.
  unfold handle_O. rewrite (rd_some b 1) by lia. cbn [bind]. rewrite (rd_some b 0) by lia. cbn [bind]. fold (f_fl b). fold (f_type b).
  assert (HN : u8 (f_fl b + 1) <= Zlen b).
  { destruct (Z.eq_dec (f_fl b) 255) as [->|]; [change (u8 (255 + 1)) with 0; lia|rewrite u8_id by (red; lia); lia]. }
  pose proof (wf_fl b Hmsg) as WF.
  destruct (decodeHeader_char hdr0 b (u8 (f_fl b + 1)) HN Hb eq_refl) as [[W D]|[NW (h' & D & _)]]; rewrite D; cbn [bind].
  2:{ change (0 =? 0) with true. cbv iota. exists (s, Some f), false, [], FrRej. split; [reflexivity|].
      split; [split; [discriminate|]; intros [K _]; apply WF in K; contradiction|]. split; [auto|]. split; discriminate. }
  apply WF in W. assert (Hil : 0 <= f_il b) by (unfold f_il; pose proof (Z.mod_pos_bound (znth b 2) 16); lia).
  replace (4 + f_il b =? 0) with false by lia. cbv iota.
  destruct (Z.eqb_spec 207 (f_type b)) as [HT|HT]; cbn [negb].
  2:{ exists (s, Some f), false, [], FrRej. split; [reflexivity|].
      split; [split; [discriminate|]; intros [_ K]; congruence|]. split; [auto|]. split; discriminate. }
  assert (HS : isSecure (hdr_decoded hdr0 b) = true).
  { unfold isSecure. cbn [hdr_decoded hftype]. change (znth b 1) with (f_type b); rewrite <- HT; reflexivity. }
  rewrite HS. cbn [negb].
  assert (SO : secure_O b) by (split; [exact W|congruence]).
  assert (DH : decodeHeader hdr0 (Some b) (Zlen b) = Some (4 + f_il b, hdr_decoded hdr0 b)).
  { destruct (decodeHeader_char hdr0 b (Zlen b) ltac:(lia) Hb ltac:(reflexivity)) as [[_ D2]|[NW _]]; [exact D2|contradiction]. }
  assert (FOK : frame_ok (rxe b junk (subspace ss 16) key f)).
  { split; [exact Hb|]. split; [exact Hfl|]. cbn [rxe fr_ptext]. intros p K. apply some_inj in K. subst p. destruct HJ; lia. }
  assert (REF : (ss < 16 \/ key = None) -> rx_frame d s (rxe b junk (subspace ss 16) key f) = Some (s, FrRej)).
  { intros K. destruct (rx_frame_step d s _ Hd HM FOK) as [E|(node & k & s1 & o & E1 & E2 & _ & _ & _ & _ & _ & _ & _ & EK & _)]; [exact E|].
    destruct K as [K|K]; [|cbn [rxe fr_key] in EK; congruence].
    unfold rx_frame. cbn [rxe fr_buf fr_scratch]. rewrite DH. cbn [bind].
    unfold decodeV0p2, decode, decode_scratch_usage, subspace. change (0 =? 16) with false. cbn [orb].
    rewrite (proj2 (Z.leb_le ss 16)) by lia. reflexivity. }
  unfold authAndDecode. destruct (Z.ltb_spec ss 16) as [L16|L16].
  { cbn [bind]. exists (s, Some f), true, [], FrRej. split; [reflexivity|]. split; [split; auto|]. split; [discriminate|].
    split; [|reflexivity]. intros _. split; [apply REF; auto|cbn; congruence]. }
  destruct key as [k|].
  2:{ cbn [bind]. exists (s, Some f), true, [], FrRej. split; [reflexivity|]. split; [split; auto|]. split; [discriminate|].
    split; [|reflexivity]. intros _. split; [apply REF; auto|cbn; congruence]. }
  destruct (decodeV0p2 (s, Some f) d (hdr_decoded hdr0 b) (Some b) (Some junk) 0 (repeat 0 8) (subspace ss 16) (Some k)) as [[[[[r s'] pt] pl] id]|] eqn:ED.
  2:{ exfalso. destruct (rx_frame_step d s _ Hd HM FOK) as [E|(node & k' & s1 & o & E1 & E & _)];
      unfold rx_frame in E; cbn [rxe fr_buf fr_ptext fr_scratch fr_key fr_power] in E; rewrite DH in E; cbn [bind] in E; rewrite ED in E; discriminate. }
  cbn [bind]. destruct (decode_plain d s f b (subspace ss 16) k junk r s' pt pl id Hd HM Hmsg HJ W ED) as [(p & ->) HR].
  cbn [bind].
  assert (RX : rx_frame d s (rxe b junk (subspace ss 16) (Some k) f) = Some (fst s', match snd s' with None => FrLost | Some _ => if r =? 0 then FrRej else FrAcc id end)).
  { unfold rx_frame. cbn [rxe fr_buf fr_ptext fr_scratch fr_key fr_power]. rewrite DH. cbn [bind]. rewrite ED. reflexivity. }
  destruct HR as [->|(q & HR & HQ & HTL & HIn & HI8 & HSt & HSc & HFr & HSz & -> & HPT)].
  - change (0 =? 0) with true in *. cbv iota in *.
    exists s', true, [], (match snd s' with None => FrLost | Some _ => FrRej end). split; [reflexivity|]. split; [split; auto|]. split; [discriminate|].
    split; [|destruct (snd s'); reflexivity]. intros _. split; [exact RX|]. destruct (snd s'); congruence.
  - assert (R0 : r =? 0 = false) by lia. rewrite R0 in *. change (2 <? ptextLenMax) with true. cbv iota.
    destruct (snd s') as [f'|] eqn:EF.
    + apply some_inj in HPT. rewrite HPT.
      assert (HBL : Zlen (body_of b q) <= 31).
      { destruct (Z.eq_dec (f_bl b) 0) as [K|K]; [unfold body_of; rewrite K; change (0 =? 0) with true; cbv iota; change (Zlen (@nil Z)) with 0; lia|].
        destruct (HSz K). apply body_len; assumption. }
      assert (ESQ : getSeq (hdr_decoded hdr0 b) = f_seq b) by apply (hdr_decoded_facts hdr0 b _ Hb W).
      rewrite !run_op_ok by assumption. cbn [bind].
      eexists s', true, _, (FrAcc id). split; [reflexivity|]. split; [split; auto|]. split; [discriminate|].
      split; [intros _; split; [exact RX|congruence]|]. intros _. exists k, q. repeat (split; [assumption || reflexivity|]). reflexivity.
    + (* a lost power supply with a result: impossible *)
      exfalso. destruct (rx_frame_step d s _ Hd HM FOK) as [E|(node & k' & s1 & o & E1 & E & _)].
      * rewrite RX in E. apply some_pair_inj in E as [_ E]. discriminate.
      * revert ED. clear -EF R0 HR W Hb Hfl. unfold decodeV0p2, decode. 
        repeat match goal with
        | |- context [if ?c then _ else _] => destruct c
        end; try (intros K; apply some_inj in K; apply pair_inj in K as [K _]; apply pair_inj in K as [K _]; apply pair_inj in K as [K _]; apply pair_inj in K as [K _]; lia).
        destruct (rx_lookup _ _ _) as [[ix node]|]; [|intros K; apply some_inj in K; apply pair_inj in K as [K _]; apply pair_inj in K as [K _]; apply pair_inj in K as [K _]; apply pair_inj in K as [K _]; lia].
        destruct (sub b _ 6) as [ctr|]; cbn [bind]; [|discriminate].
        destruct (validateRXMsgCtr _ _ _ _) as [v|]; cbn [bind]; [|discriminate]. destruct v; cbn [negb]; [|intros K; apply some_inj in K; apply pair_inj in K as [K _]; apply pair_inj in K as [K _]; apply pair_inj in K as [K _]; apply pair_inj in K as [K _]; lia].
        destruct (decodeFromID _ _ _ _ _ _ _ _) as [[[r2 p2] pl2]|]; cbn [bind]; [|discriminate].
        destruct (0 =? r2); [intros K; apply some_inj in K; apply pair_inj in K as [K _]; apply pair_inj in K as [K _]; apply pair_inj in K as [K _]; apply pair_inj in K as [K _]; lia|].
        unfold rx_auth. cbn [snd fst]. destruct (authAndUpdateRXMsgCtr node ctr s f) as [s3 [[okk f3]|]].
        -- destruct okk; intros K; apply some_inj in K; apply pair_inj in K as [K _]; apply pair_inj in K as [K _]; apply pair_inj in K as [K _]; apply pair_inj in K as [K1 K2]; [|lia]. subst s'. discriminate.
        -- intros K; apply some_inj in K; apply pair_inj in K as [K _]; apply pair_inj in K as [K _]; apply pair_inj in K as [K _]; apply pair_inj in K as [K1 K2]; lia.
Qed.
