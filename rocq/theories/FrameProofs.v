From Verif Require Import Base CrcModel CrcSpec CrcLin CrcProofs FrameModel FrameSpec.

Local Open Scope Z_scope.

(** ** Bit-field facts on bytes *)
Lemma land15 x : Z.land x 15 = x mod 16.
Proof. change 15 with (Z.ones 4). rewrite Z.land_ones by lia. reflexivity. Qed.
Lemma land127 x : Z.land x 127 = x mod 128.
Proof. change 127 with (Z.ones 7). rewrite Z.land_ones by lia. reflexivity. Qed.
Lemma secure_bit x : byte x -> negb (Z.land 128 x =? 0) = (128 <=? x).
Proof.
  intros H. assert (Hs : below 256 (fun x => Bool.eqb (negb (Z.land 128 x =? 0)) (128 <=? x)) = true)
    by (vm_compute; reflexivity).
  apply eqb_prop. exact (below_spec _ _ Hs x H).
Qed.
Lemma seqil_enc il seq : 0 <= il <= 8 -> byte seq ->
  u8 (Z.lor il (Z.shiftl seq 4)) = 16 * (seq mod 16) + il.
Proof.
  intros H H0. assert (Hs : below2 9 256 (fun il seq =>
    u8 (Z.lor il (Z.shiftl seq 4)) =? 16 * (seq mod 16) + il) = true)
    by (vm_compute; reflexivity).
  apply Z.eqb_eq. apply (below2_spec _ _ _ Hs); unfold byte in *; lia.
Qed.
Lemma type_enc (secure : bool) ty : 1 <= ty <= 126 ->
  (if secure then Z.lor 128 ty else Z.land 127 ty) = (if secure then 128 else 0) + ty.
Proof.
  intros H. assert (Hs : below 127 (fun ty => (Z.lor 128 ty =? 128 + ty) && (Z.land 127 ty =? ty)) = true)
    by (vm_compute; reflexivity).
  pose proof (below_spec _ _ Hs ty ltac:(lia)) as H1. cbv beta in H1.
  destruct secure; lia.
Qed.
Lemma seq_dec x : byte x -> Z.land (Z.shiftr x 4) 15 = x / 16.
Proof.
  intros. rewrite land15, Z.shiftr_div_pow2 by lia. change (2 ^ 4) with 16.
  unfold byte in *. apply Z.mod_small. split; [apply Z.div_pos; lia|].
  apply Z.div_lt_upper_bound; lia.
Qed.

(** ** blit helper: overwriting the start of a list *)
Lemma blit_app_mid p l src s off : off = Zlen p -> Zlen l = Zlen src ->
  blit (p ++ l ++ s) off src = Some (p ++ src ++ s).
Proof.
  intros -> HL. rewrite blit_some.
  - f_equal. unfold Zlen in *. rewrite Nat2Z.id. f_equal.
    + rewrite firstn_app, Nat.sub_diag, firstn_all. simpl. apply app_nil_r.
    + f_equal. replace (Z.to_nat _) with (length p + length l)%nat by lia.
      rewrite app_assoc, <- app_length, skipn_app, Nat.sub_diag, skipn_all. reflexivity.
  - apply Zlen_nonneg.
  - rewrite !Zlen_app. pose proof (Zlen_nonneg s). lia.
Qed.

Lemma sub_full_prefix l n : 0 <= n <= Zlen l -> sub l 0 n = Some (firstn (Z.to_nat n) l).
Proof. intros. rewrite sub_some by lia. reflexivity. Qed.

Lemma list_split_at (l : list Z) n : 0 <= n <= Zlen l ->
  exists a b, l = a ++ b /\ Zlen a = n.
Proof.
  intros. exists (firstn (Z.to_nat n) l), (skipn (Z.to_nat n) l). split.
  - symmetry. apply firstn_skipn.
  - rewrite Zlen_firstn. lia.
Qed.

(** ** encodeHeader: complete characterisation *)

Lemma encodeHeader_bad h buffer n secure ty seq id il bl tl :
  0 <= il -> 0 <= bl -> 0 <= tl -> 0 <= ty -> il <= Zlen id -> Zlen (hid h) = 8 ->
  ~ sendable secure ty il bl tl n ->
  exists h', encodeHeader h buffer n secure ty seq (Some id) il bl tl = Some (0, h', buffer)
    /\ isInvalid h' = true.
Proof.
  intros Hil Hbl Htl Hty Hid Hh Hns. unfold encodeHeader, sendable, FTS_NONE, FTS_INVALID_HIGH,
    maxIDLength, maxSmallFrameSize in *.
  destruct ((ty =? 0) || (ty >=? 127)) eqn:E1; [eexists; split; [reflexivity|reflexivity]|].
  destruct (il >? 8) eqn:E2; [eexists; split; [reflexivity|reflexivity]|].
  destruct (il >? 0) eqn:E3.
  - rewrite sub_full_prefix by lia. cbn [bind].
    assert (HL : Zlen (firstn (Z.to_nat il) id) = il) by (rewrite Zlen_firstn; lia).
    destruct (blit_ok (hid (set_seqil (set_ftype (set_fl h 0)
               (if secure then Z.lor 128 ty else Z.land 127 ty))
               (u8 (Z.lor il (Z.shiftl seq 4))))) 0 (firstn (Z.to_nat il) id)) as [hid' Hb].
    { lia. } { cbn. lia. }
    rewrite Hb. cbn [bind].
    destruct (4 + il >? n) eqn:E4; [eexists; split; [reflexivity|reflexivity]|].
    destruct (bl >? 63 - (4 + il)) eqn:E5; [eexists; split; [reflexivity|reflexivity]|].
    destruct secure; cbn [negb].
    + destruct ((0 =? tl) || (tl >? 63 + 1 - (4 + il) - bl)) eqn:E6;
        [eexists; split; [reflexivity|reflexivity]|].
      exfalso. apply Hns. repeat split; try lia; try (intros; discriminate).
    + destruct (1 =? tl) eqn:E6; cbn [negb]; [|eexists; split; [reflexivity|reflexivity]].
      exfalso. apply Hns. repeat split; try lia.
  - destruct (4 + il >? n) eqn:E4; [eexists; split; [reflexivity|reflexivity]|].
    destruct (bl >? 63 - (4 + il)) eqn:E5; [eexists; split; [reflexivity|reflexivity]|].
    destruct secure; cbn [negb].
    + destruct ((0 =? tl) || (tl >? 63 + 1 - (4 + il) - bl)) eqn:E6;
        [eexists; split; [reflexivity|reflexivity]|].
      exfalso. apply Hns. repeat split; try lia; try (intros; discriminate).
    + destruct (1 =? tl) eqn:E6; cbn [negb]; [|eexists; split; [reflexivity|reflexivity]].
      exfalso. apply Hns. repeat split; try lia.
Qed.

Definition hdr_result (h : Hdr) (secure : bool) (ty seq : Z) (id : list Z) (bl tl : Z) : Hdr :=
  mkHdr (3 + Zlen id + bl + tl) ((if secure then 128 else 0) + ty)
        (16 * (seq mod 16) + Zlen id) (id ++ skipn (length id) (hid h)) bl.

Lemma encodeHeader_good h b rest secure ty seq id idrest bl tl n :
  byte seq -> 0 <= bl -> Zlen (hid h) = 8 ->
  sendable secure ty (Zlen id) bl tl n ->
  Zlen b = 4 + Zlen id ->
  encodeHeader h (Some (b ++ rest)) n secure ty seq (Some (id ++ idrest)) (Zlen id) bl tl
  = Some (4 + Zlen id, hdr_result h secure ty seq id bl tl,
          Some (frame_header secure ty seq id bl tl ++ rest)).
Proof.
  intros Hseq Hbl Hh (Hty & Hil & Hn & Htl & Hns & Hfl) Hb.
  unfold encodeHeader, FTS_NONE, FTS_INVALID_HIGH, maxIDLength, maxSmallFrameSize.
  replace ((ty =? 0) || (ty >=? 127)) with false by lia.
  replace (Zlen id >? 8) with false by lia.
  rewrite type_enc by lia. rewrite seqil_enc by auto.
  set (T := (if secure then 128 else 0) + ty). set (S := 16 * (seq mod 16) + Zlen id).
  assert (Hcond : (if negb secure then negb (1 =? tl)
      else (0 =? tl) || (tl >? 63 + 1 - (4 + Zlen id) - bl)) = false).
  { destruct secure; cbn [negb]; [lia|]. rewrite Hns by reflexivity. reflexivity. }
  assert (Hfl8 : u8 (4 + Zlen id - 1 + bl + tl) = 3 + Zlen id + bl + tl).
  { rewrite u8_id; [lia|]. unfold byte. lia. }
  set (hid' := id ++ skipn (length id) (hid h)).
  assert (Hbody : forall hh, hid hh = hid' -> hfl hh = 0 -> hftype hh = T -> hseqil hh = S ->
    (if 4 + Zlen id >? n then Some (0, hh, Some (b ++ rest)) else
     if bl >? 63 - (4 + Zlen id) then Some (0, hh, Some (b ++ rest)) else
     if (if negb secure then negb (1 =? tl)
        else (0 =? tl) || (tl >? 63 + 1 - (4 + Zlen id) - bl))
     then Some (0, set_bl hh bl, Some (b ++ rest)) else
     do buffer' <-
       (do b <- wr (b ++ rest) 0 (u8 (4 + Zlen id - 1 + bl + tl));
          do b <- wr b 1 (hftype (set_bl hh bl));
          do b <- wr b 2 (hseqil (set_bl hh bl));
          do idb <- sub (hid (set_bl hh bl)) 0 (Zlen id);
          do b <- blit b 3 idb;
          do b <- wr b (3 + Zlen id) bl;
          Some (Some b));
     Some (4 + Zlen id, set_fl (set_bl hh bl) (u8 (4 + Zlen id - 1 + bl + tl)), buffer'))
   = Some (4 + Zlen id, hdr_result h secure ty seq id bl tl,
          Some (frame_header secure ty seq id bl tl ++ rest))).
  { intros hh Hid Hfl0 Hft Hsi.
    replace (4 + Zlen id >? n) with false by lia.
    replace (bl >? 63 - (4 + Zlen id)) with false by lia.
    rewrite Hcond, Hfl8. cbn [hftype hseqil hid set_bl hfl set_fl]. rewrite Hft, Hsi, Hid.
    pose proof (Zlen_nonneg id) as Hidn.
    destruct b as [|b0 [|b1 [|b2 b]]]; rewrite ?Zlen_cons, ?Zlen_nil in Hb; try lia.
    destruct (list_split_at b (Zlen id)) as (bi & bt & -> & Hbi); [lia|].
    destruct bt as [|b3 bt]; [rewrite Zlen_app, Zlen_nil in Hb; lia|].
    assert (bt = []).
    { destruct bt; auto. rewrite Zlen_app, !Zlen_cons in Hb. pose proof (Zlen_nonneg bt). lia. }
    subst bt.
    unfold wr.
    rewrite (blit_app_mid [] [b0] _ ((b1 :: b2 :: bi ++ [b3]) ++ rest)) by reflexivity.
    cbn [bind].
    rewrite (blit_app_mid [3 + Zlen id + bl + tl] [b1] _ ((b2 :: bi ++ [b3]) ++ rest)) by reflexivity.
    cbn [bind].
    rewrite (blit_app_mid [3 + Zlen id + bl + tl; T] [b2] _ ((bi ++ [b3]) ++ rest)) by reflexivity.
    cbn [bind].
    rewrite sub_full_prefix.
    2:{ unfold hid'. rewrite Zlen_app, Zlen_skipn. unfold Zlen in *. lia. }
    cbn [bind].
    replace (firstn (Z.to_nat (Zlen id)) hid') with id.
    2:{ unfold hid', Zlen. rewrite Nat2Z.id, firstn_app, firstn_all, Nat.sub_diag. simpl.
        rewrite app_nil_r. reflexivity. }
    replace ([3 + Zlen id + bl + tl; T] ++ [S] ++ (bi ++ [b3]) ++ rest)
      with ([3 + Zlen id + bl + tl; T; S] ++ bi ++ ([b3] ++ rest))
      by (rewrite <- (app_assoc bi); reflexivity).
    rewrite blit_app_mid by (try reflexivity; lia). cbn [bind].
    rewrite app_assoc. rewrite (blit_app_mid _ [b3]).
    2:{ rewrite Zlen_app, !Zlen_cons, Zlen_nil. lia. }
    2:{ reflexivity. }
    cbn [bind]. f_equal. f_equal.
    - unfold set_fl, hdr_result. cbn. rewrite Hft, Hsi, Hid. reflexivity.
    - f_equal. unfold frame_header. fold T. fold S. rewrite <- !app_assoc. reflexivity. }
  destruct (Zlen id >? 0) eqn:E0.
  - rewrite sub_full_prefix.
    2:{ rewrite Zlen_app. pose proof (Zlen_nonneg idrest). lia. }
    cbn [bind].
    replace (firstn (Z.to_nat (Zlen id)) (id ++ idrest)) with id.
    2:{ unfold Zlen. rewrite Nat2Z.id, firstn_app, firstn_all, Nat.sub_diag. simpl.
        rewrite app_nil_r. reflexivity. }
    cbn [hid set_seqil set_ftype set_fl].
    rewrite blit_some by lia. cbn [bind]. apply Hbody; try reflexivity.
    cbn. unfold hid'. do 2 f_equal. unfold Zlen. lia.
  - apply Hbody; try reflexivity. cbn.
    assert (id = []). { destruct id; auto. rewrite Zlen_cons in E0. pose proof (Zlen_nonneg id). lia. }
    subst id. reflexivity.
Qed.

(** ** decodeHeader: complete characterisation *)
Definition hdr_decoded (h : Hdr) (b : list Z) : Hdr :=
  mkHdr (f_fl b) (f_type b) (znth b 2)
        (firstn (Z.to_nat (f_il b)) (skipn 3 b) ++ skipn (Z.to_nat (f_il b)) (hid h))
        (f_bl b).

Lemma decodeHeader_char h b n : n <= Zlen b -> Forall byte b -> Zlen (hid h) = 8 ->
  (well_formed b n /\
   decodeHeader h (Some b) n = Some (4 + f_il b, hdr_decoded h b)) \/
  (~ well_formed b n /\
   exists h', decodeHeader h (Some b) n = Some (0, h') /\ hfl h' = 0).
Proof.
  intros Hn Hb Hh.
  assert (HB : forall i, byte (znth b i)) by (intros; apply znth_byte; auto).
  unfold decodeHeader, FTS_NONE, FTS_INVALID_HIGH, maxIDLength, maxSmallFrameSize.
  destruct (n <? 5) eqn:E0.
  { right. split; [unfold well_formed; lia|]. eexists; split; reflexivity. }
  rewrite (rd_some b 0) by lia. cbn [bind]. change (znth b 0) with (f_fl b).
  destruct (f_fl b <? 4) eqn:E1.
  { right. split; [unfold well_formed; lia|]. eexists; split; reflexivity. }
  destruct (f_fl b >? 63) eqn:E2.
  { right. split; [unfold well_formed; lia|]. eexists; split; reflexivity. }
  rewrite (rd_some b 1) by lia. cbn [bind]. change (znth b 1) with (f_type b).
  rewrite land127.
  pose proof (HB 1) as HT. change (znth b 1) with (f_type b) in HT. unfold byte in HT.
  pose proof (Z.div_mod (f_type b) 128 ltac:(lia)) as HTD.
  pose proof (Z.mod_pos_bound (f_type b) 128 ltac:(lia)) as HTM.
  destruct ((f_type b mod 128 =? 0) || (f_type b mod 128 >=? 127)) eqn:E3.
  { right. split; [|eexists; split; reflexivity]. unfold well_formed.
    intros W. assert (f_type b / 128 = 0 \/ f_type b / 128 = 1) by
      (assert (0 <= f_type b / 128 < 2) by (split; [apply Z.div_pos|apply Z.div_lt_upper_bound]; lia); lia).
    lia. }
  assert (HT1 : f_type b <> 0 /\ f_type b <> 127 /\ f_type b <> 128 /\ f_type b <> 255).
  { repeat split; intros E; rewrite E in E3; cbv in E3; discriminate. }
  rewrite (rd_some b 2) by lia. cbn [bind].
  unfold getIl. cbn [hseqil set_seqil]. rewrite land15. change (znth b 2 mod 16) with (f_il b).
  assert (Hil : 0 <= f_il b < 16) by (apply Z.mod_pos_bound; lia).
  destruct (f_il b >? 8) eqn:E4.
  { right. split; [unfold well_formed; lia|]. eexists; split; reflexivity. }
  destruct (f_il b >? f_fl b - 4) eqn:E5.
  { right. split; [unfold well_formed; lia|]. eexists; split; reflexivity. }
  rewrite u8_id by (unfold byte; lia).
  destruct (4 + f_il b >? n) eqn:E6.
  { right. split; [unfold well_formed; lia|]. eexists; split; reflexivity. }
  assert (Hidstep : exists hh,
    (if f_il b >? 0
     then do s <- sub b 3 (f_il b);
          do hid' <- blit (hid (set_seqil (set_ftype (set_fl h 0) (f_type b)) (znth b 2))) 0 s;
          Some (set_id (set_seqil (set_ftype (set_fl h 0) (f_type b)) (znth b 2)) hid')
     else Some (set_seqil (set_ftype (set_fl h 0) (f_type b)) (znth b 2))) = Some hh /\
    hh = mkHdr 0 (f_type b) (znth b 2)
         (firstn (Z.to_nat (f_il b)) (skipn 3 b) ++ skipn (Z.to_nat (f_il b)) (hid h)) (hbl h)).
  { destruct (f_il b >? 0) eqn:E7.
    - rewrite sub_some by lia. cbn [bind]. cbn [hid set_seqil set_ftype set_fl].
      change (Z.to_nat 3) with 3%nat.
      assert (HL : Zlen (firstn (Z.to_nat (f_il b)) (skipn 3 b)) = f_il b)
        by (rewrite Zlen_firstn, Zlen_skipn; lia).
      rewrite blit_some by lia. cbn [bind]. eexists; split; [reflexivity|].
      rewrite HL. reflexivity.
    - eexists; split; [reflexivity|]. assert (f_il b = 0) as -> by lia. reflexivity. }
  destruct Hidstep as (hh & -> & ->). cbn [bind].
  rewrite rd_some by lia. cbn [bind].
  replace (4 + f_il b - 1) with (3 + f_il b) by lia.
  change (znth b (3 + f_il b)) with (f_bl b).
  assert (HBl : 0 <= f_bl b < 256) by (unfold f_bl; apply HB).
  destruct (f_bl b >? f_fl b - (4 + f_il b)) eqn:E8.
  { right. split; [unfold well_formed; lia|]. eexists; split; reflexivity. }
  unfold isSecure. cbn [hftype set_ftype set_fl]. rewrite secure_bit by (unfold byte; lia).
  rewrite u8_id by (unfold byte; lia).
  assert (Hlast : exists bad : bool,
    (if n >? f_fl b then do lastByte <- rd b (f_fl b); Some ((lastByte =? 0) || (lastByte =? 255))
     else Some false) = Some bad /\
    (bad = false <-> (f_fl b < n -> znth b (f_fl b) <> 0 /\ znth b (f_fl b) <> 255))).
  { destruct (n >? f_fl b) eqn:E9.
    - rewrite rd_some by lia. cbn [bind]. eexists; split; [reflexivity|]. lia.
    - eexists; split; [reflexivity|]. split; [lia|reflexivity]. }
  destruct Hlast as (bad & -> & Hbad). cbn [bind].
  destruct bad.
  { right. split; [|eexists; split; reflexivity]. intros W.
    assert (true = false); [|discriminate]. apply Hbad. unfold well_formed in W. tauto. }
  assert (Hbad' : f_fl b < n -> znth b (f_fl b) <> 0 /\ znth b (f_fl b) <> 255)
    by (apply Hbad; reflexivity).
  fold (f_tl b).
  change (f_fl b - 3 - f_il b - f_bl b) with (f_tl b).
  destruct (128 <=? f_type b) eqn:E10; cbn [negb].
  - destruct (0 =? f_tl b) eqn:E11.
    + right. split; [|eexists; split; reflexivity]. unfold well_formed, f_secure. lia.
    + left. split; [|reflexivity]. unfold well_formed, f_secure.
      assert (0 <= f_tl b) by (unfold f_tl; lia).
      repeat split; try tauto; try lia.
  - destruct (1 =? f_tl b) eqn:E11; cbn [negb].
    + left. split; [|reflexivity]. unfold well_formed, f_secure.
      repeat split; try tauto; try lia.
    + right. split; [|eexists; split; reflexivity]. unfold well_formed, f_secure. lia.
Qed.

(** ** Fields of a laid-out header *)
Lemma frame_header_len secure ty seq id bl tl :
  Zlen (frame_header secure ty seq id bl tl) = 4 + Zlen id.
Proof. unfold frame_header. rewrite !Zlen_app, !Zlen_cons, !Zlen_nil. lia. Qed.

Lemma frame_fields secure ty seq id bl tl rest :
  Zlen id <= 8 ->
  let b := frame_header secure ty seq id bl tl ++ rest in
  f_fl b = 3 + Zlen id + bl + tl /\ f_type b = (if secure then 128 else 0) + ty /\
  f_seq b = seq mod 16 /\ f_il b = Zlen id /\ f_bl b = bl /\ f_tl b = tl /\
  firstn (Z.to_nat (f_il b)) (skipn 3 b) = id.
Proof.
  intros Hid b. pose proof (Zlen_nonneg id) as H0.
  assert (H1 : f_fl b = 3 + Zlen id + bl + tl) by reflexivity.
  assert (H2 : znth b 2 = 16 * (seq mod 16) + Zlen id) by reflexivity.
  pose proof (Z.mod_pos_bound seq 16 ltac:(lia)) as Hs.
  assert (H3 : f_il b = Zlen id).
  { unfold f_il. rewrite H2. symmetry. apply Z.mod_unique with (seq mod 16); lia. }
  assert (H4 : f_bl b = bl).
  { unfold f_bl. rewrite H3. unfold b, frame_header. rewrite <- !app_assoc.
    rewrite znth_app by lia. rewrite !Zlen_cons, Zlen_nil.
    replace (3 + Zlen id <? 1 + (1 + (1 + 0))) with false by lia.
    rewrite znth_app by lia. replace (_ <? Zlen id) with false by lia.
    rewrite znth_app by lia. change (Zlen [bl]) with 1.
    replace (_ - Zlen id) with 0 by lia. reflexivity. }
  repeat split; auto.
  - unfold f_seq. rewrite H2. symmetry. apply Z.div_unique with (Zlen id); lia.
  - unfold f_tl. rewrite H1, H3, H4. lia.
  - rewrite H3. unfold b, frame_header. rewrite <- !app_assoc.
    change (skipn 3 _) with (id ++ [bl] ++ rest).
    unfold Zlen. rewrite Nat2Z.id, firstn_app, Nat.sub_diag, firstn_all, firstn_O.
    apply app_nil_r.
Qed.

Lemma sendable_well_formed secure ty seq id bl tl rest n :
  0 <= bl -> sendable secure ty (Zlen id) bl tl n ->
  let b := frame_header secure ty seq id bl tl ++ rest in
  4 + Zlen id + bl + tl <= Zlen b ->
  znth b (3 + Zlen id + bl + tl) <> 0 -> znth b (3 + Zlen id + bl + tl) <> 255 ->
  well_formed b (Zlen b).
Proof.
  intros Hbl (Hty & Hil & Hn & Htl & Hns & Hfl) b Hlen Hl0 Hl1.
  destruct (frame_fields secure ty seq id bl tl rest ltac:(lia)) as (A1&A2&A3&A4&A5&A6&_).
  fold b in A1, A2, A3, A4, A5, A6.
  unfold well_formed, f_secure. rewrite A1, A2, A4, A5, A6.
  destruct secure; [|assert (tl = 1) by (apply Hns; reflexivity)]; repeat split; try lia.
Qed.

(** ** Non-secure frames *)
Lemma computeNonSecureCRC_ok h buf n : 0 < hfl h <= n -> hfl h <= Zlen buf ->
  computeNonSecureCRC h buf n = Some (nz (crc7_run 127 (firstn (Z.to_nat (hfl h)) buf))).
Proof.
  intros. unfold computeNonSecureCRC, isInvalid.
  replace (0 =? hfl h) with false by lia. replace (n <? hfl h) with false by lia.
  rewrite sub_full_prefix by lia. cbn [bind]. unfold nz. reflexivity.
Qed.

Lemma firstn_Zlen_app (l1 l2 : list Z) n : n = Zlen l1 -> firstn (Z.to_nat n) (l1 ++ l2) = l1.
Proof.
  intros ->. unfold Zlen. rewrite Nat2Z.id, firstn_app, Nat.sub_diag, firstn_all, firstn_O.
  apply app_nil_r.
Qed.

Definition nonsecure_crc (ty seq : Z) (id body : list Z) : Z :=
  nz (crc7_run 127 (frame_header false ty seq id (Zlen body) 1 ++ body)).

Lemma nz_byte c : 0 <= c < 128 -> byte (nz c) /\ nz c <> 0 /\ nz c <> 255.
Proof. unfold nz, byte. destruct (c =? 0) eqn:?; lia. Qed.

Lemma nonsecure_crc_ok ty seq id body :
  byte (nonsecure_crc ty seq id body) /\ nonsecure_crc ty seq id body <> 0 /\
  nonsecure_crc ty seq id body <> 255.
Proof. apply nz_byte. apply crc7_run_range. lia. Qed.

Lemma encodeNonsecure_good ptext body prest outbuf rest ty seq id idrest n :
  byte seq -> ptext = body ++ prest ->
  1 <= ty <= 126 -> Zlen id <= 8 -> 5 + Zlen id + Zlen body <= 64 ->
  5 + Zlen id + Zlen body <= n ->
  Zlen outbuf = 5 + Zlen id + Zlen body ->
  encodeNonsecure ptext (Zlen body) (outbuf ++ rest) n ty seq (Some (id ++ idrest)) (Zlen id)
  = Some (5 + Zlen id + Zlen body,
          frame_bytes false ty seq id body [nonsecure_crc ty seq id body] ++ rest).
Proof.
  intros Hseq -> Hty Hid Hfl Hn Hout. unfold encodeNonsecure.
  pose proof (Zlen_nonneg id) as Hid0. pose proof (Zlen_nonneg body) as Hb0.
  destruct (list_split_at outbuf (4 + Zlen id)) as (oh & ot & -> & Hoh); [lia|].
  rewrite Zlen_app in Hout.
  destruct (list_split_at ot (Zlen body)) as (ob & oc & -> & Hob); [lia|].
  rewrite Zlen_app in Hout. destruct oc as [|c0 oc]; [rewrite Zlen_nil in Hout; lia|].
  assert (oc = []). { destruct oc; auto. rewrite !Zlen_cons in Hout. pose proof (Zlen_nonneg oc). lia. }
  subst oc.
  rewrite <- app_assoc.
  assert (HS : sendable false ty (Zlen id) (Zlen body) 1 n)
    by (unfold sendable; repeat split; lia).
  rewrite encodeHeader_good; auto.
  cbn [bind]. replace (4 + Zlen id =? 0) with false by lia.
  cbn [hdr_result hfl].
  replace (3 + Zlen id + Zlen body + 1 >=? n) with false by lia.
  unfold getBodyOffset, getHl, getIl. cbn [hdr_result hseqil].
  rewrite land15.
  replace ((16 * (seq mod 16) + Zlen id) mod 16) with (Zlen id).
  2:{ apply Z.mod_unique with (seq mod 16); lia. }
  rewrite u8_id by (unfold byte; lia).
  set (FH := frame_header false ty seq id (Zlen body) 1).
  assert (HFH : Zlen FH = 4 + Zlen id) by apply frame_header_len.
  assert (Hbody : (if Zlen body >? 0
     then do body0 <- sub (body ++ prest) 0 (Zlen body);
          blit (FH ++ (ob ++ [c0]) ++ rest) (4 + Zlen id) body0
     else Some (FH ++ (ob ++ [c0]) ++ rest)) = Some (FH ++ body ++ [c0] ++ rest)).
  { destruct (Zlen body >? 0) eqn:E.
    - rewrite sub_full_prefix.
      2:{ rewrite Zlen_app. pose proof (Zlen_nonneg prest). lia. }
      cbn [bind]. rewrite firstn_Zlen_app by reflexivity.
      rewrite <- (app_assoc ob). apply blit_app_mid; lia.
    - assert (body = []). { destruct body; auto. rewrite Zlen_cons in E. pose proof (Zlen_nonneg body). lia. }
      subst body. destruct ob; [reflexivity|]. rewrite Zlen_cons, Zlen_nil in Hob.
      pose proof (Zlen_nonneg ob). lia. }
  rewrite Hbody. cbn [bind].
  rewrite computeNonSecureCRC_ok.
  2:{ cbn [hdr_result hfl]. lia. }
  2:{ cbn [hdr_result hfl]. autorewrite with zlen. pose proof (Zlen_nonneg rest). lia. }
  cbn [bind hdr_result hfl].
  replace (firstn (Z.to_nat (3 + Zlen id + Zlen body + 1)) (FH ++ body ++ [c0] ++ rest)) with (FH ++ body).
  2:{ rewrite app_assoc. symmetry. apply firstn_Zlen_app. rewrite Zlen_app. lia. }
  unfold wr. rewrite app_assoc. rewrite (blit_app_mid (FH ++ body) [c0]); [|rewrite Zlen_app; lia|reflexivity].
  cbn [bind]. rewrite u8_id by (unfold byte; lia). f_equal. f_equal; [lia|].
  unfold frame_bytes, nonsecure_crc. rewrite !Zlen_cons, Zlen_nil.
  change (1 + 0) with 1. fold FH. rewrite <- !app_assoc. reflexivity.
Qed.

(** Any nonzero result of encodeNonsecure implies the preconditions. *)
Lemma encodeNonsecure_bad ptext psize outbuf ty seq id il n :
  byte seq -> 0 <= psize -> 0 <= il -> 0 <= ty -> il <= Zlen id -> n <= Zlen outbuf ->
  psize <= Zlen ptext ->
  ~ (1 <= ty <= 126 /\ il <= 8 /\ 5 + il + psize <= 64 /\ 5 + il + psize <= n) ->
  exists out', encodeNonsecure ptext psize outbuf n ty seq (Some id) il = Some (0, out')
    /\ Zlen out' = Zlen outbuf.
Proof.
  intros Hseq Hps Hil Hty Hid Hn Hpt Hbad. unfold encodeNonsecure.
  assert (Hdec : {sendable false ty il psize 1 n} + {~ sendable false ty il psize 1 n}).
  { unfold sendable. destruct (Z_le_dec 1 ty), (Z_le_dec ty 126), (Z_le_dec il 8),
     (Z_le_dec (4 + il) n), (Z_le_dec (4 + il + psize + 1) 64);
     first [left; repeat split; lia | right; lia]. }
  destruct Hdec as [Hs|Hs].
  - pose proof Hs as (H1&H2&H3&H4&H5&H6).
    destruct (list_split_at id il) as (i0 & i1 & -> & Hi0); [lia|]. subst il.
    destruct (list_split_at outbuf (4 + Zlen i0)) as (oh & ot & -> & Hoh); [lia|].
    rewrite encodeHeader_good; auto.
    cbn [bind]. replace (4 + Zlen i0 =? 0) with false by lia. cbn [hdr_result hfl].
    replace (3 + Zlen i0 + psize + 1 >=? n) with true by lia.
    eexists; split; [reflexivity|]. rewrite !Zlen_app, frame_header_len. lia.
  - destruct (encodeHeader_bad hdr0 (Some outbuf) n false ty seq id il psize 1) as (h' & -> & _);
      auto; try lia; try reflexivity.
    cbn [bind]. replace (0 =? 0) with true by reflexivity. eexists; split; reflexivity.
Qed.

(** decodeNonsecure on a decoded header. *)
Lemma decodeNonsecure_char h0 b : Forall byte b -> Zlen (hid h0) = 8 ->
  well_formed b (Zlen b) -> f_fl b < Zlen b ->
  decodeNonsecure (hdr_decoded h0 b) (Some b) =
  Some (if (f_tl b =? 1) && (znth b (f_fl b) =? nz (crc7_run 127 (firstn (Z.to_nat (f_fl b)) b)))
        then f_fl b + 1 else 0).
Proof.
  intros Hb Hh W Hfl. unfold decodeNonsecure.
  assert (W' := W). unfold well_formed in W'.
  destruct W' as (W1&W2&_&_&_&_&W4&W5&W6&W7&W8&W9&W10).
  unfold isInvalid. cbn [hdr_decoded hfl]. replace (0 =? f_fl b) with false by lia.
  unfold getTl, getIl. cbn [hdr_decoded hfl hseqil hbl]. rewrite land15.
  change (znth b 2 mod 16) with (f_il b).
  change (f_fl b - 3 - f_il b - f_bl b) with (f_tl b).
  assert (0 <= f_il b) by (apply Z.mod_pos_bound; lia).
  assert (0 <= f_bl b) by (apply znth_byte; auto).
  rewrite u8_id by (unfold byte, f_tl in *; lia).
  rewrite Z.eqb_sym. destruct (f_tl b =? 1) eqn:E; cbn [negb andb]; [|reflexivity].
  rewrite (rd_some b 0) by lia. cbn [bind]. change (znth b 0) with (f_fl b).
  rewrite computeNonSecureCRC_ok by (cbn [hdr_decoded hfl]; lia). cbn [bind hdr_decoded hfl].
  set (c := nz _).
  assert (Hc : byte c /\ c <> 0 /\ c <> 255) by (apply nz_byte, crc7_run_range; lia).
  replace (c =? 0) with false by lia.
  rewrite rd_some by lia. cbn [bind].
  destruct (znth b (f_fl b) =? c) eqn:E2; cbn [negb]; [|reflexivity].
  rewrite u8_id by (unfold byte; lia). reflexivity.
Qed.
