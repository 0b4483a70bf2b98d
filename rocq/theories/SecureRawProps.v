(** C07, C10, C11 and the raw part of C54. *)
From Verif Require Import Base CrcModel CrcSpec CrcProofs FrameModel FrameSpec FrameProofs FrameProps SecureModel SecureSpec SecureProps SecureProofs.

(** ** The frame as sent *)
Definition secure_frame (ty : Z) (iv id ct tag : list Z) : list Z :=
  frame_bytes true ty (znth iv 11) id ct (secure_trailer iv tag).

Lemma frame_header_byte secure ty seq id bl tl : Forall byte id -> Zlen id <= 8 ->
  1 <= ty <= 126 -> 0 <= bl -> 0 <= tl -> 4 + Zlen id + bl + tl <= 64 ->
  Forall byte (frame_header secure ty seq id bl tl).
Proof.
  intros Hid Hl Hty Hbl Htl Hf. unfold frame_header.
  pose proof (Zlen_nonneg id). pose proof (Z.mod_pos_bound seq 16 ltac:(lia)).
  constructor; [unfold byte; lia|].
  constructor; [unfold byte; destruct secure; lia|].
  constructor; [unfold byte; lia|].
  apply Forall_app; split; [exact Hid|]. constructor; [unfold byte; lia|constructor].
Qed.

Lemma secure_frame_facts ty iv id ct tag :
  1 <= ty <= 126 -> Zlen iv = 12 -> Forall byte iv -> Forall byte id -> Zlen id <= 8 ->
  Forall byte ct -> (Zlen ct = 0 \/ Zlen ct = 32) -> Forall byte tag -> Zlen tag = 16 ->
  27 + Zlen id + Zlen ct <= 64 ->
  let f := secure_frame ty iv id ct tag in
  Forall byte f /\ Zlen f = 27 + Zlen id + Zlen ct /\ well_formed f (Zlen f) /\
  f_fl f + 1 = Zlen f /\ f_type f = 128 + ty /\ f_seq f = znth iv 11 mod 16 /\
  f_il f = Zlen id /\ f_bl f = Zlen ct /\ f_tl f = 23 /\ znth f (f_fl f) = 128 /\
  firstn (Z.to_nat (f_il f)) (skipn 3 f) = id /\
  raw_aad f = frame_header true ty (znth iv 11) id (Zlen ct) 23 /\
  raw_ct f = (if Zlen ct =? 0 then None else Some ct) /\
  raw_tag f = tag /\ firstn 6 (skipn (Z.to_nat (f_fl f - 22)) f) = iv_ctr iv.
Proof.
  intros Hty Hiv Hivb Hid Hidl Hct Hctl Htag Htagl Hfl f.
  assert (Hctr : Zlen (iv_ctr iv) = 6) by (apply iv_ctr_len; auto).
  assert (Hctrb : Forall byte (iv_ctr iv)) by (unfold iv_ctr; apply Forall_firstn', Forall_skipn'; auto).
  assert (HTL : Zlen (secure_trailer iv tag) = 23).
  { unfold secure_trailer. autorewrite with zlen. lia. }
  pose proof (Zlen_nonneg id) as Hid0.
  set (H := frame_header true ty (znth iv 11) id (Zlen ct) 23).
  assert (HH : Zlen H = 4 + Zlen id) by apply frame_header_len.
  assert (Hf : f = H ++ (ct ++ secure_trailer iv tag))
    by (unfold f, secure_frame, frame_bytes; rewrite HTL; reflexivity).
  assert (HfL : Zlen f = 27 + Zlen id + Zlen ct) by (rewrite Hf, !Zlen_app; lia).
  assert (Hfb : Forall byte f).
  { rewrite Hf. apply Forall_app; split; [apply frame_header_byte; auto; lia|].
    apply Forall_app; split; [auto|]. unfold secure_trailer.
    apply Forall_app; split; [auto|]. apply Forall_app; split; [auto|].
    constructor; [unfold byte; lia|constructor]. }
  destruct (frame_fields true ty (znth iv 11) id (Zlen ct) 23 (ct ++ secure_trailer iv tag) Hidl)
    as (A1&A2&A3&A4&A5&A6&A7).
  fold H in A1, A2, A3, A4, A5, A6, A7. rewrite <- Hf in A1, A2, A3, A4, A5, A6, A7.
  assert (Hlast : znth f (f_fl f) = 128).
  { rewrite A1, Hf, znth_app, HH by lia. replace (_ <? _) with false by lia.
    rewrite znth_app by lia. replace (_ <? _) with false by lia.
    unfold secure_trailer. rewrite znth_app by lia. replace (_ <? _) with false by lia.
    rewrite znth_app by lia. replace (_ <? _) with false by lia.
    replace (_ - Zlen tag) with 0 by lia. reflexivity. }
  assert (Hskip : forall k (a b : list Z), f = a ++ b -> k = Zlen a -> skipn (Z.to_nat k) f = b).
  { intros k a b -> ->. unfold Zlen. rewrite Nat2Z.id, skipn_app, skipn_all, Nat.sub_diag. reflexivity. }
  split; [exact Hfb|]. split; [exact HfL|]. split.
  { pose proof (sendable_well_formed true ty (znth iv 11) id (Zlen ct) 23
                  (ct ++ secure_trailer iv tag) 64) as HWF.
    cbv zeta in HWF. fold H in HWF. rewrite <- Hf, <- A1, Hlast in HWF.
    apply HWF; try lia. unfold sendable. repeat split; try lia; discriminate. }
  split; [lia|]. split; [exact A2|]. split; [exact A3|]. split; [exact A4|].
  split; [exact A5|]. split; [exact A6|]. split; [exact Hlast|]. split; [exact A7|].
  split. { unfold raw_aad. rewrite A4, Hf. apply firstn_Zlen_app. lia. }
  split.
  { unfold raw_ct. rewrite A5, A4. destruct (Zlen ct =? 0) eqn:E; [reflexivity|]. f_equal.
    rewrite (Hskip _ H (ct ++ secure_trailer iv tag) Hf) by lia.
    change 32%nat with (Z.to_nat 32). apply firstn_Zlen_app. lia. }
  split.
  { unfold raw_tag.
    rewrite (Hskip _ (H ++ ct ++ iv_ctr iv) (tag ++ [128])).
    - change 16%nat with (Z.to_nat 16). apply firstn_Zlen_app. lia.
    - rewrite Hf. unfold secure_trailer. rewrite <- !app_assoc. reflexivity.
    - autorewrite with zlen. lia. }
  rewrite (Hskip _ (H ++ ct) (iv_ctr iv ++ tag ++ [128])).
  - change 6%nat with (Z.to_nat 6). apply firstn_Zlen_app. lia.
  - rewrite Hf. unfold secure_trailer. rewrite <- !app_assoc. reflexivity.
  - autorewrite with zlen. lia.
Qed.

(** ** C54 (raw): encodeRaw succeeds exactly when the parameters are legal, the
    frame fits and the primitive succeeds; then the output buffer starts with
    the frame laid out as specified and the rest of the buffer is untouched.
    Otherwise it returns 0.  It never accesses memory outside its buffers. *)
Theorem C54_encodeRaw_exact : forall e ptext plen out n ty id il iv ws key,
  enc_sized e -> Zlen iv = 12 -> Forall byte iv ->
  0 <= il <= Zlen id -> byte ty -> byte plen -> n <= Zlen out ->
  (plen <> 0 -> exists p, ptext = Some p /\ 32 <= Zlen p) ->
  exists r p o,
    encodeRaw e ptext plen (Some out) n ty (Some id) il iv ws (Some key) = Some (r, p, o) /\
    (r <> 0 <->
       plen <= 31 /\ 1 <= ty <= 126 /\ il <= 8 /\
       27 + il + cipher_len plen <= 64 /\ 27 + il + cipher_len plen <= n /\
       e ws key iv (frame_header true ty (znth iv 11) (firstn (Z.to_nat il) id) (cipher_len plen) 23)
         (if plen =? 0 then None else
          match ptext with Some p => Some (padded (firstn (Z.to_nat plen) p)) | None => None end)
       <> None) /\
    (r <> 0 -> r = 27 + il + cipher_len plen /\
       exists ct tag,
         e ws key iv (frame_header true ty (znth iv 11) (firstn (Z.to_nat il) id) (cipher_len plen) 23)
           (if plen =? 0 then None else
            match ptext with Some p => Some (padded (firstn (Z.to_nat plen) p)) | None => None end)
         = Some (ct, tag) /\ Zlen ct = cipher_len plen /\
         o = Some (secure_frame ty iv (firstn (Z.to_nat il) id) ct tag ++ skipn (Z.to_nat r) out)).
Proof.
  intros e ptext plen out n ty id il iv ws key He Hiv Hivb Hil Hty Hpl Hn Hpt. unfold byte in *.
  assert (HD : fits plen ty il n \/ ~ fits plen ty il n).
  { unfold fits. destruct (Z_le_dec plen 31), (Z_le_dec 1 ty), (Z_le_dec ty 126), (Z_le_dec il 8),
      (Z_le_dec (27 + il + cipher_len plen) 64), (Z_le_dec (27 + il + cipher_len plen) n); lia. }
  destruct HD as [HF|HF].
  - pose proof (encodeRaw_good e ptext plen out n ty id il iv ws key He Hiv Hivb Hil ltac:(lia) Hn Hpt HF) as HG.
    cbv zeta in HG.
    set (aad := frame_header true ty (znth iv 11) (firstn (Z.to_nat il) id) (cipher_len plen) 23) in *.
    set (pt := if plen =? 0 then None else
            match ptext with Some p => Some (padded (firstn (Z.to_nat plen) p)) | None => None end) in *.
    destruct (e ws key iv aad pt) as [[ct tag]|] eqn:EE.
    + destruct HG as (p & HG).
      assert (Hctl : Zlen ct = cipher_len plen /\ Zlen tag = 16).
      { destruct (He _ _ _ _ _ _ _ EE) as (T1 & T2 & T3 & T4 & T5). split; [|exact T1].
        unfold pt, cipher_len in *. destruct (plen =? 0) eqn:E0.
        - rewrite T4; reflexivity.
        - apply Z.eqb_neq in E0. destruct (Hpt E0) as (q & -> & _). apply T5. discriminate. }
      destruct Hctl as [Hctl Htag].
      eexists _, _, _. split; [exact HG|]. unfold fits in HF.
      pose proof (cipher_len_cases plen). split.
      * split; intros HX; [|lia]. repeat split; try tauto; try lia. discriminate.
      * intros _. split; [reflexivity|]. exists ct, tag. split; [reflexivity|]. split; [exact Hctl|].
        f_equal. unfold secure_frame, frame_bytes. unfold aad. rewrite Hctl.
        replace (Zlen (secure_trailer iv tag)) with 23
          by (unfold secure_trailer; autorewrite with zlen; rewrite iv_ctr_len by auto; lia).
        rewrite <- !app_assoc. reflexivity.
    + destruct HG as (p & o & HG). exists 0, p, o. split; [exact HG|]. split; [|lia].
      split; intros HX; [lia|]. exfalso. destruct HX as (_&_&_&_&_&HX). apply HX. reflexivity.
  - destruct (encodeRaw_bad e ptext plen out n ty id il iv ws key Hiv Hivb Hil ltac:(lia) ltac:(lia) Hn HF)
      as (p & o & HG).
    exists 0, p, o. split; [exact HG|]. split; [|lia].
    split; intros HX; [lia|]. exfalso. apply HF. unfold fits. tauto.
Qed.

(** ** C10: round trip. *)
Theorem C10_secure_round_trip :
  forall e d body stale out n ty id il iv ws key r p' o h0 pbuf plen0 ss,
  enc_sized e -> dec_sized d -> dec_inverts e d (ss - 32) -> 32 <= ss ->
  Zlen iv = 12 -> Forall byte iv -> Forall byte id -> Forall byte body ->
  0 <= il <= Zlen id -> byte ty -> Zlen body < 256 -> n <= Zlen out ->
  (body <> [] -> 32 <= Zlen (body ++ stale)) ->
  Zlen (hid h0) = 8 -> 31 <= Zlen pbuf ->
  encodeRaw e (Some (body ++ stale)) (Zlen body) (Some out) n ty (Some id) il iv ws (Some key)
    = Some (r, p', Some o) -> r <> 0 ->
  let f := firstn (Z.to_nat r) o in
  r <= 64 /\ Zlen f = r /\
  exists h,
    decodeHeader h0 (Some f) r = Some (4 + il, h) /\
    isSecure h = true /\ hftype h = 128 + ty /\ getSeq h = znth iv 11 mod 16 /\ getIl h = il /\
    firstn (Z.to_nat il) (hid h) = firstn (Z.to_nat il) id /\
    decodeRaw d h (Some f) (Some pbuf) plen0 ss (Some key) (Some iv)
      = Some (r, Some (body ++ skipn (length body) pbuf), Zlen body).
Proof.
  intros e d body stale out n ty id il iv ws key r p' o h0 pbuf plen0 ss
    He Hd Hinv Hss Hiv Hivb Hidb Hbb Hil Hty Hbl Hn Hst Hh0 Hpb E Hr f.
  pose proof (Zlen_nonneg body) as Hb0.
  destruct (C54_encodeRaw_exact e (Some (body ++ stale)) (Zlen body) out n ty id il iv ws key)
    as (r1 & p1 & o1 & E1 & Hiff & Hres); auto.
  { unfold byte; lia. }
  { intros Hne. exists (body ++ stale). split; [reflexivity|]. apply Hst.
    intros ->. apply Hne. reflexivity. }
  rewrite E in E1. apply some_pair_inj in E1. destruct E1 as [E1 <-]. apply pair_inj in E1. destruct E1 as [<- <-].
  destruct (Hres Hr) as (Er & ct & tag & EE & Hctl & Ho). apply Hiff in Hr as HF.
  destruct HF as (F1 & F2 & F3 & F4 & F5 & F6).
  apply some_inj in Ho. subst o.
  destruct (He _ _ _ _ _ _ _ EE) as (T1 & T2 & T3 & T4 & T5).
  pose proof (cipher_len_cases (Zlen body)) as HC.
  set (idp := firstn (Z.to_nat il) id) in *.
  assert (Hidp : Zlen idp = il) by (unfold idp; rewrite Zlen_firstn; lia).
  destruct (secure_frame_facts ty iv idp ct tag) as
    (B1 & B2 & B3 & B4 & B5 & B6 & B7 & B8 & B9 & B10 & B11 & B12 & B13 & B14 & B15); auto; try lia.
  { unfold idp. apply Forall_firstn'. auto. }
  assert (Hf : f = secure_frame ty iv idp ct tag).
  { unfold f. apply firstn_Zlen_app. rewrite B2. lia. }
  rewrite <- Hf in *. clear Hf.
  split; [lia|]. split; [lia|].
  assert (HfL : Zlen f = r) by lia.
  destruct (decodeHeader_char h0 f r ltac:(lia) B1 Hh0) as [[W D]|[W' _]];
    [|rewrite <- HfL in W'; contradiction].
  exists (hdr_decoded h0 f).
  destruct (hdr_decoded_facts h0 f r B1 W) as (D1 & D2 & D3 & D4 & D5 & D6 & D7 & D8 & D9).
  rewrite D, B7, Hidp. split; [reflexivity|].
  assert (Hb1 : byte (f_type f)) by (apply znth_byte; auto).
  split. { unfold isSecure, hdr_decoded. cbn [hftype]. rewrite secure_bit by auto. lia. }
  split. { cbn [hdr_decoded hftype]. exact B5. }
  split. { rewrite D5. exact B6. }
  split. { rewrite D8. lia. }
  split.
  { cbn [hdr_decoded hid]. rewrite B11. rewrite firstn_Zlen_app by lia. reflexivity. }
  assert (Hguard : raw_guard f iv ss).
  { unfold raw_guard. rewrite B10, B9, B6, B8. repeat split; try lia. }
  assert (Hpb' : forall q, Some pbuf = Some q -> 31 <= Zlen q)
    by (intros q Hq; apply some_inj in Hq; subst q; exact Hpb).
  rewrite (decodeRaw_good d h0 f r (Some pbuf) plen0 ss key iv Hd B1 W ltac:(lia) Hiv Hguard Hpb').
  rewrite B12, B13, B14, B8. rewrite Hctl.
  pose proof (Hinv _ _ _ _ _ _ _ EE) as HI.
  destruct (Zlen body =? 0) eqn:E0; unfold cipher_len in *; rewrite E0 in *.
  - cbn [Z.eqb]. destruct HI as [q HI].
    change (0 =? 0) with true. cbn iota. rewrite HI. apply Z.eqb_eq in E0. destruct body as [|x body].
    + cbn [length skipn app]. replace (f_fl f + 1) with r by lia. reflexivity.
    + rewrite Zlen_cons in E0. pose proof (Zlen_nonneg body). lia.
  - apply Z.eqb_neq in E0. change (32 =? 0) with false. cbn iota.
    replace (firstn (Z.to_nat (Zlen body)) (body ++ stale)) with body in HI
      by (symmetry; apply firstn_Zlen_app; reflexivity).
    rewrite HI. cbv zeta.
    assert (H31 : znth (padded body) 31 = 31 - Zlen body).
    { unfold padded. rewrite znth_app by lia. replace (_ <? _) with false by lia.
      rewrite znth_app by lia. rewrite Zlen_repeat.
      replace (_ <? _) with false by (clear -F1; unfold Zlen in *; lia).
      replace (31 - Zlen body - Z.of_nat (31 - length body)) with 0 by (unfold Zlen in *; lia).
      reflexivity. }
    rewrite H31. replace (31 <? 31 - Zlen body) with false by lia.
    replace (31 - (31 - Zlen body)) with (Zlen body) by lia.
    replace (f_fl f + 1) with r by lia.
    replace (firstn (Z.to_nat (Zlen body)) (padded body)) with body
      by (symmetry; unfold padded; apply firstn_Zlen_app; reflexivity).
    unfold Zlen at 1. rewrite Nat2Z.id. reflexivity.
Qed.

(** ** C11: only what the primitive authenticated is accepted, with exact
    arguments, and only frames of the right shape. *)
Theorem C11_decodeRaw_exact : forall d h0 b n hl h ptext plen ss key iv,
  dec_sized d -> Forall byte b -> Zlen (hid h0) = 8 -> n <= Zlen b ->
  decodeHeader h0 (Some b) n = Some (hl, h) -> hl <> 0 -> f_fl b < Zlen b ->
  Zlen iv = 12 -> (forall p, ptext = Some p -> 31 <= Zlen p) ->
  exists r ptext' plen',
    decodeRaw d h (Some b) ptext plen ss (Some key) (Some iv) = Some (r, ptext', plen') /\
    (* accepted iff right shape and the primitive accepts exactly the received
       header, ciphertext and tag *)
    (r <> 0 <->
       32 <= ss /\ f_tl b = 23 /\ znth b (f_fl b) = 128 /\ (f_bl b = 0 \/ f_bl b = 32) /\
       f_seq b = znth iv 11 mod 16 /\
       exists q, d (ss - 32) key iv
           (firstn (Z.to_nat (4 + f_il b)) b)
           (if f_bl b =? 0 then None else Some (firstn 32 (skipn (Z.to_nat (4 + f_il b)) b)))
           (firstn 16 (skipn (Z.to_nat (f_fl b - 16)) b)) = Some q) /\
    (* and then the plaintext delivered is a prefix of the primitive's output,
       as announced by its pad count *)
    (r <> 0 -> r = f_fl b + 1 /\
       forall q, d (ss - 32) key iv
           (firstn (Z.to_nat (4 + f_il b)) b)
           (if f_bl b =? 0 then None else Some (firstn 32 (skipn (Z.to_nat (4 + f_il b)) b)))
           (firstn 16 (skipn (Z.to_nat (f_fl b - 16)) b)) = Some q ->
       match ptext with
       | Some p =>
           (f_bl b = 0 -> plen' = 0 /\ ptext' = Some p) /\
           (f_bl b = 32 -> znth q 31 <= 31 ->
              plen' = 31 - znth q 31 /\
              ptext' = Some (firstn (Z.to_nat plen') q ++ skipn (Z.to_nat plen') p)) /\
           (f_bl b = 32 -> 31 < znth q 31 -> plen' = 0 /\ ptext' = Some p)
       | None => plen' = 0 /\ ptext' = None
       end) /\
    (* refused: the caller's buffer is untouched *)
    (r = 0 -> ptext' = ptext /\ plen' = plen).
Proof.
  intros d h0 b n hl h ptext plen ss key iv Hd Hb Hh0 Hn HD Hhl Hfl Hiv Hpt.
  destruct (decodeHeader_char h0 b n Hn Hb Hh0) as [[W D]|[_ (h' & D & _)]];
    rewrite D in HD; apply some_pair_inj in HD; destruct HD as [<- <-]; [|congruence].
  assert (HG : raw_guard b iv ss \/ ~ raw_guard b iv ss).
  { unfold raw_guard. destruct (Z_le_dec 32 ss), (Z.eq_dec (f_tl b) 23), (Z.eq_dec (znth b (f_fl b)) 128),
     (Z.eq_dec (f_bl b) 0), (Z.eq_dec (f_bl b) 32), (Z.eq_dec (f_seq b) (znth iv 11 mod 16)); lia. }
  destruct HG as [HG|HG].
  2:{ rewrite (decodeRaw_bad d h0 b n) by auto.
      exists 0, ptext, plen. split; [reflexivity|]. split; [|split; [lia|auto]].
      split; [lia|]. intros (X1&X2&X3&X4&X5&X6). exfalso. apply HG. unfold raw_guard. tauto. }
  rewrite (decodeRaw_good d h0 b n) by auto.
  pose proof W as (W1 & W2 & _).
  fold (raw_aad b) (raw_ct b) (raw_tag b).
  pose proof HG as (G1 & G2 & G3 & G4 & G5).
  destruct (d (ss - 32) key iv (raw_aad b) (raw_ct b) (raw_tag b)) as [q|] eqn:ED.
  2:{ exists 0, ptext, plen. split; [reflexivity|]. split; [|split; [lia|auto]].
      split; [lia|]. intros (_&_&_&_&_&q&X). discriminate. }
  destruct ptext as [p|].
  2:{ exists (f_fl b + 1), None, 0. split; [reflexivity|].
      split; [split; [intros _; repeat split; auto; exists q; auto|lia]|].
      split; [auto|]. lia. }
  destruct (f_bl b =? 0) eqn:E.
  - exists (f_fl b + 1), (Some p), 0. split; [reflexivity|].
    split; [split; [intros _; repeat split; auto; exists q; auto|lia]|].
    split; [|lia]. intros _. split; [reflexivity|]. intros q' Hq'.
    split; [auto|]. split; lia.
  - cbv zeta. eexists _, _, _. split; [reflexivity|].
    split; [split; [intros _; repeat split; auto; exists q; auto|lia]|].
    split; [|lia]. intros _. split; [reflexivity|]. intros q' Hq'. injection Hq' as <-.
    split; [lia|]. split.
    + intros _ Hle. replace (31 <? znth q 31) with false by lia. auto.
    + intros _ Hgt. replace (31 <? znth q 31) with true by lia.
      change (Z.to_nat 0) with 0%nat. cbn [firstn skipn app]. auto.
Qed.

(** ** C07: the documented behaviour "0xff on bad padding, treated as error" is
    not what the code does: an authenticated frame whose pad count is impossible
    is accepted, as an empty body. *)
Definition bad_pad_body : list Z := repeat 7 31 ++ [40].
Definition bad_pad_iv : list Z := [1;2;3;4;5;6;7;8;9;10;11;12].
Definition bad_pad_frame : list Z := secure_frame 79 bad_pad_iv [1;2;3;4] bad_pad_body (bad_pad_iv ++ [0;0;0;0]).

Lemma dec_null_sized : dec_sized dec_null.
Proof.
  intros ws key iv aad ct tag p HL HB H. unfold dec_null in H. destruct (_ || _); [discriminate|].
  apply some_inj in H. subst p. change 32%nat with (Z.to_nat 32). split; [rewrite Zlen_firstn; lia|apply Forall_firstn'; exact HB].
Qed.

Theorem C07_bad_padding_refuted :
  exists (d : Dec) (b iv key pbuf q : list Z) (h : Hdr),
    dec_sized d /\
    decodeHeader hdr0 (Some b) (Zlen b) = Some (8, h) /\
    (* the primitive authenticates and decrypts to a body with pad count > 31 *)
    d 240 key iv (firstn 8 b) (Some (firstn 32 (skipn 8 b))) (firstn 16 (skipn 46 b)) = Some q /\
    31 < znth q 31 /\
    (* and decodeRaw reports success *)
    decodeRaw d h (Some b) (Some pbuf) 99 272 (Some key) (Some iv) = Some (64 - 1, Some pbuf, 0).
Proof.
  exists dec_null, bad_pad_frame, bad_pad_iv, (repeat 0 16), (repeat 5 32), bad_pad_body,
    (hdr_decoded hdr0 bad_pad_frame).
  split.
  - exact dec_null_sized.
  - repeat split; vm_compute; reflexivity.
Qed.

(** What does hold: such a body is never delivered as garbage; the caller gets
    an empty plaintext and an untouched buffer (missing: the error report). *)
Theorem C07_bad_padding_partial : forall d h0 b n hl h p plen ss key iv q,
  dec_sized d -> Forall byte b -> Zlen (hid h0) = 8 -> n <= Zlen b ->
  decodeHeader h0 (Some b) n = Some (hl, h) -> hl <> 0 -> f_fl b < Zlen b ->
  Zlen iv = 12 -> 31 <= Zlen p -> f_bl b = 32 ->
  d (ss - 32) key iv (firstn (Z.to_nat (4 + f_il b)) b)
    (Some (firstn 32 (skipn (Z.to_nat (4 + f_il b)) b)))
    (firstn 16 (skipn (Z.to_nat (f_fl b - 16)) b)) = Some q ->
  31 < znth q 31 ->
  exists r plen', decodeRaw d h (Some b) (Some p) plen ss (Some key) (Some iv) = Some (r, Some p, plen') /\
    (r <> 0 -> plen' = 0).
Proof.
  intros d h0 b n hl h p plen ss key iv q Hd Hb Hh0 Hn HD Hhl Hfl Hiv Hp Hbl Hq H31.
  destruct (C11_decodeRaw_exact d h0 b n hl h (Some p) plen ss key iv) as (r & p' & l' & E & H1 & H2 & H3); auto.
  { intros ? X. injection X as <-. exact Hp. }
  destruct (Z.eq_dec r 0) as [->|Hr].
  - destruct (H3 eq_refl) as [-> ->]. exists 0, plen. split; [exact E|]. lia.
  - destruct (H2 Hr) as [_ H2']. specialize (H2' q). rewrite Hbl in H2'. change (32 =? 0) with false in H2'.
    cbn iota in H2'. destruct (H2' Hq) as (_ & _ & H4). destruct (H4 eq_refl H31) as [-> ->].
    exists r, 0. split; [exact E|auto].
Qed.

(** ** Non-vacuity: a concrete primitive (the library's own NULL one) meets the
    hypotheses, and a frame with a body really is sent and received. *)
Lemma enc_null_sized : forall ws key iv aad pt ct tag,
  Zlen iv = 12 -> Forall byte iv -> (forall p, pt = Some p -> Zlen p = 32 /\ Forall byte p) ->
  enc_null ws key iv aad pt = Some (ct, tag) ->
  Zlen tag = 16 /\ Forall byte tag /\ Forall byte ct /\
    (pt = None -> ct = []) /\ (pt <> None -> Zlen ct = 32).
Proof.
  intros ws key iv aad pt ct tag Hiv Hivb Hp H. unfold enc_null in H. apply some_pair_inj in H. destruct H as [<- <-].
  rewrite firstn_all2 by (unfold Zlen in Hiv; lia).
  split; [rewrite Zlen_app, Hiv; reflexivity|].
  split; [apply Forall_app; split; auto; repeat (constructor; [unfold byte; lia|]); constructor|].
  destruct pt as [p|].
  - destruct (Hp p eq_refl) as [HL HB]. rewrite firstn_all2 by (unfold Zlen in HL; lia).
    repeat split; auto. discriminate.
  - repeat split; auto. congruence.
Qed.

(** A guarded primitive satisfying all three hypotheses of C10. *)
Definition enc_demo : Enc := fun ws key iv aad pt =>
  match pt with
  | Some p => if (Zlen p =? 32) && forallb (fun x => (0 <=? x) && (x <? 256)) p
              then Some (p, repeat (u8 (znth key 0)) 16) else None
  | None => Some ([], repeat (u8 (znth key 0)) 16)
  end.
Definition dec_demo : Dec := fun ws key iv aad ct tag =>
  if znth tag 3 =? u8 (znth key 0) then
    match ct with
    | Some c => if (Zlen c =? 32) && forallb (fun x => (0 <=? x) && (x <? 256)) c
                then Some c else None
    | None => Some []
    end
  else None.
Lemma forallb_byte l : forallb (fun x => (0 <=? x) && (x <? 256)) l = true -> Forall byte l.
Proof.
  intros H. rewrite forallb_forall in H. apply Forall_forall. intros x Hx.
  specialize (H x Hx). unfold byte. lia.
Qed.
Lemma enc_demo_sized : enc_sized enc_demo.
Proof.
  intros ws key iv aad pt ct tag H. unfold enc_demo in H.
  assert (HT : Forall byte (repeat (u8 (znth key 0)) 16)).
  { apply Forall_forall. intros x Hx. apply repeat_spec in Hx. subst. apply u8_byte. }
  destruct pt as [p|].
  - destruct (_ && _) eqn:E; [|discriminate]. apply some_pair_inj in H. destruct H as [<- <-].
    apply andb_prop in E. destruct E as [E1 E2].
    split; [reflexivity|]. split; [exact HT|]. split; [apply forallb_byte; auto|].
    split; [discriminate|]. intros _. lia.
  - apply some_pair_inj in H. destruct H as [<- <-]. repeat split; auto. congruence.
Qed.
Lemma dec_demo_sized : dec_sized dec_demo.
Proof.
  intros ws key iv aad ct tag p _ _ H. unfold dec_demo in H.
  destruct (_ =? u8 _); [|discriminate]. destruct (_ && _) eqn:E; [|discriminate].
  apply some_inj in H. subst p. apply andb_prop in E. destruct E as [E1 E2].
  split; [lia|apply forallb_byte; auto].
Qed.
Lemma demo_inverts ws : dec_inverts enc_demo dec_demo ws.
Proof.
  intros ws0 key iv aad pt ct tag H. unfold enc_demo in H. unfold dec_demo.
  destruct pt as [p|].
  - destruct (_ && _) eqn:E; [|discriminate]. apply some_pair_inj in H. destruct H as [<- <-].
    rewrite znth_repeat by lia. rewrite Z.eqb_refl, E. reflexivity.
  - apply some_pair_inj in H. destruct H as [<- <-].
    rewrite znth_repeat by lia. rewrite Z.eqb_refl. eauto.
Qed.

Example C10_nonvacuous :
  exists r p o h,
  encodeRaw enc_demo (Some ([65; 66; 67] ++ repeat 1 40)) 3 (Some (repeat 170 70)) 70 79
    (Some [128; 129; 130; 131; 132; 133; 134; 135]) 4 [1;2;3;4;5;6;0;0;42;0;0;23] 272 (Some [9])
    = Some (r, p, Some o) /\ r = 63 /\
  decodeHeader hdr0 (Some (firstn 63 o)) 63 = Some (8, h) /\
  decodeRaw dec_demo h (Some (firstn 63 o)) (Some (repeat 0 32)) 5 100 (Some [9])
    (Some [1;2;3;4;5;6;0;0;42;0;0;23])
    = Some (63, Some ([65; 66; 67] ++ repeat 0 29), 3).
Proof. vm_compute. do 4 eexists. repeat split; reflexivity. Qed.

Print Assumptions C54_encodeRaw_exact.
Print Assumptions C10_secure_round_trip.
Print Assumptions C11_decodeRaw_exact.
Print Assumptions C07_bad_padding_refuted.
Print Assumptions C07_bad_padding_partial.
