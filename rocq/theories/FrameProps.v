(** Properties C01-C05: framing and CRC-7. *)
From Verif Require Import Base CrcModel CrcSpec CrcLin CrcProofs FrameModel FrameSpec FrameProofs.

(** ** C01: header encoding succeeds exactly for sendable parameters, touches only
    the header bytes, and round-trips through decodeHeader. *)
Theorem C01_header_encode_iff :
  forall h b n secure ty seq id il bl tl,
  byte ty -> byte seq -> byte il -> byte bl -> byte tl -> byte n ->
  n <= Zlen b -> il <= Zlen id -> Zlen (hid h) = 8 ->
  exists r h' b',
    encodeHeader h (Some b) n secure ty seq (Some id) il bl tl = Some (r, h', Some b') /\
    (r <> 0 <-> sendable secure ty il bl tl n) /\
    (r = 0 -> b' = b /\ isInvalid h' = true) /\
    (r <> 0 -> r = 4 + il /\
       b' = frame_header secure ty seq (firstn (Z.to_nat il) id) bl tl
            ++ skipn (Z.to_nat (4 + il)) b).
Proof.
  intros h b n secure ty seq id il bl tl Hty Hseq Hil Hbl Htl Hn Hb Hid Hh.
  unfold byte in *.
  assert (Hdec : {sendable secure ty il bl tl n} + {~ sendable secure ty il bl tl n}).
  { unfold sendable. destruct (Z_le_dec 1 ty), (Z_le_dec ty 126), (Z_le_dec il 8),
     (Z_le_dec (4 + il) n), (Z_le_dec (4 + il + bl + tl) 64), (Z_le_dec 1 tl),
     (Z.eq_dec tl 1), secure;
     try (right; lia); left; repeat split; try lia; intros; discriminate. }
  destruct Hdec as [Hs|Hs].
  - pose proof Hs as (H1&H2&H3&H4&H5&H6).
    destruct (list_split_at id il) as (i0 & i1 & -> & Hi0); [lia|].
    destruct (list_split_at b (4 + il)) as (oh & ot & -> & Hoh); [lia|]. subst il.
    exists (4 + Zlen i0), (hdr_result h secure ty seq i0 bl tl),
      (frame_header secure ty seq i0 bl tl ++ ot).
    split; [apply encodeHeader_good; auto; lia|]. split; [split; auto; lia|].
    split; [lia|]. intros _. split; [reflexivity|].
    rewrite firstn_Zlen_app by reflexivity. f_equal.
    rewrite <- Hoh. unfold Zlen. rewrite Nat2Z.id, skipn_app, skipn_all, Nat.sub_diag. reflexivity.
  - destruct (encodeHeader_bad h (Some b) n secure ty seq id il bl tl) as (h' & E & HI);
      auto; try lia.
    exists 0, h', b. split; [exact E|]. split; [split; [lia|contradiction]|].
    split; [auto|lia].
Qed.

Theorem C01_header_round_trip :
  forall h b n secure ty seq id il bl tl r h' b' h2 rest,
  byte ty -> byte seq -> byte il -> byte bl -> byte tl -> byte n ->
  n <= Zlen b -> il <= Zlen id -> Zlen (hid h) = 8 -> Zlen (hid h2) = 8 ->
  Forall byte id ->
  encodeHeader h (Some b) n secure ty seq (Some id) il bl tl = Some (r, h', Some b') ->
  r <> 0 ->
  Forall byte rest -> Zlen rest = bl + tl ->
  znth rest (bl + tl - 1) <> 0 -> znth rest (bl + tl - 1) <> 255 ->
  let f := firstn (Z.to_nat r) b' ++ rest in
  exists h3,
    decodeHeader h2 (Some f) (Zlen f) = Some (r, h3) /\
    isSecure h3 = secure /\ hftype h3 mod 128 = ty /\ getSeq h3 = seq mod 16 /\
    getIl h3 = il /\ firstn (Z.to_nat il) (hid h3) = firstn (Z.to_nat il) id /\
    hbl h3 = bl /\ getTl h3 = tl /\ hfl h3 = 3 + il + bl + tl.
Proof.
  intros h b n secure ty seq id il bl tl r h' b' h2 rest Hty Hseq Hil Hbl Htl Hn Hb Hid Hh Hh2
    Hidb E Hr Hrest HrL Hl0 Hl1 f.
  destruct (C01_header_encode_iff h b n secure ty seq id il bl tl) as
    (r0 & h0 & b0 & E0 & Hiff & _ & Hgood); auto.
  rewrite E in E0. inversion E0; subst r0 h0 b0; clear E0.
  destruct (Hgood Hr) as [-> Hb']. apply Hiff in Hr. unfold byte in *.
  pose proof Hr as (H1&H2&H3&H4&H5&H6).
  set (i0 := firstn (Z.to_nat il) id) in *.
  assert (Hi0 : Zlen i0 = il) by (unfold i0; rewrite Zlen_firstn; lia).
  assert (Hf : f = frame_header secure ty seq i0 bl tl ++ rest).
  { unfold f. rewrite Hb'. f_equal. apply firstn_Zlen_app. rewrite frame_header_len. lia. }
  assert (HfL : Zlen f = 4 + il + bl + tl).
  { rewrite Hf, Zlen_app, frame_header_len. lia. }
  assert (Hlast : znth f (3 + Zlen i0 + bl + tl) = znth rest (bl + tl - 1)).
  { rewrite Hf, znth_app, frame_header_len by lia.
    replace (_ <? _) with false by lia. f_equal. lia. }
  assert (Hfb : Forall byte f).
  { rewrite Hf. apply Forall_app; split; auto. unfold frame_header.
    pose proof (Z.mod_pos_bound seq 16 ltac:(lia)).
    apply Forall_app; split; [|apply Forall_app; split].
    - repeat constructor; unfold byte; destruct secure; lia.
    - unfold i0. apply Forall_firstn'; auto.
    - repeat constructor; unfold byte; lia. }
  assert (W : well_formed f (Zlen f)).
  { rewrite Hf. apply sendable_well_formed with (n := n); try lia.
    - rewrite Hi0; auto.
    - rewrite <- Hf. rewrite HfL. lia.
    - rewrite <- Hf. rewrite Hlast; auto.
    - rewrite <- Hf. rewrite Hlast; auto. }
  destruct (decodeHeader_char h2 f (Zlen f) ltac:(lia) Hfb Hh2) as [[_ D]|[W' _]]; [|contradiction].
  destruct (frame_fields secure ty seq i0 bl tl rest ltac:(lia)) as (A1&A2&A3&A4&A5&A6&A7).
  rewrite <- Hf in A1, A2, A3, A4, A5, A6, A7.
  exists (hdr_decoded h2 f). rewrite D, A4, Hi0. split; [reflexivity|].
  assert (Hb2 : byte (znth f 2)) by (apply znth_byte; auto).
  assert (Hb1 : byte (f_type f)) by (apply znth_byte; auto).
  unfold isSecure, getSeq, getTl, getIl, hdr_decoded. cbn [hftype hseqil hid hbl hfl].
  rewrite secure_bit, seq_dec, land15 by auto.
  change (znth f 2 / 16) with (f_seq f). change (znth f 2 mod 16) with (f_il f).
  rewrite A1, A2, A3, A4, A5, Hi0. repeat split.
  - destruct secure; lia.
  - destruct secure.
    + symmetry. apply Z.mod_unique with 1; lia.
    + apply Z.mod_small; lia.
  - rewrite Hi0 in A4. rewrite A4 in A7. rewrite A7. rewrite <- Hi0. apply firstn_Zlen_app. reflexivity.
  - rewrite u8_id; [lia|unfold byte; lia].
Qed.

(** Non-vacuity: a secure 'O' frame header with 4-byte ID, 32-byte body, 23-byte trailer. *)
Example C01_nonvacuous :
  encodeHeader hdr0 (Some (repeat 170 64)) 64 true 79 5 (Some [1;2;3;4;5;6;7;8]) 4 32 23
  = Some (8, mkHdr 62 207 84 [1;2;3;4;0;0;0;0] 32,
          Some ([62; 207; 84; 1; 2; 3; 4; 32] ++ repeat 170 56)).
Proof. vm_compute. reflexivity. Qed.

(** ** C02: decodeHeader accepts exactly the well-formed headers, never reads out of
    bounds, and an accepted frame is exactly header + body + trailer. *)
Theorem C02_decode_header_exact :
  forall h b n, n <= Zlen b -> Forall byte b -> Zlen (hid h) = 8 ->
  exists r h', decodeHeader h (Some b) n = Some (r, h') /\
    (r <> 0 <-> well_formed b n) /\
    (r = 0 -> isInvalid h' = true) /\
    (r <> 0 ->
       isInvalid h' = false /\ hfl h' = f_fl b /\ hftype h' = f_type b /\
       (isSecure h' = true <-> f_secure b) /\
       getSeq h' = f_seq b /\ getIl h' = f_il b /\ hbl h' = f_bl b /\
       firstn (Z.to_nat (f_il b)) (hid h') = firstn (Z.to_nat (f_il b)) (skipn 3 b) /\
       r = 4 + f_il b /\ getBodyOffset h' = r /\ getTrailerOffset h' = r + hbl h' /\
       getTl h' = f_tl b /\
       getTrailerOffset h' + getTl h' = hfl h' + 1 /\
       (isSecure h' = false -> getTl h' = 1) /\ 1 <= getTl h').
Proof.
  intros h b n Hn Hb Hh.
  destruct (decodeHeader_char h b n Hn Hb Hh) as [[W D]|[W (h' & D & HI)]].
  - exists (4 + f_il b), (hdr_decoded h b). split; [exact D|].
    pose proof W as W'. unfold well_formed in W'.
    destruct W' as (W1&W2&W3a&W3b&W3c&W3d&W4&W5&W6&W7&W8&W9&W10).
    assert (Hil : 0 <= f_il b) by (apply Z.mod_pos_bound; lia).
    assert (Hbl : 0 <= f_bl b) by (apply znth_byte; auto).
    assert (Hb2 : byte (znth b 2)) by (apply znth_byte; auto).
    assert (Hb1 : byte (f_type b)) by (apply znth_byte; auto).
    split; [split; auto; lia|]. split; [lia|]. intros _.
    unfold isInvalid, isSecure, getSeq, getTl, getBodyOffset, getHl, getTrailerOffset, getIl, hdr_decoded.
    cbn [hftype hseqil hid hbl hfl].
    rewrite secure_bit, seq_dec, land15 by auto.
    change (znth b 2 / 16) with (f_seq b). change (znth b 2 mod 16) with (f_il b).
    unfold f_secure, f_tl in *. rewrite !u8_id by (unfold byte; lia).
    repeat split; try lia.
    apply firstn_Zlen_app. rewrite Zlen_firstn, Zlen_skipn. lia.
  - exists 0, h'. split; [exact D|]. split; [split; [lia|contradiction]|].
    split; [intros _; unfold isInvalid; rewrite HI; reflexivity|lia].
Qed.

(** NULL input is refused. *)
Theorem C02_decode_header_null : forall h n, exists h',
  decodeHeader h None n = Some (0, h') /\ isInvalid h' = true.
Proof. intros. eexists; split; reflexivity. Qed.

(** Both outcomes occur. *)
Example C02_nonvacuous_accept :
  decodeHeader hdr0 (Some [8; 33; 2; 128; 129; 2; 0; 1; 35]) 9
  = Some (6, mkHdr 8 33 2 [128; 129; 0; 0; 0; 0; 0; 0] 2).
Proof. vm_compute. reflexivity. Qed.
Example C02_nonvacuous_reject :
  decodeHeader hdr0 (Some [8; 33; 2; 128; 129; 3; 0; 1; 35]) 9
  = Some (0, mkHdr 0 33 2 [128; 129; 0; 0; 0; 0; 0; 0] 0).
Proof. vm_compute. reflexivity. Qed.

(** ** C03: non-secure frames: success exactly when legal and fitting; layout; round trip. *)
Theorem C03_encode_nonsecure :
  forall ptext psize outbuf n ty seq id il,
  byte ty -> byte seq -> byte il -> byte psize -> byte n ->
  n <= Zlen outbuf -> il <= Zlen id -> psize <= Zlen ptext ->
  exists r out',
    encodeNonsecure ptext psize outbuf n ty seq (Some id) il = Some (r, out') /\
    Zlen out' = Zlen outbuf /\
    (r <> 0 <-> 1 <= ty <= 126 /\ il <= 8 /\ 5 + il + psize <= 64 /\ 5 + il + psize <= n) /\
    (r <> 0 -> r = 5 + il + psize /\
       (exists crc, firstn (Z.to_nat r) out' =
         frame_bytes false ty seq (firstn (Z.to_nat il) id) (firstn (Z.to_nat psize) ptext) [crc]) /\
       skipn (Z.to_nat r) out' = skipn (Z.to_nat r) outbuf).
Proof.
  intros ptext psize outbuf n ty seq id il Hty Hseq Hil Hps Hn Hob Hid Hpt. unfold byte in *.
  destruct (Z_le_dec 1 ty), (Z_le_dec ty 126), (Z_le_dec il 8),
     (Z_le_dec (5 + il + psize) 64), (Z_le_dec (5 + il + psize) n);
  try (destruct (encodeNonsecure_bad ptext psize outbuf ty seq id il n) as (out' & E & HL);
    [auto; lia..|]; exists 0, out'; repeat split; auto; lia).
  destruct (list_split_at id il) as (i0 & i1 & -> & Hi0); [lia|]. subst il.
  destruct (list_split_at ptext psize) as (p0 & p1 & -> & Hp0); [lia|]. subst psize.
  destruct (list_split_at outbuf (5 + Zlen i0 + Zlen p0)) as (oh & ot & -> & Hoh); [lia|].
  set (FB := frame_bytes false ty seq i0 p0 [nonsecure_crc ty seq i0 p0]).
  assert (HFB : Zlen FB = 5 + Zlen i0 + Zlen p0).
  { unfold FB, frame_bytes. rewrite !Zlen_app, frame_header_len. autorewrite with zlen. lia. }
  exists (5 + Zlen i0 + Zlen p0), (FB ++ ot). repeat split; try lia.
  - apply (encodeNonsecure_good (p0 ++ p1) p0 p1); auto; lia.
  - rewrite !Zlen_app. lia.
  - exists (nonsecure_crc ty seq i0 p0). rewrite !firstn_Zlen_app by (reflexivity || lia). reflexivity.
  - rewrite <- HFB at 1. rewrite <- Hoh. unfold Zlen.
    rewrite !Nat2Z.id, !skipn_app, !skipn_all, !Nat.sub_diag. reflexivity.
Qed.

Theorem C03_nonsecure_round_trip :
  forall ptext psize outbuf n ty seq id il r out' h2,
  byte ty -> byte seq -> byte il -> byte psize -> byte n ->
  n <= Zlen outbuf -> il <= Zlen id -> psize <= Zlen ptext ->
  Forall byte id -> Forall byte ptext -> Zlen (hid h2) = 8 ->
  encodeNonsecure ptext psize outbuf n ty seq (Some id) il = Some (r, out') -> r <> 0 ->
  let f := firstn (Z.to_nat r) out' in
  exists h3,
    decodeHeader h2 (Some f) r = Some (4 + il, h3) /\
    decodeNonsecure h3 (Some f) = Some r /\
    isSecure h3 = false /\ hftype h3 = ty /\ getSeq h3 = seq mod 16 /\ getIl h3 = il /\
    firstn (Z.to_nat il) (hid h3) = firstn (Z.to_nat il) id /\ hbl h3 = psize /\
    sub f (getBodyOffset h3) (hbl h3) = Some (firstn (Z.to_nat psize) ptext).
Proof.
  intros ptext psize outbuf n ty seq id il r out' h2 Hty Hseq Hil Hps Hn Hob Hid Hpt Hidb Hptb Hh2 E Hr f.
  destruct (C03_encode_nonsecure ptext psize outbuf n ty seq id il) as (r0 & o0 & E0 & _ & Hiff & Hgood); auto.
  assert (Er : r = r0 /\ out' = o0) by (rewrite E in E0; inversion E0; auto).
  destruct Er; subst r0 o0. apply Hiff in Hr. clear Hgood E0 Hiff. unfold byte in *.
  destruct (list_split_at id il) as (i0 & i1 & -> & Hi0); [lia|]. subst il.
  destruct (list_split_at ptext psize) as (p0 & p1 & -> & Hp0); [lia|]. subst psize.
  destruct (list_split_at outbuf (5 + Zlen i0 + Zlen p0)) as (oh & ot & -> & Hoh); [lia|].
  rewrite (encodeNonsecure_good (p0 ++ p1) p0 p1) in E by (auto; lia).
  apply some_pair_inj in E. destruct E as [Er Eo]. symmetry in Er, Eo. subst r.
  set (c := nonsecure_crc ty seq i0 p0) in *.
  destruct (nonsecure_crc_ok ty seq i0 p0) as (Hc1 & Hc2 & Hc3). fold c in Hc1, Hc2, Hc3.
  assert (Hf : f = frame_header false ty seq i0 (Zlen p0) 1 ++ (p0 ++ [c])).
  { unfold f. rewrite Eo. unfold frame_bytes. change (Zlen [c]) with 1.
    apply firstn_Zlen_app. rewrite !Zlen_app, frame_header_len. change (Zlen [c]) with 1. lia. }
  assert (HfL : Zlen f = 5 + Zlen i0 + Zlen p0).
  { rewrite Hf, !Zlen_app, frame_header_len. change (Zlen [c]) with 1. lia. }
  pose proof (Zlen_nonneg i0). pose proof (Zlen_nonneg p0).
  apply Forall_app in Hidb. apply Forall_app in Hptb.
  assert (Hfb : Forall byte f).
  { rewrite Hf. apply Forall_app; split; [|apply Forall_app; split; [tauto|repeat constructor; apply Hc1]].
    pose proof (Z.mod_pos_bound seq 16 ltac:(lia)).
    apply Forall_app; split; [|apply Forall_app; split; [tauto|repeat constructor; unfold byte; lia]].
    repeat constructor; unfold byte; lia. }
  destruct (frame_fields false ty seq i0 (Zlen p0) 1 (p0 ++ [c]) ltac:(lia)) as (A1&A2&A3&A4&A5&A6&A7).
  rewrite <- Hf in A1, A2, A3, A4, A5, A6, A7.
  assert (Hlast : znth f (f_fl f) = c).
  { rewrite A1, Hf, znth_app, frame_header_len by lia. replace (_ <? _) with false by lia.
    rewrite znth_app by lia. replace (_ <? _) with false by lia.
    replace (_ - Zlen p0) with 0 by lia. reflexivity. }
  assert (W : well_formed f (Zlen f)).
  { rewrite Hf. apply sendable_well_formed with (n := n); try lia.
    - unfold sendable. repeat split; lia.
    - rewrite <- Hf. rewrite HfL. lia.
    - rewrite <- Hf. rewrite <- A1. rewrite Hlast; auto.
    - rewrite <- Hf. rewrite <- A1. rewrite Hlast; auto. }
  destruct (decodeHeader_char h2 f (Zlen f) ltac:(lia) Hfb Hh2) as [[_ D]|[W' _]]; [|contradiction].
  exists (hdr_decoded h2 f). rewrite <- HfL. rewrite D, A4. split; [reflexivity|].
  assert (Hb2 : byte (znth f 2)) by (apply znth_byte; auto).
  assert (Hb1 : byte (f_type f)) by (apply znth_byte; auto).
  split.
  - rewrite decodeNonsecure_char; auto; [|lia]. rewrite A6, Hlast. cbn [Z.eqb Pos.eqb andb].
    rewrite A1. replace (firstn _ f) with (frame_header false ty seq i0 (Zlen p0) 1 ++ p0).
    + change (nz _) with c. rewrite Z.eqb_refl. f_equal. lia.
    + rewrite Hf, app_assoc. symmetry. apply firstn_Zlen_app. rewrite Zlen_app, frame_header_len. lia.
  - assert (Hoff : getBodyOffset (hdr_decoded h2 f) = 4 + Zlen i0).
    { unfold getBodyOffset, getHl, getIl, hdr_decoded. cbn [hseqil]. rewrite land15.
      change (znth f 2 mod 16) with (f_il f). rewrite A4. apply u8_id. unfold byte. lia. }
    rewrite Hoff.
    unfold isSecure, getSeq, getIl, hdr_decoded. cbn [hftype hseqil hid hbl hfl].
    rewrite secure_bit, seq_dec, land15 by auto.
    change (znth f 2 / 16) with (f_seq f). change (znth f 2 mod 16) with (f_il f).
    rewrite A2, A3, A4, A5.
    repeat split; try lia.
    + rewrite A4 in A7. rewrite A7. rewrite !firstn_Zlen_app by reflexivity. reflexivity.
    + rewrite sub_some by lia. f_equal. rewrite Hf.
      rewrite <- (frame_header_len false ty seq i0 (Zlen p0) 1).
      unfold Zlen. rewrite !Nat2Z.id, skipn_app, skipn_all, Nat.sub_diag. simpl.
      rewrite !firstn_app, !Nat.sub_diag, !firstn_all. rewrite !firstn_O. reflexivity.
Qed.

Example C03_nonvacuous :
  encodeNonsecure [0; 1] 2 (repeat 0 20) 20 79 0 (Some [128; 129]) 2
  = Some (9, [8; 79; 2; 128; 129; 2; 0; 1; 35] ++ repeat 0 11).
Proof. vm_compute. reflexivity. Qed.

(** ** C04: corruption of an accepted non-secure frame is detected. *)

(** A frame of exactly the announced length is accepted as non-secure. *)
Definition accepts_nonsecure (f : list Z) : Prop :=
  exists hl h, decodeHeader hdr0 (Some f) (Zlen f) = Some (hl, h) /\ hl <> 0 /\
    exists r, decodeNonsecure h (Some f) = Some r /\ r <> 0.

Lemma accepts_codeword f : Forall byte f -> f_fl f + 1 = Zlen f -> accepts_nonsecure f ->
  exists d, f = d ++ [nz (crc7_run 127 d)].
Proof.
  intros Hf HL (hl & h & D & Hhl & r & N & Hr).
  destruct (decodeHeader_char hdr0 f (Zlen f) ltac:(lia) Hf eq_refl) as [[W D']|[_ (h' & D' & _)]].
  2:{ rewrite D in D'. inversion D'. subst. lia. }
  rewrite D in D'. inversion D'; subst. rewrite decodeNonsecure_char in N; auto; [|lia].
  destruct ((f_tl f =? 1) && _) eqn:E in N; [|inversion N; lia].
  apply andb_prop in E. destruct E as [_ E]. apply Z.eqb_eq in E.
  unfold well_formed in W. assert (0 < Zlen f) by lia.
  exists (firstn (Z.to_nat (f_fl f)) f). rewrite <- E.
  apply zlist_ext.
  - rewrite Zlen_app, Zlen_firstn. change (Zlen [znth f (f_fl f)]) with 1. lia.
  - intros i Hi. rewrite znth_app by lia. rewrite Zlen_firstn.
    destruct (i <? _) eqn:E1.
    + rewrite znth_firstn by lia. reflexivity.
    + replace i with (f_fl f) by lia. replace (f_fl f - _) with 0 by lia. reflexivity.
Qed.

Lemma diff_app d t d' t' e : diff (d ++ [t]) (d' ++ [t']) e -> length d = length d' ->
  exists ed, e = ed ++ [Z.lxor t t'] /\ diff d d' ed.
Proof.
  intros (H1 & H2 & H3) HL.
  destruct (exists_last (l := e)) as (ed & et & He).
  { intros ->. rewrite app_length in H2. simpl in H2. lia. }
  subst e. rewrite !app_length in *. simpl in *.
  assert (Het : et = Z.lxor t t').
  { specialize (H3 (Zlen d)). rewrite !znth_app in H3 by apply Zlen_nonneg.
    unfold Zlen in *. rewrite app_length in H3. simpl in H3.
    replace (Z.of_nat (length d) <? Z.of_nat (length d)) with false in H3 by lia.
    replace (Z.of_nat (length d) <? Z.of_nat (length ed)) with false in H3 by lia.
    replace (Z.of_nat (length d) <? Z.of_nat (length d')) with false in H3 by lia.
    replace (Z.of_nat (length d) - Z.of_nat (length ed)) with 0 in H3 by lia.
    replace (Z.of_nat (length d) - Z.of_nat (length d')) with 0 in H3 by lia.
    replace (Z.of_nat (length d) - Z.of_nat (length d)) with 0 in H3 by lia.
    apply H3. lia. }
  exists ed. split; [f_equal; f_equal; exact Het|]. split; [lia|]. split; [lia|].
  intros i Hi. specialize (H3 i). rewrite !znth_app in H3 by lia.
  rewrite Zlen_app in H3. unfold Zlen in *.
  replace (i <? Z.of_nat (length d)) with true in H3 by lia.
  replace (i <? Z.of_nat (length ed)) with true in H3 by lia.
  replace (i <? Z.of_nat (length d')) with true in H3 by lia.
  apply H3. lia.
Qed.

Theorem C04_burst_rejected :
  forall f f' e,
  Forall byte f -> Forall byte f' -> diff f f' e ->
  f_fl f + 1 = Zlen f ->         (* f is a complete frame *)
  znth e 0 = 0 ->                (* length byte not corrupted *)
  burst7 e ->                    (* some corruption, within 7 consecutive bits *)
  accepts_nonsecure f -> ~ accepts_nonsecure f'.
Proof.
  intros f f' e Hf Hf' HD HL He0 HB HA HA'.
  assert (HL' : f_fl f' + 1 = Zlen f').
  { pose proof (diff_xorl _ _ _ HD) as Hx. destruct HD as (HL1&HL2&HD).
    assert (0 < Zlen f) by (pose proof (znth_byte f 0 Hf) as Hz; unfold byte, f_fl in *; lia).
    unfold f_fl in *. rewrite Hx, znth_xorl, He0, Z.lxor_0_r by (unfold Zlen in *; lia).
    unfold Zlen in *. rewrite xorl_len by lia. lia. }
  destruct (accepts_codeword f Hf HL HA) as [d Hd].
  destruct (accepts_codeword f' Hf' HL' HA') as [d' Hd'].
  assert (Hlen : length d = length d').
  { destruct HD as (H1&_). rewrite Hd, Hd', !app_length in H1. simpl in H1. lia. }
  assert (Hdb : Forall byte d) by (rewrite Hd in Hf; apply Forall_app in Hf; tauto).
  assert (Hdb' : Forall byte d') by (rewrite Hd' in Hf'; apply Forall_app in Hf'; tauto).
  rewrite Hd, Hd' in HD. destruct (diff_app _ _ _ _ _ HD Hlen) as (ed & -> & HD2).
  eapply (codeword_burst d d'); eauto; lia.
Qed.

Theorem C04_odd_errors_rejected :
  forall f f' e,
  Forall byte f -> Forall byte f' -> diff f f' e ->
  f_fl f + 1 = Zlen f ->
  znth e 0 = 0 ->                      (* length byte not corrupted *)
  znth e (f_fl f) = 0 ->               (* CRC byte not corrupted *)
  ones_l e mod 2 = 1 ->                (* odd number of bits inverted *)
  accepts_nonsecure f -> ~ accepts_nonsecure f'.
Proof.
  intros f f' e Hf Hf' HD HL He0 He1 Hodd HA HA'.
  assert (HL' : f_fl f' + 1 = Zlen f').
  { pose proof (diff_xorl _ _ _ HD) as Hx. destruct HD as (HL1&HL2&HD).
    assert (0 < Zlen f) by (pose proof (znth_byte f 0 Hf) as Hz; unfold byte, f_fl in *; lia).
    unfold f_fl in *. rewrite Hx, znth_xorl, He0, Z.lxor_0_r by (unfold Zlen in *; lia).
    unfold Zlen in *. rewrite xorl_len by lia. lia. }
  destruct (accepts_codeword f Hf HL HA) as [d Hd].
  destruct (accepts_codeword f' Hf' HL' HA') as [d' Hd'].
  assert (Hlen : length d = length d').
  { destruct HD as (H1&_). rewrite Hd, Hd', !app_length in H1. simpl in H1. lia. }
  assert (Hdb : Forall byte d) by (rewrite Hd in Hf; apply Forall_app in Hf; tauto).
  assert (Hdb' : Forall byte d') by (rewrite Hd' in Hf'; apply Forall_app in Hf'; tauto).
  assert (Hfl : f_fl f = Zlen d).
  { rewrite Hd, Zlen_app in HL. change (Zlen [nz (crc7_run 127 d)]) with 1 in HL.
    rewrite <- Hd in HL. lia. }
  rewrite Hd, Hd' in HD. destruct (diff_app _ _ _ _ _ HD Hlen) as (ed & -> & HD2).
  assert (Hedl : Zlen ed = Zlen d) by (destruct HD2 as (?&?&?); unfold Zlen; lia).
  rewrite Hfl, znth_app, Hedl in He1 by apply Zlen_nonneg.
  replace (Zlen d <? Zlen d) with false in He1 by lia. rewrite Z.sub_diag in He1.
  change (Z.lxor (nz (crc7_run 127 d)) (nz (crc7_run 127 d')) = 0) in He1.
  pose proof He1 as Ht. apply Z.lxor_eq in Ht. apply nz_inj in Ht; try (apply crc7_run_range; lia).
  revert Ht. eapply crc7_odd; eauto; [lia|].
  rewrite He1 in Hodd. unfold ones_l in *. rewrite fold_right_app in Hodd. simpl in Hodd. exact Hodd.
Qed.

Example C04_nonvacuous : accepts_nonsecure [8; 79; 2; 128; 129; 2; 0; 1; 35].
Proof.
  eexists _, _. split; [vm_compute; reflexivity|]. split; [lia|].
  eexists. split; [vm_compute; reflexivity|lia].
Qed.
Example C04_nonvacuous_error : burst7 [0; 0; 0; 0; 0; 3; 128; 0; 0].
Proof. exists 7, 23. repeat split; try lia. Qed.

(** The restriction to non-CRC bytes in the odd-error theorem is needed: an odd
    (5-bit) error touching the CRC byte can go undetected because of the
    0x00->0x80 substitution (crc 0x00 is sent as 0x80). *)
Theorem C04_odd_errors_in_crc_refuted :
  exists f f' e, Forall byte f /\ Forall byte f' /\ diff f f' e /\
    f_fl f + 1 = Zlen f /\ znth e 0 = 0 /\ ones_l e mod 2 = 1 /\
    accepts_nonsecure f /\ accepts_nonsecure f'.
Proof.
  exists [8; 79; 2; 128; 129; 2; 0; 24; 128], [8; 79; 2; 128; 129; 2; 0; 88; 13],
         [0; 0; 0; 0; 0; 0; 0; 64; 141].
  assert (HB : forall l, forallb (fun b => (0 <=? b) && (b <? 256)) l = true -> Forall byte l).
  { intros l Hl. rewrite forallb_forall in Hl. apply Forall_forall. intros x Hx.
    specialize (Hl x Hx). unfold byte. lia. }
  split; [apply HB; reflexivity|]. split; [apply HB; reflexivity|].
  split; [|split; [reflexivity|split; [reflexivity|split; [vm_compute; reflexivity|split]]]].
  - split; [reflexivity|]. split; [reflexivity|].
    intros i Hi. change (Zlen _) with 9 in Hi.
    assert (Hs : below 9 (fun i => znth [0; 0; 0; 0; 0; 0; 0; 64; 141] i =?
       Z.lxor (znth [8; 79; 2; 128; 129; 2; 0; 24; 128] i)
              (znth [8; 79; 2; 128; 129; 2; 0; 88; 13] i)) = true) by (vm_compute; reflexivity).
    apply Z.eqb_eq. exact (below_spec _ _ Hs i Hi).
  - eexists _, _. split; [vm_compute; reflexivity|]. split; [lia|].
    eexists. split; [vm_compute; reflexivity|lia].
  - eexists _, _. split; [vm_compute; reflexivity|]. split; [lia|].
    eexists. split; [vm_compute; reflexivity|lia].
Qed.

(** ** C05: CRC-7 strength *)
Theorem C05_crc7_range : forall crc datum, 0 <= crc7_5B_update crc datum < 128.
Proof. exact crc7_update_range. Qed.

Theorem C05_crc7_linear : forall c d c' d',
  0 <= c < 128 -> 0 <= c' < 128 -> byte d -> byte d' ->
  crc7_5B_update (Z.lxor c c') (Z.lxor d d') =
  Z.lxor (crc7_5B_update c d) (crc7_5B_update c' d').
Proof. exact crc7_linear. Qed.

(** Hamming distance at least 4 for messages of up to 7 bytes: two different messages
    differ, together with their CRCs, in at least 4 bits. *)
Theorem C05_crc7_hamming4 : forall l l' e c,
  (length l <= 7)%nat -> Forall byte l -> Forall byte l' -> 0 <= c < 128 ->
  diff l l' e -> l <> l' ->
  4 <= ones_l e + ones8 (Z.lxor (crc7_run c l) (crc7_run c l')).
Proof. intros. apply crc7_hd4; auto. Qed.

Theorem C05_crc7_odd : forall l l' e c,
  Forall byte l -> Forall byte l' -> 0 <= c < 128 -> diff l l' e ->
  ones_l e mod 2 = 1 -> crc7_run c l <> crc7_run c l'.
Proof. intros. eapply crc7_odd; eauto. Qed.

Theorem C05_crc7_burst : forall l l' e c,
  Forall byte l -> Forall byte l' -> 0 <= c < 128 -> diff l l' e ->
  burst7 e -> crc7_run c l <> crc7_run c l'.
Proof. intros. eapply crc7_burst; eauto. Qed.

Theorem C05_nz_final : forall c d c' d',
  crc7_5B_update_nz_final c d <> 0 /\ crc7_5B_update_nz_final c d <> 255 /\
  (crc7_5B_update_nz_final c d = crc7_5B_update_nz_final c' d' <->
   crc7_5B_update c d = crc7_5B_update c' d').
Proof.
  intros. rewrite !nz_final_eq.
  pose proof (crc7_update_range c d) as R1. pose proof (crc7_update_range c' d') as R2.
  destruct (nz_byte _ R1) as (_ & ? & ?). repeat split; auto.
  - apply nz_inj; auto.
  - intros ->. reflexivity.
Qed.

(** Known-answer check tying the model to the unit tests of the project. *)
Example C05_kat : crc7_run 127 [8; 79; 2; 128; 129; 2; 0; 1] = 35.
Proof. vm_compute. reflexivity. Qed.

Print Assumptions C01_header_encode_iff.
Print Assumptions C01_header_round_trip.
Print Assumptions C02_decode_header_exact.
Print Assumptions C03_encode_nonsecure.
Print Assumptions C03_nonsecure_round_trip.
Print Assumptions C04_burst_rejected.
Print Assumptions C04_odd_errors_rejected.
Print Assumptions C05_crc7_hamming4.
Print Assumptions C05_crc7_burst.
Print Assumptions C05_nz_final.
