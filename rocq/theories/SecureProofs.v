(** Characterisation of encodeRaw / decodeRaw. *)
From Verif Require Import Base CrcModel CrcSpec CrcProofs FrameModel FrameSpec FrameProofs FrameProps SecureModel SecureSpec SecureProps.

Lemma frame_header_seq secure ty s1 s2 id bl tl : s1 mod 16 = s2 mod 16 ->
  frame_header secure ty s1 id bl tl = frame_header secure ty s2 id bl tl.
Proof. intros H. unfold frame_header. rewrite H. reflexivity. Qed.

Lemma padded_len b : Zlen b <= 31 -> Zlen (padded b) = 32.
Proof. intros. unfold padded. autorewrite with zlen. unfold Zlen in *. lia. Qed.

Lemma pad_ok ptext n : 0 <= n <= 31 -> 32 <= Zlen ptext ->
  exists p, pad32BBuffer (Some ptext) n = Some (32, Some p) /\
    sub p 0 32 = Some (padded (firstn (Z.to_nat n) ptext)).
Proof.
  intros Hn HL.
  destruct (list_split_at ptext n) as (data & st & -> & Hd); [lia|].
  rewrite Zlen_app in HL.
  destruct (list_split_at st (31 - n)) as (junk & r & -> & Hj); [lia|].
  rewrite Zlen_app in HL. destruct r as [|x rest]; [rewrite Zlen_nil in HL; lia|].
  change (x :: rest) with ([x] ++ rest). subst n. rewrite pad_exact by lia.
  eexists. split; [reflexivity|].
  rewrite sub_full_prefix by (autorewrite with zlen; unfold Zlen in *; lia).
  f_equal. rewrite (firstn_Zlen_app data (junk ++ [x] ++ rest)) by reflexivity. unfold padded.
  replace (31 - length data)%nat with (length junk) by (unfold Zlen in *; lia).
  replace (31 - Zlen data) with (Zlen junk) by lia.
  replace (data ++ repeat 0 (length junk) ++ [Zlen junk] ++ rest)
    with ((data ++ repeat 0 (length junk) ++ [Zlen junk]) ++ rest) by (rewrite <- !app_assoc; reflexivity).
  apply firstn_Zlen_app.
  autorewrite with zlen. unfold Zlen in *. lia.
Qed.

Definition fits (plen ty il n : Z) : Prop :=
  plen <= 31 /\ 1 <= ty <= 126 /\ il <= 8 /\
  27 + il + cipher_len plen <= 64 /\ 27 + il + cipher_len plen <= n.

Lemma cipher_len_cases n : cipher_len n = 0 \/ cipher_len n = 32.
Proof. unfold cipher_len. destruct (n =? 0); auto. Qed.

Lemma encodeRaw_bad e ptext plen out n ty id il iv ws key :
  Zlen iv = 12 -> Forall byte iv -> 0 <= il <= Zlen id -> 0 <= ty -> 0 <= plen ->
  n <= Zlen out ->
  ~ fits plen ty il n ->
  exists p o, encodeRaw e ptext plen (Some out) n ty (Some id) il iv ws (Some key) = Some (0, p, o).
Proof.
  intros Hiv Hivb Hil Hty Hpl Hn Hnf. unfold encodeRaw.
  destruct (plen >? 31) eqn:E1; [repeat eexists|].
  rewrite rd_some by lia. cbn [bind].
  replace (if 0 =? plen then 0 else 32) with (cipher_len plen)
    by (unfold cipher_len; rewrite (Z.eqb_sym 0); reflexivity).
  pose proof (cipher_len_cases plen) as HC.
  set (seq := Z.land (znth iv 11) 15).
  assert (Hseq : byte seq).
  { unfold seq. rewrite land15. pose proof (Z.mod_pos_bound (znth iv 11) 16). unfold byte; lia. }
  destruct (Z.le_gt_cases (4 + il) n) as [H4|H4].
  2:{ destruct (encodeHeader_bad hdr0 (Some out) n true ty seq id il (cipher_len plen) 23)
        as (h' & HE & _); try lia; try reflexivity.
      { unfold sendable. lia. }
      rewrite HE. cbn [bind]. repeat eexists. }
  assert (HD : sendable true ty il (cipher_len plen) 23 n \/ ~ sendable true ty il (cipher_len plen) 23 n).
  { unfold sendable. destruct (Z.le_gt_cases 1 ty), (Z.le_gt_cases ty 126), (Z.le_gt_cases il 8),
      (Z.le_gt_cases (4 + il + cipher_len plen + 23) 64); try (right; lia).
    left. repeat split; try lia; discriminate. }
  destruct HD as [HS|HS].
  2:{ destruct (encodeHeader_bad hdr0 (Some out) n true ty seq id il (cipher_len plen) 23)
        as (h' & HE & _); try lia; try reflexivity; auto.
      rewrite HE. cbn [bind]. repeat eexists. }
  destruct (list_split_at out (4 + il)) as (oh & ot & -> & Hoh); [lia|].
  destruct (list_split_at id il) as (idp & idr & -> & Hidp); [lia|].
  subst il. rewrite encodeHeader_good; auto; try lia.
  cbn [bind]. replace (0 =? 4 + Zlen idp) with false by lia.
  cbn [hdr_result hfl].
  assert (3 + Zlen idp + cipher_len plen + 23 >= n).
  { destruct HS as (?&?&?&?&?&?). destruct (Z.lt_ge_cases (3 + Zlen idp + cipher_len plen + 23) n); [|lia].
    exfalso. apply Hnf. unfold fits. repeat split; lia. }
  replace (3 + Zlen idp + cipher_len plen + 23 >=? n) with true by lia.
  repeat eexists.
Qed.

Lemma iv_ctr_sub iv : Zlen iv = 12 -> sub iv 6 6 = Some (iv_ctr iv).
Proof. intros. rewrite sub_some by lia. reflexivity. Qed.
Lemma iv_ctr_len iv : Zlen iv = 12 -> Zlen (iv_ctr iv) = 6.
Proof. intros. unfold iv_ctr. autorewrite with zlen. lia. Qed.

Lemma encodeRaw_good e ptext plen out n ty id il iv ws key :
  enc_sized e ->
  Zlen iv = 12 -> Forall byte iv -> 0 <= il <= Zlen id -> 0 <= plen ->
  n <= Zlen out -> (plen <> 0 -> exists p, ptext = Some p /\ 32 <= Zlen p) ->
  fits plen ty il n ->
  let aad := frame_header true ty (znth iv 11) (firstn (Z.to_nat il) id) (cipher_len plen) 23 in
  let pt := if plen =? 0 then None else
              match ptext with Some p => Some (padded (firstn (Z.to_nat plen) p)) | None => None end in
  match e ws key iv aad pt with
  | None => exists p o, encodeRaw e ptext plen (Some out) n ty (Some id) il iv ws (Some key) = Some (0, p, o)
  | Some (ct, tag) =>
      exists p, encodeRaw e ptext plen (Some out) n ty (Some id) il iv ws (Some key) =
        Some (27 + il + cipher_len plen, p,
          Some (aad ++ ct ++ secure_trailer iv tag ++ skipn (Z.to_nat (27 + il + cipher_len plen)) out))
  end.
Proof.
  intros He Hiv Hivb Hil Hpl Hn Hpt (F1 & F2 & F3 & F4 & F5) aad pt.
  pose proof (cipher_len_cases plen) as HC. set (bl := cipher_len plen) in *.
  assert (Hclen : (if 0 =? plen then 0 else 32) = bl)
    by (unfold bl, cipher_len; rewrite (Z.eqb_sym 0); reflexivity).
  unfold encodeRaw.
  replace (plen >? 31) with false by lia. rewrite rd_some by lia. cbn [bind].
  rewrite Hclen.
  set (seq := Z.land (znth iv 11) 15).
  assert (Hseq : byte seq /\ seq mod 16 = znth iv 11 mod 16).
  { unfold seq. rewrite land15. pose proof (Z.mod_pos_bound (znth iv 11) 16).
    split; [unfold byte; lia|]. apply Z.mod_mod. lia. }
  destruct Hseq as [Hseq1 Hseq2].
  assert (HS : sendable true ty il bl 23 n) by (unfold sendable; repeat split; try lia; discriminate).
  assert (Hout : skipn (Z.to_nat (27 + il + bl)) out = skipn (Z.to_nat (27 + il + bl)) out) by reflexivity.
  destruct (list_split_at out (4 + il)) as (oh & ot & -> & Hoh); [lia|].
  rewrite Zlen_app in Hn.
  destruct (list_split_at ot bl) as (ob & o2 & -> & Hob); [lia|]. rewrite Zlen_app in Hn.
  destruct (list_split_at o2 6) as (oc & o3 & -> & Hoc); [lia|]. rewrite Zlen_app in Hn.
  destruct (list_split_at o3 16) as (og & o4 & -> & Hog); [lia|]. rewrite Zlen_app in Hn.
  destruct o4 as [|ol orest]; [rewrite Zlen_nil in Hn; lia|].
  destruct (list_split_at id il) as (idp & idr & -> & Hidp); [lia|].
  assert (Hfid : firstn (Z.to_nat il) (idp ++ idr) = idp) by (apply firstn_Zlen_app; lia).
  subst aad. rewrite Hfid. clear Hfid.
  set (aad := frame_header true ty (znth iv 11) idp bl 23).
  replace (skipn (Z.to_nat (27 + il + bl)) (oh ++ ob ++ oc ++ og ++ ol :: orest)) with orest.
  2:{ replace (oh ++ ob ++ oc ++ og ++ ol :: orest) with ((oh ++ ob ++ oc ++ og ++ [ol]) ++ orest)
        by (rewrite <- !app_assoc; reflexivity).
      symmetry. replace (Z.to_nat (27 + il + bl)) with (length (oh ++ ob ++ oc ++ og ++ [ol])).
      - rewrite skipn_app, skipn_all, Nat.sub_diag. reflexivity.
      - assert (Zlen (oh ++ ob ++ oc ++ og ++ [ol]) = 27 + il + bl) by (autorewrite with zlen; lia).
        unfold Zlen in H. lia. }
  clear Hout. subst il.
  rewrite encodeHeader_good by (auto; try lia; reflexivity).
  cbn [bind]. replace (0 =? 4 + Zlen idp) with false by lia. cbn [hdr_result hfl].
  replace (3 + Zlen idp + bl + 23 >=? n) with false by lia.
  rewrite (frame_header_seq true ty seq (znth iv 11)) by auto. fold aad.
  assert (Haad : Zlen aad = 4 + Zlen idp) by apply frame_header_len.
  assert (Hpad : exists pres ptext', pres <> 0 /\
    (if negb (0 =? plen) then pad32BBuffer ptext plen else Some (32, ptext)) = Some (pres, ptext') /\
    (if 0 =? plen then Some None
                else match ptext' with
                     | None => None
                     | Some p => do t <- sub p 0 32; Some (Some t)
                     end) = Some pt).
  { rewrite (Z.eqb_sym 0). unfold pt. destruct (plen =? 0) eqn:E; cbn [negb].
    - exists 32, ptext. auto with zarith.
    - apply Z.eqb_neq in E. destruct (Hpt E) as (p & -> & HPl).
      destruct (pad_ok p plen ltac:(lia) HPl) as (p' & HP1 & HP2).
      exists 32, (Some p'). rewrite HP2. cbn [bind]. split; [lia|]. split; [exact HP1|reflexivity]. }
  destruct Hpad as (pres & ptext' & Hp0 & Hp1 & Hp2).
  rewrite Hp1. cbn [bind]. replace (0 =? pres) with false by lia.
  assert (Hsub : sub (aad ++ ob ++ oc ++ og ++ ol :: orest) 0 (4 + Zlen idp) = Some aad).
  { rewrite sub_full_prefix.
    - rewrite firstn_Zlen_app by lia. reflexivity.
    - rewrite Zlen_app. pose proof (Zlen_nonneg (ob ++ oc ++ og ++ ol :: orest)). lia. }
  rewrite Hsub. cbn [bind]. rewrite Hp2. cbn [bind].
  destruct (e ws key iv aad pt) as [[ct tag]|] eqn:EE; [|repeat eexists].
  destruct (He _ _ _ _ _ _ _ EE) as (Ht & Htb & Hctb & Hc1 & Hc2).
  assert (Hct : (match pt with None => Some (aad ++ ob ++ oc ++ og ++ ol :: orest)
                 | Some _ => blit (aad ++ ob ++ oc ++ og ++ ol :: orest) (4 + Zlen idp) ct end)
                = Some (aad ++ ct ++ oc ++ og ++ ol :: orest) /\ Zlen ct = bl).
  { unfold bl, cipher_len in *. subst pt. destruct (plen =? 0) eqn:E.
    - rewrite Hc1 by reflexivity. destruct ob; [split; reflexivity|].
      rewrite Zlen_cons in Hob. pose proof (Zlen_nonneg ob). lia.
    - apply Z.eqb_neq in E. destruct (Hpt E) as (p & -> & HPl).
      assert (Zlen ct = 32) by (apply Hc2; discriminate).
      split; [|assumption]. apply blit_app_mid; lia. }
  destruct Hct as [Hct Hctl].
  rewrite Hct. cbn [bind].
  exists ptext'.
  replace (aad ++ ct ++ oc ++ og ++ ol :: orest) with ((aad ++ ct ++ oc) ++ og ++ ol :: orest)
    by (rewrite <- !app_assoc; reflexivity).
  rewrite blit_app_mid by (rewrite ?Zlen_app; lia). cbn [bind].
  rewrite iv_ctr_sub by auto. cbn [bind].
  replace ((aad ++ ct ++ oc) ++ tag ++ ol :: orest) with ((aad ++ ct) ++ oc ++ tag ++ ol :: orest)
    by (rewrite <- !app_assoc; reflexivity).
  rewrite blit_app_mid by (rewrite ?Zlen_app, ?iv_ctr_len by auto; lia). cbn [bind].
  replace ((aad ++ ct) ++ iv_ctr iv ++ tag ++ ol :: orest)
    with ((aad ++ ct ++ iv_ctr iv ++ tag) ++ [ol] ++ orest)
    by (rewrite <- !app_assoc; reflexivity).
  unfold wr. rewrite blit_app_mid by (rewrite ?Zlen_app, ?iv_ctr_len by auto; reflexivity || lia).
  cbn [bind]. rewrite u8_id by (unfold byte; lia).
  do 2 f_equal; [f_equal; lia|]. f_equal. unfold secure_trailer. rewrite <- !app_assoc. reflexivity.
Qed.

(** decodeRaw on a header decoded from the same buffer: the guard conditions,
    the exact call of the primitive, and the result. *)
Definition raw_guard (b : list Z) (iv : list Z) (ssize : Z) : Prop :=
  32 <= ssize /\ f_tl b = 23 /\ znth b (f_fl b) = 128 /\
  (f_bl b = 0 \/ f_bl b = 32) /\ f_seq b = znth iv 11 mod 16.

Lemma hdr_decoded_facts h0 b n : Forall byte b -> well_formed b n ->
  isInvalid (hdr_decoded h0 b) = false /\ hfl (hdr_decoded h0 b) = f_fl b /\
  getTl (hdr_decoded h0 b) = f_tl b /\ hbl (hdr_decoded h0 b) = f_bl b /\
  getSeq (hdr_decoded h0 b) = f_seq b /\ getHl (hdr_decoded h0 b) = 4 + f_il b /\
  getBodyOffset (hdr_decoded h0 b) = 4 + f_il b /\
  getIl (hdr_decoded h0 b) = f_il b /\
  (f_tl b = 23 -> getTrailerOffset (hdr_decoded h0 b) = f_fl b - 22).
Proof.
  intros Hb HW. destruct HW as (W1 & W2 & W3 & W4 & W5 & W6 & W7 & W8 & W9 & W10 & W11 & W12 & W13).
  pose proof (znth_byte b 2 Hb) as B2. pose proof (znth_byte b (3 + f_il b) Hb) as B3.
  assert (Hil : 0 <= f_il b) by (unfold f_il; pose proof (Z.mod_pos_bound (znth b 2) 16); lia).
  assert (HI : getIl (hdr_decoded h0 b) = f_il b)
    by (unfold getIl; cbn [hdr_decoded hseqil]; rewrite land15; reflexivity).
  assert (HH : getHl (hdr_decoded h0 b) = 4 + f_il b)
    by (unfold getHl; rewrite HI; apply u8_id; unfold byte; lia).
  split; [unfold isInvalid; cbn [hdr_decoded hfl]; lia|].
  split; [reflexivity|].
  assert (HT : 0 <= f_tl b < 256).
  { unfold f_tl in *. unfold byte in B3. fold (f_bl b) in B3. lia. }
  split; [unfold getTl; rewrite HI; cbn [hdr_decoded hfl hbl]; apply u8_id; exact HT|].
  split; [reflexivity|].
  split; [unfold getSeq; cbn [hdr_decoded hseqil]; apply seq_dec; exact B2|].
  split; [exact HH|]. split; [exact HH|]. split; [exact HI|].
  intros H23. unfold getTrailerOffset. rewrite HI. cbn [hdr_decoded hbl].
  unfold byte in B3. fold (f_bl b) in B3. unfold f_tl in H23.
  rewrite u8_id by (unfold byte; lia). lia.
Qed.

Definition raw_ct (b : list Z) : option (list Z) :=
  if f_bl b =? 0 then None
  else Some (firstn 32 (skipn (Z.to_nat (4 + f_il b)) b)).
Definition raw_tag (b : list Z) : list Z := firstn 16 (skipn (Z.to_nat (f_fl b - 16)) b).
Definition raw_aad (b : list Z) : list Z := firstn (Z.to_nat (4 + f_il b)) b.

Lemma decodeRaw_bad d h0 b n ptext plen ss key iv : Forall byte b -> well_formed b n ->
  f_fl b < Zlen b -> Zlen iv = 12 -> ~ raw_guard b iv ss ->
  decodeRaw d (hdr_decoded h0 b) (Some b) ptext plen ss (Some key) (Some iv)
  = Some (0, ptext, plen).
Proof.
  intros Hb HW Hfl Hiv HG.
  destruct (hdr_decoded_facts h0 b n Hb HW) as (D1 & D2 & D3 & D4 & D5 & D6 & D7 & D8 & D9).
  pose proof HW as (W1 & W2 & W3 & W4 & W5 & W6 & W7 & W8 & W9 & W10 & W11 & W12 & W13).
  unfold decodeRaw, decodeRaw_scratch_usage. rewrite D1, D2, D3, D4, D5, D6, D7.
  destruct (32 >? ss) eqn:E1; [reflexivity|].
  rewrite rd_some by lia. cbn [bind].
  fold (f_fl b). rewrite u8_id by (unfold byte; lia).
  replace (f_fl b >=? f_fl b + 1) with false by lia.
  destruct (negb (23 =? f_tl b)) eqn:E2; [reflexivity|].
  rewrite rd_some by lia. cbn [bind].
  destruct (negb (128 =? znth b (f_fl b))) eqn:E3; [reflexivity|].
  destruct (negb (0 =? f_bl b) && negb (32 =? f_bl b)) eqn:E4; [reflexivity|].
  rewrite rd_some by lia. cbn [bind]. rewrite land15.
  destruct (f_seq b =? znth iv 11 mod 16) eqn:E5; [|reflexivity].
  exfalso. apply HG. unfold raw_guard. lia.
Qed.

Lemma decodeRaw_good d h0 b n ptext plen ss key iv : dec_sized d -> Forall byte b -> well_formed b n ->
  f_fl b < Zlen b -> Zlen iv = 12 -> raw_guard b iv ss ->
  (forall p, ptext = Some p -> 31 <= Zlen p) ->
  decodeRaw d (hdr_decoded h0 b) (Some b) ptext plen ss (Some key) (Some iv) =
  match d (ss - 32) key iv (raw_aad b) (raw_ct b) (raw_tag b) with
  | None => Some (0, ptext, plen)
  | Some q =>
      match ptext with
      | Some p =>
        if f_bl b =? 0 then Some (f_fl b + 1, ptext, 0) else
        let len := if 31 <? znth q 31 then 0 else 31 - znth q 31 in
        Some (f_fl b + 1, Some (firstn (Z.to_nat len) q ++ skipn (Z.to_nat len) p), len)
      | None => Some (f_fl b + 1, None, 0)
      end
  end.
Proof.
  intros Hd Hb HW Hfl Hiv (G1 & G2 & G3 & G4 & G5) Hpt.
  destruct (hdr_decoded_facts h0 b n Hb HW) as (D1 & D2 & D3 & D4 & D5 & D6 & D7 & D8 & D9).
  pose proof HW as (W1 & W2 & W3 & W4 & W5 & W6 & W7 & W8 & W9 & W10 & W11 & W12 & W13).
  assert (Hil : 0 <= f_il b) by (unfold f_il; pose proof (Z.mod_pos_bound (znth b 2) 16); lia).
  unfold decodeRaw, decodeRaw_scratch_usage. rewrite D1, D2, D3, D4, D5, D6, D7.
  replace (32 >? ss) with false by lia.
  rewrite rd_some by lia. cbn [bind].
  fold (f_fl b). rewrite u8_id by (unfold byte; lia).
  replace (f_fl b >=? f_fl b + 1) with false by lia.
  rewrite G2. change (23 =? 23) with true. cbn [negb]. rewrite rd_some by lia. cbn [bind].
  rewrite G3. change (128 =? 128) with true. cbn [negb].
  replace (negb (0 =? f_bl b) && negb (32 =? f_bl b)) with false by lia.
  rewrite rd_some by lia. cbn [bind]. rewrite land15, G5, Z.eqb_refl. cbn [negb].
  rewrite sub_full_prefix by lia. cbn [bind].
  assert (Hct : (if 0 =? f_bl b then Some None
     else do c <- sub b (4 + f_il b) 32; Some (Some c)) = Some (raw_ct b)).
  { unfold raw_ct. rewrite (Z.eqb_sym 0). destruct (f_bl b =? 0) eqn:E; [reflexivity|].
    unfold f_tl in G2. rewrite sub_some by lia. reflexivity. }
  rewrite Hct. cbn [bind]. unfold f_tl in G2.
  rewrite (sub_some b (f_fl b - 16) 16) by lia. cbn [bind].
  fold (raw_aad b). change (firstn (Z.to_nat 16) (skipn (Z.to_nat (f_fl b - 16)) b)) with (raw_tag b).
  destruct (d (ss - 32) key iv (raw_aad b) (raw_ct b) (raw_tag b)) as [q|] eqn:ED; [|reflexivity].
  destruct ptext as [p|].
  2:{ reflexivity. }
  rewrite (Z.eqb_sym 0).
  destruct (f_bl b =? 0) eqn:E; cbn [negb].
  { reflexivity. }
  unfold raw_ct in ED. rewrite E in ED. assert (HC32 : Zlen (firstn 32 (skipn (Z.to_nat (4 + f_il b)) b)) = 32)
    by (change 32%nat with (Z.to_nat 32); rewrite Zlen_firstn, Zlen_skipn by lia; lia).
  destruct (Hd _ _ _ _ _ _ _ HC32 ltac:(apply Forall_firstn', Forall_skipn'; exact Hb) ED) as [HL HBq].
  pose proof (znth_byte q 31 HBq) as B31. unfold byte in B31.
  unfold unpad32BBuffer. rewrite rd_some by lia. cbn [bind].
  set (len := if 31 <? znth q 31 then 0 else 31 - znth q 31). cbv zeta.
  assert (Hlen : 0 <= len <= 31) by (unfold len; destruct (31 <? znth q 31) eqn:?; lia).
  assert (Hup : (if znth q 31 >? 31 then Some 0 else Some (u8 (32 - 1 - znth q 31))) = Some len).
  { unfold len. rewrite Z.gtb_ltb. destruct (31 <? znth q 31) eqn:E31; [reflexivity|].
    rewrite u8_id by (unfold byte; lia). reflexivity. }
  rewrite Hup. cbn [bind]. unfold ptextLenMax. replace (len >? 31) with false by lia.
  rewrite sub_full_prefix by lia. cbn [bind].
  pose proof (Hpt p eq_refl) as HP.
  rewrite blit_some by (autorewrite with zlen; lia). cbn [bind].
  change (Z.to_nat 0) with 0%nat. cbn [firstn app].
  do 3 f_equal. f_equal. f_equal.
  autorewrite with zlen. f_equal. lia.
Qed.
