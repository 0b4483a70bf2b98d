(** Binary stats encoder and the end-to-end theorems: C49. *)
From Verif Require Import Base CrcModel CrcLin CrcSpec CrcProofs BinStatsModel BinStatsSpec BinStatsProofs.

(** ** The two-byte temperature/power body *)
Definition body_chk (t pl : Z) : bool :=
  let t0 := u8 (Z.lor (Z.lor 64 (if negb (pl =? 0) then 16 else 0)) (Z.land t 15)) in
  let t1 := u8 (Z.shiftr t 4) in
  (64 <=? t0) && (t0 <? 96) && (0 <=? t1) && (t1 <? 128) &&
  (16 * t1 + t0 mod 16 =? t) && Bool.eqb (Z.testbit t0 4) (negb (pl =? 0)).
Lemma body_sweep : below2 2048 2 body_chk = true.
Proof. vm_compute. reflexivity. Qed.
Lemma clamp_if t : (if t <? -320 then -320 else if 2047 + -320 <? t then 2047 + -320 else t) = clampT t.
Proof. unfold clampT. destruct (t <? -320) eqn:?; [lia|]. destruct (2047 + -320 <? t) eqn:?; lia. Qed.
Lemma body_facts p : min_ok p ->
  64 <= fst (min_body p) < 96 /\ 0 <= snd (min_body p) < 128 /\
  mkMin (16 * snd (min_body p) + fst (min_body p) mod 16 - 320) (Z.testbit (fst (min_body p)) 4) = clampM p.
Proof.
  intros H. unfold min_body.
  set (t := if tempC16 p <? -320 then -320 else if 2047 + -320 <? tempC16 p then 2047 + -320 else tempC16 p).
  assert (Ht : t = clampT (tempC16 p)).
  { unfold t, clampT. destruct (tempC16 p <? -320) eqn:?; [lia|].
    destruct (2047 + -320 <? tempC16 p) eqn:?; lia. }
  assert (-320 <= t <= 1727) by (rewrite Ht; unfold clampT; lia).
  rewrite i16_id by lia. cbn [fst snd].
  pose proof (below2_spec _ _ _ body_sweep (t - -320) (if powerLow p then 1 else 0) ltac:(lia)
    ltac:(destruct (powerLow p); lia)) as S.
  unfold body_chk in S.
  replace (negb ((if powerLow p then 1 else 0) =? 0)) with (powerLow p) in S by (destruct (powerLow p); reflexivity).
  cbv zeta in S. unfold clampM. rewrite <- Ht.
  bool_to_prop. rewrite Bool.eqb_true_iff in *.
  split; [auto|]. split; [auto|]. f_equal; [lia|assumption].
Qed.

(** ** The message the encoder produces *)
Definition enc_hdr (c : FullStats) : Z :=
  Z.lor (Z.lor (Z.lor 112 (if containsID c then 4 else 0))
    (if containsID c && negb (0 =? Z.land (id0 c) 128) then 2 else 0)) 0.
Definition enc_fl (lvl : Z) (c : FullStats) : Z :=
  Z.lor (Z.lor 96 (if containsAmbL c then 8 else 0)) (if lvl <=? stTXalwaysAll then Z.land (occ c) 3 else 0).
Definition enc_body (lvl : Z) (c : FullStats) : list Z :=
  [enc_hdr c] ++ (if containsID c then [Z.land (id0 c) 127; Z.land (id1 c) 127] else [])
  ++ (if containsTempAndPower c then [fst (min_body (tempAndPower c)); snd (min_body (tempAndPower c))] else [])
  ++ [enc_fl lvl c] ++ (if containsAmbL c then [ambL c] else []).
Definition enc_wire (lvl : Z) (c : FullStats) : list Z :=
  enc_body lvl c ++ [crc7_run 127 (enc_body lvl c)].

Lemma enc_wire_len lvl c : Zlen (enc_wire lvl c) = wire_len c.
Proof.
  unfold enc_wire, enc_body, wire_len. rewrite !Zlen_app.
  destruct (containsID c), (containsTempAndPower c), (containsAmbL c); reflexivity.
Qed.

Lemma put1 done post b v : Zlen done = b -> 1 <= Zlen post ->
  wr (done ++ post) b v = Some ((done ++ [v]) ++ tl post).
Proof.
  intros HD HP. unfold wr. pose proof (Zlen_nonneg done).
  rewrite blit_some by (autorewrite with zlen; lia).
  destruct post as [|x post]; [change (Zlen (@nil Z)) with 0 in HP; lia|].
  f_equal. cbn [tl]. change (Zlen [v]) with 1.
  assert (E : Z.to_nat b = length done) by (unfold Zlen in HD; lia).
  rewrite E. rewrite firstn_app, Nat.sub_diag, firstn_all. cbn [firstn]. rewrite app_nil_r.
  replace (Z.to_nat (b + 1)) with (length done + 1)%nat by lia.
  rewrite <- app_assoc. f_equal. cbn [app]. f_equal.
  rewrite skipn_app, skipn_all2 by lia.
  replace (length done + 1 - length done)%nat with 1%nat by lia. reflexivity.
Qed.

Lemma Zlen_tl (l : list Z) : 1 <= Zlen l -> Zlen (tl l) = Zlen l - 1.
Proof. destruct l; [change (Zlen (@nil Z)) with 0; lia|]. rewrite Zlen_cons. cbn [tl]. lia. Qed.
Lemma tl_skipn {A} n (l : list A) : tl (skipn n l) = skipn (S n) l.
Proof. revert l. induction n; intros [|a l]; try reflexivity. rewrite !skipn_cons. rewrite IHn. destruct l; reflexivity. Qed.

Lemma sendable_dec c : full_ok c ->
  ((containsID c && ((id0 c =? 255) || (id1 c =? 255)) = false /\
   containsID c && negb (Z.land (id0 c) 128 =? Z.land (id1 c) 128) = false /\
   containsAmbL c && ((ambL c =? 0) || (ambL c =? 255)) = false) <-> sendable c).
Proof.
  intros (H0 & H1 & _ & HA & _). unfold sendable.
  assert (HS : below2 256 256 (fun a b => Bool.eqb (Z.land a 128 =? Z.land b 128) (Bool.eqb (128 <=? a) (128 <=? b))) = true)
    by (vm_compute; reflexivity).
  pose proof (below2_spec _ _ _ HS (id0 c) (id1 c) H0 H1) as S. cbv beta in S.
  apply Bool.eqb_prop in S. rewrite S. unfold byte in HA. clear S HS.
  destruct (128 <=? id0 c) eqn:E0, (128 <=? id1 c) eqn:E1, (containsID c), (containsAmbL c); cbn [andb negb Bool.eqb];
  (split; [intros (A1&A2&A3)|intros (A1&A2)]);
  repeat split; intros; try lia; try discriminate;
  repeat match goal with A : true = true -> _ |- _ => specialize (A eq_refl) end; try lia.
Qed.

Lemma enc_run buf buflen lvl c : full_ok c -> sendable c -> wire_len c + 1 <= buflen -> buflen <= Zlen buf ->
  encode_full buf buflen lvl false c
    = Some (Some (wire_len c), enc_wire lvl c ++ 255 :: skipn (Z.to_nat (wire_len c + 1)) buf).
Proof.
  intros HO HS HL HB. pose proof (proj2 (sendable_dec c HO) HS) as (C1 & C2 & C3).
  unfold encode_full. rewrite C1, C2, C3.
  assert (HP : u8 (1 + (if containsID c then 2 else 0) + (if containsTempAndPower c then 2 else 0)
        + 1 + (if containsAmbL c then 1 else 0)) = wire_len c - 1).
  { unfold wire_len. destruct (containsID c), (containsTempAndPower c), (containsAmbL c); reflexivity. }
  rewrite HP. replace (buflen <? wire_len c - 1 + 2) with false by lia. cbn [orb].
  fold (enc_hdr c). fold (enc_fl lvl c).
  rewrite (put1 [] buf) by (try reflexivity; unfold wire_len in HL; destruct (containsID c), (containsTempAndPower c), (containsAmbL c); lia).
  cbn [bind app]. change (0 + 1) with 1.
  match goal with |- bind ?m _ = _ =>
    assert (HM : exists d1, d1 = [enc_hdr c] ++ (if containsID c then [Z.land (id0 c) 127; Z.land (id1 c) 127] else []) /\
       m = Some (d1 ++ skipn (length d1) buf, Zlen d1)) end.
  { eexists; split; [reflexivity|]. destruct (containsID c) eqn:EI; [|cbn [app length]; destruct buf; reflexivity].
    assert (5 <= Zlen buf) by (unfold wire_len in HL; rewrite EI in HL; destruct (containsTempAndPower c), (containsAmbL c); lia).
    rewrite (put1 [enc_hdr c] (tl buf)); [|reflexivity|rewrite Zlen_tl; lia]. cbn [bind].
    rewrite put1; [|reflexivity|rewrite !Zlen_tl; try lia; rewrite !Zlen_tl; lia]. cbn [bind].
    destruct buf as [|? [|? [|? ?]]]; reflexivity. }
  destruct HM as (d1 & Hd1 & ->). cbn [bind].
  assert (L1 : Zlen d1 = 1 + if containsID c then 2 else 0).
  { rewrite Hd1. destruct (containsID c); reflexivity. }
  match goal with |- bind ?m _ = _ =>
    assert (HM : exists d2, d2 = d1 ++ (if containsTempAndPower c then [fst (min_body (tempAndPower c)); snd (min_body (tempAndPower c))] else []) /\
       m = Some (d2 ++ skipn (length d2) buf, Zlen d2)) end.
  { eexists; split; [reflexivity|]. destruct (containsTempAndPower c) eqn:ET; [|rewrite app_nil_r; reflexivity].
    assert (HZ : Zlen d1 + 2 <= Zlen buf) by (assert (0 <= if containsAmbL c then 1 else 0) by (destruct (containsAmbL c); lia); unfold wire_len in HL; rewrite ET in HL; lia).
    unfold write_min_body. 
    rewrite put1; [|reflexivity|rewrite Zlen_skipn; unfold Zlen in *; lia]. cbn [bind].
    rewrite tl_skipn.
    rewrite put1; [|rewrite Zlen_app; reflexivity|rewrite Zlen_skipn; unfold Zlen in *; lia]. cbn [bind].
    rewrite tl_skipn, Zlen_app. change (Zlen [fst (min_body (tempAndPower c)); snd (min_body (tempAndPower c))]) with 2.
    f_equal. f_equal. rewrite <- !app_assoc. cbn [app]. f_equal. f_equal. f_equal. f_equal.
    rewrite app_length. cbn [length]. lia. }
  destruct HM as (d2 & Hd2 & ->). cbn [bind].
  assert (L2 : Zlen d2 = Zlen d1 + if containsTempAndPower c then 2 else 0).
  { rewrite Hd2, Zlen_app. destruct (containsTempAndPower c); reflexivity. }
  assert (LW : wire_len c = Zlen d2 + 2 + if containsAmbL c then 1 else 0).
  { unfold wire_len. lia. }
  assert (HAn : 0 <= if containsAmbL c then 1 else 0) by (destruct (containsAmbL c); lia).
  rewrite put1; [|reflexivity|rewrite Zlen_skipn; unfold Zlen in *; lia]. cbn [bind].
  rewrite tl_skipn.
  match goal with |- bind ?m _ = _ =>
    assert (HM : exists d3, d3 = (d2 ++ [enc_fl lvl c]) ++ (if containsAmbL c then [ambL c] else []) /\
       m = Some (d3 ++ skipn (length d3) buf, Zlen d3)) end.
  { eexists; split; [reflexivity|]. destruct (containsAmbL c) eqn:EA.
    - rewrite put1; [|rewrite Zlen_app; reflexivity|rewrite Zlen_skipn; unfold Zlen in *; lia]. cbn [bind].
      rewrite tl_skipn. f_equal. f_equal; [|rewrite !Zlen_app; reflexivity].
      f_equal. f_equal. rewrite !app_length. cbn [length]. lia.
    - rewrite app_nil_r. f_equal. rewrite app_length, Zlen_app. cbn [length]. f_equal. f_equal. f_equal. lia. }
  destruct HM as (d3 & Hd3 & ->). cbn [bind].
  assert (HD3 : d3 = enc_body lvl c).
  { rewrite Hd3, Hd2, Hd1. unfold enc_body. rewrite <- !app_assoc. reflexivity. }
  assert (L3 : Zlen d3 = wire_len c - 1).
  { rewrite Hd3, !Zlen_app, LW. change (Zlen [enc_fl lvl c]) with 1. destruct (containsAmbL c); change (Zlen [ambL c]) with 1; change (Zlen (@nil Z)) with 0; lia. }
  assert (HSUB : sub (d3 ++ skipn (length d3) buf) 0 (Zlen d3) = Some d3).
  { apply rds_sub. apply rds_firstn. rewrite firstn_app, Nat.sub_diag, firstn_all. apply app_nil_r. }
  rewrite HSUB. cbn [bind].
  rewrite put1; [|reflexivity|rewrite Zlen_skipn; unfold Zlen in *; lia]. cbn [bind].
  rewrite tl_skipn.
  rewrite put1; [|rewrite Zlen_app; reflexivity|rewrite Zlen_skipn; unfold Zlen in *; lia]. cbn [bind].
  rewrite tl_skipn. f_equal. f_equal; [f_equal; lia|].
  unfold enc_wire. rewrite <- HD3. rewrite <- app_assoc. cbn [app]. f_equal. f_equal. f_equal. f_equal.
  unfold Zlen in L3. lia.
Qed.

(** Memory safety and exact success condition; a refused message leaves the
    buffer alone. *)
Theorem encode_full_outcome : forall buf buflen lvl sec c,
  full_ok c -> buflen <= Zlen buf ->
  exists r buf', encode_full buf buflen lvl sec c = Some (r, buf') /\
    Zlen buf' = Zlen buf /\
    (forall i, wire_len c < i < Zlen buf -> znth buf' i = znth buf i) /\
    (r = None -> buf' = buf) /\
    (r <> None <-> sec = false /\ sendable c /\ wire_len c + 1 <= buflen).
Proof.
  intros buf buflen lvl sec c HO HB.
  assert (HW : 3 <= wire_len c <= 8).
  { unfold wire_len. destruct (containsID c), (containsTempAndPower c), (containsAmbL c); lia. }
  assert (HP : u8 (1 + (if containsID c then 2 else 0) + (if containsTempAndPower c then 2 else 0)
        + 1 + (if containsAmbL c then 1 else 0)) = wire_len c - 1).
  { unfold wire_len. destruct (containsID c), (containsTempAndPower c), (containsAmbL c); reflexivity. }
  destruct sec.
  { exists None, buf. split; [reflexivity|]. split; [reflexivity|]. split; [reflexivity|]. split; [reflexivity|].
    split; [congruence|]. intros (?&_). discriminate. }
  destruct (Z.lt_ge_cases buflen (wire_len c + 1)) as [HL|HL].
  { exists None, buf. split.
    { unfold encode_full. rewrite HP. replace (buflen <? wire_len c - 1 + 2) with true by lia. reflexivity. }
    split; [reflexivity|]. split; [reflexivity|]. split; [reflexivity|].
    split; [congruence|]. intros (?&?&?). lia. }
  assert (HD : sendable c \/ encode_full buf buflen lvl false c = Some (None, buf) /\ ~ sendable c).
  { rewrite <- (sendable_dec c HO). unfold encode_full. rewrite HP. replace (buflen <? wire_len c - 1 + 2) with false by lia.
    destruct (containsID c && ((id0 c =? 255) || (id1 c =? 255))); [right; split; [reflexivity|intros (?&?&?); discriminate]|].
    destruct (containsID c && negb (Z.land (id0 c) 128 =? Z.land (id1 c) 128)); [right; split; [reflexivity|intros (?&?&?); discriminate]|].
    destruct (containsAmbL c && ((ambL c =? 0) || (ambL c =? 255))); [right; split; [reflexivity|intros (?&?&?); discriminate]|].
    auto. }
  destruct HD as [HS|[HE HS]].
  - eexists _, _. split; [apply enc_run; auto|].
    assert (ZL : Zlen (enc_wire lvl c ++ 255 :: skipn (Z.to_nat (wire_len c + 1)) buf) = Zlen buf).
    { rewrite Zlen_app, enc_wire_len, Zlen_cons, Zlen_skipn. lia. }
    split; [exact ZL|]. split.
    { intros i Hi. rewrite znth_app, enc_wire_len by lia. replace (i <? wire_len c) with false by lia.
      rewrite znth_cons by lia. replace (i - wire_len c =? 0) with false by lia.
      rewrite znth_skipn by lia. f_equal. lia. }
    split; [discriminate|]. split; [intros _; auto|discriminate].
  - exists None, buf. rewrite HE. split; [reflexivity|]. split; [reflexivity|]. split; [reflexivity|]. split; [reflexivity|].
    split; [congruence|]. tauto.
Qed.

(** ** Round trip *)
Lemma occ_fl lvl c : full_ok c -> 0 <= lvl ->
  96 <= enc_fl lvl c < 128 /\ enc_fl lvl c mod 4 = (if lvl =? 0 then occ c else 0) /\
  Z.testbit (enc_fl lvl c) 3 = containsAmbL c.
Proof.
  intros (_&_&_&_&HO) HL. unfold enc_fl, stTXalwaysAll.
  replace (lvl <=? 0) with (lvl =? 0) by lia.
  assert (HC : occ c = 0 \/ occ c = 1 \/ occ c = 2 \/ occ c = 3) by lia.
  destruct HC as [E|[E|[E|E]]]; rewrite !E; destruct (lvl =? 0), (containsAmbL c); vm_compute; intuition congruence.
Qed.
Lemma hdr_enc c :
  112 <= enc_hdr c < 128 /\ Z.testbit (enc_hdr c) 2 = containsID c /\
  (containsID c = true -> Z.testbit (enc_hdr c) 1 = negb (0 =? Z.land (id0 c) 128)).
Proof.
  unfold enc_hdr. destruct (containsID c), (0 =? Z.land (id0 c) 128); vm_compute; intuition congruence.
Qed.
Definition id_chk (a : Z) : bool :=
  let x := Z.land a 127 in (0 <=? x) && (x <? 128) &&
  ((if 128 <=? a then Z.max x (128 + x mod 128) else x) =? a) &&
  Bool.eqb (negb (0 =? Z.land a 128)) (128 <=? a).
Lemma id_sweep : below 256 id_chk = true.
Proof. vm_compute. reflexivity. Qed.
Lemma id_facts a : byte a -> 0 <= Z.land a 127 < 128 /\
  (if 128 <=? a then Z.max (Z.land a 127) (128 + Z.land a 127 mod 128) else Z.land a 127) = a /\
  negb (0 =? Z.land a 128) = (128 <=? a).
Proof.
  intros H. pose proof (below_spec _ _ id_sweep a H) as S. unfold id_chk in S. cbv zeta in S.
  bool_to_prop. rewrite Bool.eqb_true_iff in *. auto.
Qed.

Lemma enc_wire_ok lvl c : full_ok c -> 0 <= lvl -> sendable c -> full_wire (enc_wire lvl c) (visible lvl c).
Proof.
  intros HO HL [HS1 HS2]. pose proof HO as (HI0 & HI1 & HM & HA & HOc).
  destruct (hdr_enc c) as (Hh & Hh2 & Hh1). destruct (occ_fl lvl c HO HL) as (Hf & Hf4 & Hf3).
  eexists (enc_hdr c), _, _, (enc_fl lvl c), _. cbv zeta. split; [reflexivity|].
  split; [exact Hh|]. split; [exact Hf|]. unfold visible.
  cbn [containsID id0 id1 containsAmbL ambL containsTempAndPower tempAndPower occ].
  split; [congruence|]. split; [|split].
  - rewrite Hh2. destruct (containsID c) eqn:EI; [left|right; auto].
    split; [reflexivity|]. split; [reflexivity|]. eexists _, _. split; [reflexivity|].
    destruct (HS1 eq_refl) as (_ & _ & HQ). rewrite (Hh1 eq_refl).
    destruct (id_facts _ HI0) as (_ & E0 & ->). destruct (id_facts _ HI1) as (_ & E1 & _).
    replace (128 <=? id1 c) with (128 <=? id0 c) in E1 by lia. auto.
  - destruct (containsTempAndPower c); [left|right; auto]. split; [reflexivity|].
    eexists _, _. split; [reflexivity|]. destruct (body_facts _ HM) as (A & B & C).
    split; [exact A|]. split; [exact B|]. congruence.
  - rewrite Hf3. destruct (containsAmbL c); [left|right; auto]. auto 6.
Qed.

Lemma enc_wire_bytes lvl c : full_ok c -> 0 <= lvl -> sendable c ->
  Forall (fun x => 0 <= x < 255) (enc_wire lvl c).
Proof.
  intros HO HL [HS1 HS2]. pose proof HO as (HI0 & HI1 & HM & HA & HOc).
  destruct (hdr_enc c) as (Hh & _). destruct (occ_fl lvl c HO HL) as (Hf & _).
  destruct (body_facts _ HM) as (A & B & _).
  destruct (id_facts _ HI0) as (I0 & _). destruct (id_facts _ HI1) as (I1 & _).
  pose proof (crc7_run_range 127 (enc_body lvl c) ltac:(lia)).
  unfold enc_wire. apply Forall_app. split; [|repeat constructor; lia].
  unfold enc_body. repeat (apply Forall_app; split).
  - repeat constructor; lia.
  - destruct (containsID c); repeat constructor; lia.
  - destruct (containsTempAndPower c); repeat constructor; lia.
  - repeat constructor; lia.
  - destruct (containsAmbL c); repeat constructor; specialize (HS2 eq_refl); lia.
Qed.

(** Everything the encoder sends: at most 8 bytes, none of them 0xff, then the
    0xff terminator at the returned pointer; and the decoder recovers exactly
    the visible part of the message, whatever follows it. *)
Theorem full_round_trip : forall buf buflen lvl sec c p buf',
  full_ok c -> 0 <= lvl -> buflen <= Zlen buf ->
  encode_full buf buflen lvl sec c = Some (Some p, buf') ->
  exists w, buf' = w ++ 255 :: skipn (Z.to_nat (p + 1)) buf /\ Zlen w = p /\ 3 <= p <= 8 /\ p < buflen /\
    Forall (fun x => 0 <= x < 255) w /\
    forall rest len, p <= len -> decode_full (w ++ rest) len = Some (Some (visible lvl c, p)).
Proof.
  intros buf buflen lvl sec c p buf' HO HL HB H.
  destruct (encode_full_outcome buf buflen lvl sec c HO HB) as (r & b' & E & _ & _ & _ & HI).
  rewrite E in H. apply some_pair_inj in H. destruct H as [-> ->].
  destruct (proj1 HI ltac:(discriminate)) as (-> & HS & HW).
  rewrite (enc_run buf buflen lvl c HO HS HW HB) in E. apply some_pair_inj in E. destruct E as [E <-].
  apply some_inj in E. subst p. exists (enc_wire lvl c). split; [reflexivity|].
  rewrite enc_wire_len. split; [reflexivity|]. split.
  { unfold wire_len. destruct (containsID c), (containsTempAndPower c), (containsAmbL c); lia. }
  split; [lia|]. pose proof (enc_wire_bytes lvl c HO HL HS) as HF. split; [exact HF|].
  intros rest len Hlen. rewrite <- (enc_wire_len lvl c).
  apply decode_accepts_wire; [|apply enc_wire_ok; auto|rewrite enc_wire_len; lia].
  eapply Forall_impl; [|exact HF]. cbv beta. unfold byte. intros; lia.
Qed.

Example full_round_trip_ex :
  let c := mkFull true true true 0x83 0x9a (mkMin 327 true) 42 2 in
  encode_full (repeat 0 10) 10 0 false c
    = Some (Some 8, [0x76; 0x03; 0x1a; 0x57; 0x28; 0x6a; 42; 62; 255; 0]) /\
  decode_full [0x76; 0x03; 0x1a; 0x57; 0x28; 0x6a; 42; 62] 8 = Some (Some (c, 8)) /\
  encode_full (repeat 0 10) 10 128 false c
    = Some (Some 8, [0x76; 0x03; 0x1a; 0x57; 0x28; 0x68; 42; 86; 255; 0]).
Proof. vm_compute. auto. Qed.

(** Privacy: above the most permissive level nothing about occupancy reaches the
    radio, and in general the bytes sent (or the refusal) are a function of the
    visible part only. *)
Theorem full_reveals_only_visible : forall buf buflen lvl sec c c',
  full_ok c -> full_ok c' -> 0 <= lvl -> buflen <= Zlen buf -> visible lvl c = visible lvl c' ->
  encode_full buf buflen lvl sec c = encode_full buf buflen lvl sec c'.
Proof.
  intros buf buflen lvl sec c c' HO HO' HL HB HV.
  assert (V1 : containsID c = containsID c') by (apply (f_equal containsID) in HV; exact HV).
  assert (V2 : containsTempAndPower c = containsTempAndPower c') by (apply (f_equal containsTempAndPower) in HV; exact HV).
  assert (V3 : containsAmbL c = containsAmbL c') by (apply (f_equal containsAmbL) in HV; exact HV).
  assert (V4 : containsID c' = true -> id0 c = id0 c' /\ id1 c = id1 c').
  { intros HI. pose proof (f_equal id0 HV) as A. pose proof (f_equal id1 HV) as B. cbn [visible id0 id1] in A, B.
    rewrite V1, HI in A, B. auto. }
  assert (V5 : containsTempAndPower c' = true -> min_body (tempAndPower c) = min_body (tempAndPower c')).
  { intros HI. pose proof (f_equal tempAndPower HV) as A. cbn [visible tempAndPower] in A.
    rewrite V2, HI in A. unfold clampM in A. injection A as A B. unfold clampT in A.
    unfold min_body. rewrite B.
    rewrite !clamp_if. unfold clampT. rewrite A. reflexivity. }
  assert (V6 : containsAmbL c' = true -> ambL c = ambL c').
  { intros HI. pose proof (f_equal ambL HV) as A. cbn [visible ambL] in A. rewrite V3, HI in A. exact A. }
  assert (V7 : (if lvl =? 0 then occ c else 0) = (if lvl =? 0 then occ c' else 0)) by (apply (f_equal occ) in HV; exact HV).
  assert (HWL : wire_len c = wire_len c') by (unfold wire_len; rewrite V1, V2, V3; reflexivity).
  assert (HSS : sendable c <-> sendable c').
  { unfold sendable. rewrite V1, V3. clear - V4 V6. destruct (containsID c'), (containsAmbL c');
    try (destruct (V4 eq_refl) as [A B]; rewrite A, B); try rewrite (V6 eq_refl); intuition discriminate. }
  assert (HWW : enc_wire lvl c = enc_wire lvl c').
  { assert (HBB : enc_body lvl c = enc_body lvl c').
    { unfold enc_body, enc_hdr, enc_fl, stTXalwaysAll. rewrite V1, V2, V3.
      replace (lvl <=? 0) with (lvl =? 0) by lia.
      f_equal; [|f_equal; [|f_equal; [|f_equal]]].
      - clear - V4. destruct (containsID c'); [destruct (V4 eq_refl) as [A _]; rewrite A|]; reflexivity.
      - clear - V4. destruct (containsID c'); [destruct (V4 eq_refl) as [A B]; rewrite A, B|]; reflexivity.
      - clear - V5. destruct (containsTempAndPower c'); [rewrite (V5 eq_refl)|]; reflexivity.
      - clear - V7. destruct (lvl =? 0); [rewrite V7|]; reflexivity.
      - clear - V6. destruct (containsAmbL c'); [rewrite (V6 eq_refl)|]; reflexivity. }
    unfold enc_wire. rewrite HBB. reflexivity. }
  destruct (encode_full_outcome buf buflen lvl sec c HO HB) as (r & b & E & _ & _ & N & HI).
  destruct (encode_full_outcome buf buflen lvl sec c' HO' HB) as (r' & b' & E' & _ & _ & N' & HI').
  destruct r as [p|].
  - destruct (proj1 HI ltac:(discriminate)) as (-> & HS & HW).
    rewrite !enc_run by (try assumption; try tauto; lia). rewrite HWL, HWW. reflexivity.
  - assert (r' = None).
    { destruct r'; [|reflexivity]. exfalso. assert (HX : @None Z <> None); [|congruence].
      rewrite HI, HSS, HWL, <- HI'. discriminate. }
    subst r'. rewrite E, E', (N eq_refl), (N' eq_refl). reflexivity.
Qed.
Example occupancy_hidden_ex : forall o o', 0 <= o < 4 -> 0 <= o' < 4 ->
  let c x := mkFull true true false 0x83 0x9a (mkMin 327 true) 0 x in
  encode_full (repeat 0 10) 10 128 false (c o) = encode_full (repeat 0 10) 10 128 false (c o').
Proof.
  intros. apply full_reveals_only_visible; try reflexivity; unfold full_ok, min_ok, byte, c; cbn; lia.
Qed.
