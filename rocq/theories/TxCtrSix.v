(** Up to six power failures in a row: sharper than the window of TxCtrWindow by following the
    order in which the bytes of the two copies are written. *)
From Verif Require Import Base CrcLin EepromModel EepromProofs TxCtrModel TxCtrProofs TxCtrWindow.
#[local] Opaque crc8_3 crc8_update crc8_bit.

(** ** The only CRC collision among mixtures of six consecutive values *)
Definition lows5 : list Z := [251;252;253;254;255;0;1;2;3;4].
Definition D5 : list Z := nodup Z.eq_dec (flat_map (fun x => map (Z.lxor x) lows5) lows5).
Definition sweepA5 : bool :=
  forallb (fun e => forallb (fun d2 => ok3 0 0 d2 && (ok3 0 e d2 || (e =? 1) && (d2 =? 7))) D5) ED.
Definition sweepB5 : bool :=
  forallb (fun e => forallb (fun d2 => ok3 0 0 d2 && ok3 0 255 d2 && ok3 e 0 d2 && ok3 e 255 d2) D5) ED.
#[local] Transparent crc8_3 crc8_update crc8_bit.
Lemma sweepA5_ok : sweepA5 = true. Proof. vm_compute. reflexivity. Qed.
Lemma sweepB5_ok : sweepB5 = true. Proof. vm_compute. reflexivity. Qed.
#[local] Opaque crc8_3 crc8_update crc8_bit.
Lemma sweepA5_spec e d2 : In e ED -> In d2 D5 -> ok3 0 0 d2 = true /\ (ok3 0 e d2 = true \/ e = 1 /\ d2 = 7).
Proof.
  intros He Hd. pose proof sweepA5_ok as S. unfold sweepA5 in S. rewrite forallb_forall in S.
  specialize (S e He). cbv beta in S. rewrite forallb_forall in S. specialize (S d2 Hd). cbv beta in S.
  apply andb_prop in S. destruct S as [S1 S2]. split; [exact S1|]. apply orb_prop in S2. destruct S2 as [S2 | S2]; [auto|right; lia].
Qed.
Lemma sweepB5_spec e d2 : In e ED -> In d2 D5 ->
  ok3 0 0 d2 = true /\ ok3 0 255 d2 = true /\ ok3 e 0 d2 = true /\ ok3 e 255 d2 = true.
Proof.
  intros He Hd. pose proof sweepB5_ok as S. unfold sweepB5 in S. rewrite forallb_forall in S.
  specialize (S e He). cbv beta in S. rewrite forallb_forall in S. specialize (S d2 Hd). cbv beta in S.
  apply andb_prop in S. destruct S as [S H4]. apply andb_prop in S. destruct S as [S H3].
  apply andb_prop in S. destruct S as [H1 H2]. auto.
Qed.
Lemma low_xor5 x y : In x lows5 -> In y lows5 -> In (Z.lxor x y) D5.
Proof.
  intros Hx Hy. unfold D5. apply nodup_In. apply in_flat_map. exists x. split; [exact Hx|]. apply in_map. exact Hy.
Qed.
Lemma low_in5 m i : 251 <= m mod 256 -> 0 <= i <= 5 -> In ((m + i) mod 256) lows5.
Proof.
  intros Hm Hi. assert ((m + i) mod 256 = m mod 256 + i \/ (m + i) mod 256 = m mod 256 + i - 256) as H by lia.
  unfold lows5. cbn [In]. assert (0 <= (m + i) mod 256 < 256) by lia. lia.
Qed.
Lemma hi_q5 m i : 0 <= i <= 5 -> (m + i) / 256 = m / 256 \/ (m + i) / 256 = m / 256 + 1.
Proof. intros. lia. Qed.

Lemma mixture_diff5 h q0 q1 q3 d2 : 0 <= h < 65535 -> In d2 D5 ->
  (q0 = h \/ q0 = h + 1) -> (q1 = h \/ q1 = h + 1) -> (q3 = h \/ q3 = h + 1) ->
  crc8_3 (Z.lxor (q0 / 256) (q3 / 256)) (Z.lxor (q1 mod 256) (q3 mod 256)) d2 = 0 ->
  (q0 / 256 = q3 / 256 /\ q1 mod 256 = q3 mod 256 /\ d2 = 0) \/ (h mod 256 < 255 /\ q1 <> q3 /\ d2 = 7).
Proof.
  intros Hh HD2 Q0 Q1 Q3 HC.
  assert ((Z.lxor (q0 / 256) (q3 / 256) = 0 /\ Z.lxor (q1 mod 256) (q3 mod 256) = 0 /\ d2 = 0) \/ (h mod 256 < 255 /\ q1 <> q3 /\ d2 = 7)) as [(E0 & E1 & E2) | HR].
  { destruct (Z_lt_dec (h mod 256) 255) as [Hl|Hl].
    - rewrite (div_a h q0), (div_a h q3) in * by assumption. rewrite Z.lxor_nilpotent in *.
      destruct (sweepA5_spec _ _ (xor_succ (h mod 256) ltac:(lia)) HD2) as [SA1 SA2].
      destruct (Z.eq_dec q1 q3) as [Eq|Eq].
      + left. subst q3. rewrite Z.lxor_nilpotent in *. apply (ok3_zero _ _ _ SA1 HC).
      + destruct (two_xor _ _ _ (mod_a h q1 Hl Q1) (mod_a h q3 Hl Q3)) as [E|E]; rewrite E in *.
        * left. apply (ok3_zero _ _ _ SA1 HC).
        * destruct SA2 as [SA2 | [_ SA2]]; [left; apply (ok3_zero _ _ _ SA2 HC)|right; auto].
    - left. assert (Hl' : h mod 256 = 255) by lia.
      assert (Hx : Z.lxor (q1 mod 256) (q3 mod 256) = 0 \/ Z.lxor (q1 mod 256) (q3 mod 256) = 255).
      { destruct (mod_b h q1 Hl' Q1) as [-> | ->]; destruct (mod_b h q3 Hl' Q3) as [-> | ->]; auto. }
      destruct (sweepB5_spec _ _ (xor_succ (h / 256) ltac:(lia)) HD2) as (SB1 & SB2 & SB3 & SB4).
      destruct (two_xor _ _ _ (div_b h q0 Q0) (div_b h q3 Q3)) as [E|E]; destruct Hx as [Ex|Ex];
        rewrite E in *; rewrite Ex in *.
      + apply (ok3_zero _ _ _ SB1 HC).
      + apply (ok3_zero _ _ _ SB2 HC).
      + apply (ok3_zero _ _ _ SB3 HC).
      + apply (ok3_zero _ _ _ SB4 HC). }
  - left. apply Z.lxor_eq in E0, E1. auto.
  - right. exact HR.
Qed.

(** ** One copy *)
(** The four bytes of the copy at [k] are bytes of values in [m .. m+n]. *)
Definition cw (m n : Z) (mm : Z -> Z) (k : Z) : Prop :=
  forall j, 0 <= j < 4 -> exists i, 0 <= i <= n /\ m + i < 16777216 /\ raw mm (k + j) = fld j (m + i).
(** The copy at [k] is a complete copy of [v]. *)
Definition full (mm : Z -> Z) (k v : Z) : Prop := forall j, 0 <= j < 4 -> raw mm (k + j) = fld j v.
(** Starting one before a carry, the low byte has not been touched unless the middle one has carried. *)
Definition p2 (m : Z) (mm : Z -> Z) (k : Z) : Prop :=
  m mod 256 = 255 -> raw mm (k + 1) = fld 1 (m + 1) \/ raw mm (k + 2) = fld 2 m.
Definition ro (mm : Z -> Z) (k : Z) : option Ctr3 := readOne (raw mm k) (raw mm (k + 1)) (raw mm (k + 2)) (raw mm (k + 3)).
Lemma rd3_ro mm : rd3 mm = match ro mm 0 with Some c => Some c | None => ro mm 4 end.
Proof. apply rd3_raw. Qed.
Lemma cw_mono m n n' mm k : n <= n' -> cw m n mm k -> cw m n' mm k.
Proof. intros H HW j Hj. destruct (HW j Hj) as (i & A & B & C). exists i. repeat split; auto; lia. Qed.
Lemma full_cw mm k v m n : full mm k v -> m <= v <= m + n -> v < 16777216 -> cw m n mm k.
Proof. intros HF Hv Hv2 j Hj. exists (v - m). replace (m + (v - m)) with v by lia. split; [lia|]. split; [exact Hv2|apply HF; exact Hj]. Qed.
Lemma fld0 v : fld 0 v = v / 65536. Proof. reflexivity. Qed.
Lemma fld1 v : fld 1 v = (v / 256) mod 256. Proof. reflexivity. Qed.
Lemma fld2 v : fld 2 v = v mod 256. Proof. reflexivity. Qed.
Lemma fld3 v : fld 3 v = crc8_3 (v / 65536) ((v / 256) mod 256) (v mod 256). Proof. reflexivity. Qed.
Lemma copy_bytes m n mm k : 0 <= m -> cw m n mm k -> byte (raw mm k) /\ byte (raw mm (k + 1)) /\ byte (raw mm (k + 2)).
Proof.
  intros Hm HW. destruct (HW 0 ltac:(lia)) as (i0 & A0 & B0 & C0). destruct (HW 1 ltac:(lia)) as (i1 & A1 & B1 & C1).
  destruct (HW 2 ltac:(lia)) as (i2 & A2 & B2 & C2). replace (k + 0) with k in C0 by lia. rewrite C0, C1, C2.
  split; [|split]; apply win_fld_byte; lia.
Qed.
(** An accepted copy is a complete copy of the value read. *)
Lemma ro_full mm k c : byte (raw mm k) -> byte (raw mm (k + 1)) -> byte (raw mm (k + 2)) -> ro mm k = Some c ->
  full mm k (val3 c) /\ bytes3 c /\ val3 c < 16777215.
Proof.
  intros H0 H1 H2 H. apply readOne_val in H; auto. destruct H as (-> & H3 & Hne & HB).
  pose proof (val3_range _ HB) as HR. split; [|split; [exact HB|lia]].
  pose proof (enc3_val _ HB) as HE. unfold enc3 in HE. apply pair_inj in HE. destruct HE as [HE E2]. apply pair_inj in HE. destruct HE as [E0 E1].
  intros j Hj. assert (j = 0 \/ j = 1 \/ j = 2 \/ j = 3) as HJ by lia. destruct HJ as [-> | [-> | [-> | ->]]].
  - rewrite fld0, E0. f_equal. lia.
  - rewrite fld1, E1. reflexivity.
  - rewrite fld2, E2. reflexivity.
  - rewrite fld3, E0, E1, E2. exact H3.
Qed.
Lemma full_ro mm k v : full mm k v -> 0 <= v < 16777215 -> ro mm k = Some (enc3 v).
Proof.
  intros HF Hv. unfold ro. pose proof (HF 0 ltac:(lia)) as H0. replace (k + 0) with k in H0 by lia.
  rewrite H0, (HF 1), (HF 2), (HF 3) by lia. rewrite fld0, fld1, fld2, fld3.
  pose proof (readOne_good (enc3 v) (enc3_bytes v ltac:(lia))) as HG. unfold enc3 in HG at 1. cbv beta iota in HG. rewrite HG.
  change (v / 65536, v / 256 mod 256, v mod 256) with (enc3 v). rewrite val3_enc by lia. replace (v =? 16777215) with false by lia. reflexivity.
Qed.
Lemma full_val mm k v w : full mm k v -> full mm k w -> 0 <= v -> 0 <= w -> v = w.
Proof.
  intros HV HW Hv Hw.
  pose proof (HV 0 ltac:(lia)) as V0. pose proof (HV 1 ltac:(lia)) as V1. pose proof (HV 2 ltac:(lia)) as V2.
  pose proof (HW 0 ltac:(lia)) as W0. pose proof (HW 1 ltac:(lia)) as W1. pose proof (HW 2 ltac:(lia)) as W2.
  rewrite fld0 in *. rewrite fld1 in *. rewrite fld2 in *. rewrite <- (val3_enc v Hv), <- (val3_enc w Hw). unfold enc3. congruence.
Qed.
(** Windows of up to five values, as before. *)
Lemma cw_read m n mm k c : 0 <= m -> n <= 4 -> cw m n mm k -> ro mm k = Some c -> bytes3 c /\ m <= val3 c <= m + n /\ val3 c < 16777215.
Proof.
  intros Hm Hn HW HR. destruct (copy_bytes _ _ _ _ Hm HW) as (Y0 & Y1 & Y2).
  destruct (HW 0 ltac:(lia)) as (i0 & A0 & B0 & C0). destruct (HW 1 ltac:(lia)) as (i1 & A1 & B1 & C1).
  destruct (HW 2 ltac:(lia)) as (i2 & A2 & B2 & C2). destruct (HW 3 ltac:(lia)) as (i3 & A3 & B3 & C3). replace (k + 0) with k in C0 by lia.
  apply readOne_val in HR; auto. destruct HR as (-> & HE & Hne & Hb). split; [exact Hb|].
  rewrite C0, C1, C2 in Hne, HE |- *. rewrite C3 in HE.
  destruct (mixture m n i0 i1 i2 i3 Hm Hn A0 A1 A2 A3 B0 B1 B2 B3 (eq_sym HE)) as (v & Hv & Hv2 & E).
  rewrite E in Hne |- *. rewrite val3_enc in Hne |- * by lia. lia.
Qed.
(** No carry in the window. *)
Lemma cw_plain m n mm k c : 0 <= m -> m mod 256 + n < 256 \/ 65535 <= m / 256 -> cw m n mm k -> ro mm k = Some c ->
  bytes3 c /\ m <= val3 c <= m + n /\ val3 c < 16777215.
Proof.
  intros Hm Hn HW HR. destruct (copy_bytes _ _ _ _ Hm HW) as (Y0 & Y1 & Y2).
  destruct (HW 0 ltac:(lia)) as (i0 & A0 & B0 & C0). destruct (HW 1 ltac:(lia)) as (i1 & A1 & B1 & C1).
  destruct (HW 2 ltac:(lia)) as (i2 & A2 & B2 & C2). replace (k + 0) with k in C0 by lia.
  apply readOne_val in HR; auto. destruct HR as (-> & HE & Hne & Hb). split; [exact Hb|]. clear HE.
  rewrite C0, C1, C2 in Hne |- *. rewrite fld0, fld1, fld2 in *.
  assert (E : ((m + i0) / 65536, (m + i1) / 256 mod 256, (m + i2) mod 256) = enc3 (m + i2)).
  { clear Hne C0 C1 C2 Y0 Y1 Y2 HW Hb.
    assert (HS : forall i, 0 <= i <= n -> m + i < 16777216 -> (m + i) / 256 = m / 256).
    { intros i Hi Hi2. clear A0 A1 A2 B0 B1 B2 i0 i1 i2. destruct Hn as [Hn | Hn]; Z.div_mod_to_equations; lia. }
    unfold enc3. rewrite (div_div256 (m + i0)), (div_div256 (m + i2)), !HS by assumption. reflexivity. }
  rewrite E in Hne |- *. rewrite val3_enc in Hne |- * by lia. lia.
Qed.
(** Six values: never less than the first. *)
Lemma cw_read5 m mm k c : 0 <= m -> cw m 5 mm k -> p2 m mm k -> ro mm k = Some c -> m <= val3 c.
Proof.
  intros Hm HW HP HR.
  destruct (Z_lt_dec (m mod 256 + 5) 256) as [Hs|Hs]; [destruct (cw_plain m 5 mm k c Hm (or_introl Hs) HW HR); lia|].
  destruct (Z_lt_dec (m / 256) 65535) as [Hh|Hh]; [|assert (Hh' : 65535 <= m / 256) by lia; destruct (cw_plain m 5 mm k c Hm (or_intror Hh') HW HR); lia].
  destruct (copy_bytes _ _ _ _ Hm HW) as (Y0 & Y1 & Y2).
  destruct (HW 0 ltac:(lia)) as (i0 & A0 & B0 & C0). destruct (HW 1 ltac:(lia)) as (i1 & A1 & B1 & C1).
  destruct (HW 2 ltac:(lia)) as (i2 & A2 & B2 & C2). destruct (HW 3 ltac:(lia)) as (i3 & A3 & B3 & C3). replace (k + 0) with k in C0 by lia.
  apply readOne_val in HR; auto. destruct HR as (-> & HE & _ & _). unfold p2 in HP.
  rewrite C0, C1, C2 in *. rewrite C3 in HE. clear HW C0 C1 C2 C3 Y0 Y1 Y2.
  rewrite !fld0, !fld1, !fld2, fld3 in *. rewrite (div_div256 (m + i0)) in *. rewrite (div_div256 (m + i3)) in HE.
  symmetry in HE. apply crc_diff in HE. unfold val3.
  pose proof (low_in5 m i2 ltac:(clear HE; lia) A2) as L2. pose proof (low_in5 m i3 ltac:(clear HE; lia) A3) as L3.
  pose proof (hi_q5 m i0 A0) as Q0. pose proof (hi_q5 m i1 A1) as Q1. pose proof (hi_q5 m i3 A3) as Q3.
  destruct (mixture_diff5 (m / 256) _ _ _ _ ltac:(clear HE; lia) (low_xor5 _ _ L2 L3) Q0 Q1 Q3 HE) as [(E0 & E1 & E2) | (E0 & E1 & E2)].
  - apply Z.lxor_eq in E2. rewrite E0, E1, E2. clear HE E0 E1 E2 L2 L3 HP.
    assert ((m + i3) / 256 / 256 * 65536 + (m + i3) / 256 mod 256 * 256 + (m + i3) mod 256 = m + i3) by lia. lia.
  - clear HE. destruct Q1 as [Q1 | Q1].
    + assert (Q3' : (m + i3) / 256 = m / 256 + 1) by lia. exfalso.
      assert (HX : (m + i2) mod 256 = Z.lxor ((m + i3) mod 256) 7).
      { rewrite <- E2. rewrite (Z.lxor_comm ((m + i2) mod 256)). rewrite <- Z.lxor_assoc, Z.lxor_nilpotent. reflexivity. }
      assert (HL : 0 <= (m + i3) mod 256 <= 4) by lia.
      assert (HV : (m + i3) mod 256 = 0 /\ (m + i2) mod 256 = 7 \/ (m + i3) mod 256 = 1 /\ (m + i2) mod 256 = 6 \/
                   (m + i3) mod 256 = 2 /\ (m + i2) mod 256 = 5 \/ (m + i3) mod 256 = 3 /\ (m + i2) mod 256 = 4 \/ (m + i3) mod 256 = 4 /\ (m + i2) mod 256 = 3).
      { assert (HJ : (m + i3) mod 256 = 0 \/ (m + i3) mod 256 = 1 \/ (m + i3) mod 256 = 2 \/ (m + i3) mod 256 = 3 \/ (m + i3) mod 256 = 4) by lia.
        destruct HJ as [HJ | [HJ | [HJ | [HJ | HJ]]]]; rewrite HJ in HX; cbn in HX; auto 10. }
      clear HX E2. unfold lows5 in L2. cbn [In] in L2.
      assert (HM : m mod 256 = 255) by lia.
      destruct (HP HM) as [HP1 | HP1]; lia.
    + clear HP E2 L2 L3. rewrite Q1. destruct Q0 as [-> | ->]; lia.
Qed.

(** ** Both copies, after an interrupted update *)
(** [mm'] is [mm] after the first [k] of the eight bytes of two copies of [v]. *)
Definition wr (mm' mm : Z -> Z) (k v : Z) : Prop :=
  forall j, 0 <= j < 8 -> raw mm' j = if j <? k then fld (j mod 4) v else raw mm j.
Lemma wr_W k v mm mm' : 0 <= v < 16777216 -> meq mm' (applyw (firstn k (W (enc3 v))) mm) -> wr mm' mm (Z.of_nat k) v.
Proof.
  intros Hv HM j Hj. unfold raw at 1. rewrite HM. change (inv8 (applyw (firstn k (W (enc3 v))) mm (104 + j))) with (raw (applyw (firstn k (W (enc3 v))) mm) j).
  unfold W. rewrite firstn_at_addr. unfold raw. rewrite applyw_at. unfold TXC_START.
  assert (HL : Zlen (firstn k (map inv8 (two_copies (enc3 v)))) = Z.min (Z.of_nat k) 8)
    by (unfold Zlen; rewrite firstn_length, map_length, two_copies_len; lia).
  rewrite HL. destruct (j <? Z.of_nat k) eqn:E.
  - replace ((104 <=? 104 + j) && _) with true by lia. replace (104 + j - 104) with j by lia.
    rewrite znth_firstn by lia. rewrite znth_inv8 by (unfold Zlen; rewrite two_copies_len; lia).
    rewrite inv8_inv, two_copies_fld by (try lia; apply enc3_bytes; lia). rewrite val3_enc by lia. reflexivity.
  - replace ((104 <=? 104 + j) && _) with false by lia. reflexivity.
Qed.
Lemma wr_hit mm' mm k v o j : wr mm' mm k v -> o = 0 \/ o = 4 -> 0 <= j < 4 -> o + j < k -> raw mm' (o + j) = fld j v.
Proof. intros HW Ho Hj Hk. rewrite (HW (o + j)) by lia. replace (o + j <? k) with true by lia. f_equal. lia. Qed.
Lemma wr_miss mm' mm k v j : wr mm' mm k v -> 0 <= j < 8 -> k <= j -> raw mm' j = raw mm j.
Proof. intros HW Hj Hk. rewrite (HW j Hj). replace (j <? k) with false by lia. reflexivity. Qed.
Lemma wr_cw m n mm mm' k v o : wr mm' mm k v -> o = 0 \/ o = 4 -> cw m n mm o -> m <= v <= m + n -> v < 16777216 -> cw m n mm' o.
Proof.
  intros HW Ho HC Hv Hv2 j Hj. destruct (Z_lt_dec (o + j) k) as [Hk|Hk].
  - exists (v - m). rewrite (wr_hit _ _ _ _ o j HW Ho Hj Hk). replace (m + (v - m)) with v by lia. repeat split; auto; lia.
  - rewrite (wr_miss _ _ _ _ (o + j) HW) by lia. apply HC. exact Hj.
Qed.
Lemma wr_full mm mm' k v o : wr mm' mm k v -> o = 0 \/ o = 4 -> o + 4 <= k -> full mm' o v.
Proof. intros HW Ho Hk j Hj. apply (wr_hit _ _ _ _ o j HW Ho Hj). lia. Qed.
Lemma wr_p2 m mm mm' k v o : wr mm' mm k v -> o = 0 \/ o = 4 -> 0 <= m < v -> v <= m + 256 -> p2 m mm o -> p2 m mm' o.
Proof.
  intros HW Ho Hv Hv2 HP HM. destruct (Z_lt_dec (o + 1) k) as [Hk|Hk].
  - left. rewrite (wr_hit _ _ _ _ o 1 HW Ho) by lia. rewrite !fld1. f_equal. lia.
  - rewrite (wr_miss _ _ _ _ (o + 1) HW), (wr_miss _ _ _ _ (o + 2) HW) by lia. apply HP. exact HM.
Qed.

(** After [n] of at most four failures. *)
Definition T (m n : Z) (mm : Z -> Z) : Prop :=
  cw m n mm 0 /\ cw m n mm 4 /\ p2 m mm 0 /\ p2 m mm 4 /\ (full mm 0 (m + n) \/ cw m (n - 1) mm 4).
(** After five. *)
Definition T5 (m : Z) (mm : Z -> Z) : Prop :=
  p2 m mm 0 /\ p2 m mm 4 /\ ((cw m 4 mm 0 /\ cw m 4 mm 4) \/
   (m + 5 < 16777216 /\ exists mm4 k, cw m 4 mm4 4 /\ full mm4 0 (m + 4) /\ wr mm mm4 k (m + 5))).
(** A window of no failures is a fresh start. *)
Lemma win_T m mm : win m 0 mm -> T m 0 mm.
Proof.
  intros HW. assert (HF : forall j, 0 <= j < 8 -> raw mm j = fld (j mod 4) m /\ m < 16777216).
  { intros j Hj. destruct (HW j Hj) as (i & A & B & C). replace (m + i) with m in * by lia. auto. }
  assert (HQ : forall o, o = 0 \/ o = 4 -> full mm o m).
  { intros o Ho j Hj. destruct (HF (o + j) ltac:(lia)) as [-> _]. f_equal. lia. }
  destruct (HF 0 ltac:(lia)) as [_ HM].
  split; [apply (full_cw _ _ m); [apply HQ; auto|lia|exact HM]|]. split; [apply (full_cw _ _ m); [apply HQ; auto|lia|exact HM]|].
  split; [intros _; right; apply (HQ 0); lia|]. split; [intros _; right; apply (HQ 4); lia|]. left. rewrite Z.add_0_r. apply HQ. auto.
Qed.
Lemma T_read m n mm c : 0 <= m -> 0 <= n <= 4 -> T m n mm -> rd3 mm = Some c ->
  m <= val3 c <= m + n /\ val3 c < 16777215 /\ (val3 c = m + n -> full mm 0 (m + n)).
Proof.
  intros Hm Hn (H0 & H4 & _ & _ & HF) HR. rewrite rd3_ro in HR. destruct (ro mm 0) as [d|] eqn:E.
  - apply some_inj in HR. subst d. destruct (cw_read m n mm 0 c Hm ltac:(lia) H0 E) as (_ & HV & HV2). split; [exact HV|]. split; [exact HV2|].
    intros HE. destruct (copy_bytes _ _ _ _ Hm H0) as (Y0 & Y1 & Y2). destruct (ro_full mm 0 c Y0 Y1 Y2 E) as [HX _]. rewrite <- HE. exact HX.
  - destruct (cw_read m n mm 4 c Hm ltac:(lia) H4 HR) as (_ & HV & HV2). split; [exact HV|]. split; [exact HV2|].
    intros HE. destruct HF as [HF | HF]; [exact HF|]. destruct (cw_read m (n - 1) mm 4 c Hm ltac:(lia) HF HR) as (_ & HV3 & _). lia.
Qed.
Lemma T_step m n mm mm' k v : 0 <= m -> 0 <= n <= 3 -> T m n mm -> m <= v <= m + n -> v + 1 < 16777216 -> wr mm' mm k (v + 1) -> T m (n + 1) mm'.
Proof.
  intros Hm Hn (H0 & H4 & P0 & P4 & HF) Hv Hv2 HW.
  pose proof (wr_cw m (n + 1) mm mm' k (v + 1) 0 HW ltac:(auto) (cw_mono m n (n + 1) mm _ ltac:(lia) H0) ltac:(lia) Hv2) as H0'.
  pose proof (wr_cw m (n + 1) mm mm' k (v + 1) 4 HW ltac:(auto) (cw_mono m n (n + 1) mm _ ltac:(lia) H4) ltac:(lia) Hv2) as H4'.
  split; [exact H0'|]. split; [exact H4'|].
  split; [apply (wr_p2 m mm mm' k (v + 1) 0 HW); auto; lia|]. split; [apply (wr_p2 m mm mm' k (v + 1) 4 HW); auto; lia|].
  destruct (Z_le_dec k 4) as [Hk|Hk].
  - right. intros j Hj. rewrite (wr_miss _ _ _ _ (4 + j) HW) by lia. replace (n + 1 - 1) with n by lia. apply H4. exact Hj.
  - destruct (Z.eq_dec v (m + n)) as [Ev|Ev].
    + left. replace (m + (n + 1)) with (v + 1) by lia. apply (wr_full mm mm' k (v + 1) 0 HW); [auto|lia].
    + right. replace (n + 1 - 1) with n by lia. apply (wr_cw m n mm mm' k (v + 1) 4 HW); auto; lia.
Qed.
Lemma T_step5 m mm mm' k c : 0 <= m -> T m 4 mm -> rd3 mm = Some c -> wr mm' mm k (val3 c + 1) -> T5 m mm'.
Proof.
  intros Hm HT HR HW. destruct (T_read m 4 mm c Hm ltac:(lia) HT HR) as (HV & HV2 & HF). destruct HT as (H0 & H4 & P0 & P4 & _).
  split; [apply (wr_p2 m mm mm' k (val3 c + 1) 0 HW); auto; lia|]. split; [apply (wr_p2 m mm mm' k (val3 c + 1) 4 HW); auto; lia|].
  destruct (Z.eq_dec (val3 c) (m + 4)) as [Ev|Ev].
  - right. split; [lia|]. exists mm, k. split; [exact H4|]. split; [apply HF; exact Ev|]. replace (m + 5) with (val3 c + 1) by lia. exact HW.
  - left. split; [apply (wr_cw m 4 mm mm' k (val3 c + 1) 0 HW)|apply (wr_cw m 4 mm mm' k (val3 c + 1) 4 HW)]; auto; lia.
Qed.
Lemma T5_cw m mm : 0 <= m -> T5 m mm -> cw m 5 mm 0 /\ cw m 5 mm 4.
Proof.
  intros Hm (_ & _ & [[H0 H4] | (HB & mm4 & k & H4 & HF & HW)]).
  - split; apply (cw_mono m 4); auto; lia.
  - split; [apply (wr_cw m 5 mm4 mm k (m + 5) 0 HW); [auto|apply (full_cw _ _ (m + 4)); auto; lia|lia|exact HB]|].
    apply (wr_cw m 5 mm4 mm k (m + 5) 4 HW); [auto|apply (cw_mono m 4); [lia|exact H4]|lia|exact HB].
Qed.
Lemma T5_read m mm c : 0 <= m -> T5 m mm -> rd3 mm = Some c ->
  m <= val3 c <= m + 5 /\ val3 c < 16777215 /\ (val3 c = m + 5 -> full mm 0 (m + 5)).
Proof.
  intros Hm HT HR. destruct (T5_cw m mm Hm HT) as [G0 G4]. destruct HT as (P0 & P4 & H). rewrite rd3_ro in HR.
  destruct H as [[H0 H4] | (HB & mm4 & k & H4 & HF & HW)].
  - destruct (ro mm 0) as [d|] eqn:E.
    + apply some_inj in HR. subst d. destruct (cw_read m 4 mm 0 c Hm ltac:(lia) H0 E) as (_ & HV & HV2). lia.
    + destruct (cw_read m 4 mm 4 c Hm ltac:(lia) H4 HR) as (_ & HV & HV2). lia.
  - assert (H0 : cw (m + 4) 1 mm 0).
    { apply (wr_cw (m + 4) 1 mm4 mm k (m + 5) 0 HW); [auto|apply (full_cw _ _ (m + 4)); auto; lia|lia|exact HB]. }
    destruct (ro mm 0) as [d|] eqn:E.
    + apply some_inj in HR. subst d. destruct (cw_read (m + 4) 1 mm 0 c ltac:(lia) ltac:(lia) H0 E) as (_ & HV & HV2).
      split; [lia|]. split; [exact HV2|]. intros HE. destruct (copy_bytes _ _ _ _ Hm G0) as (Y0 & Y1 & Y2).
      destruct (ro_full mm 0 c Y0 Y1 Y2 E) as [HX _]. rewrite <- HE. exact HX.
    + destruct (Z_le_dec 4 k) as [Hk|Hk].
      * pose proof (wr_full mm4 mm k (m + 5) 0 HW ltac:(auto) ltac:(lia)) as HX.
        destruct (Z.eq_dec (m + 5) 16777215) as [Em|Em]; [|rewrite (full_ro mm 0 (m + 5) HX) in E by lia; discriminate].
        destruct (cw_plain m 5 mm 4 c Hm ltac:(lia) G4 HR) as (_ & HV & HV2). lia.
      * assert (HX : cw m 4 mm 4). { intros j Hj. rewrite (wr_miss _ _ _ _ (4 + j) HW) by lia. apply H4. exact Hj. }
        destruct (cw_read m 4 mm 4 c Hm ltac:(lia) HX HR) as (_ & HV & HV2). lia.
Qed.
Lemma T5_step m mm mm' k c c' : 0 <= m -> T5 m mm -> rd3 mm = Some c -> wr mm' mm k (val3 c + 1) -> rd3 mm' = Some c' -> m <= val3 c'.
Proof.
  intros Hm HT HR HW HR'. destruct (T5_read m mm c Hm HT HR) as (HV & HV2 & HF). destruct (T5_cw m mm Hm HT) as [G0 G4]. destruct HT as (P0 & P4 & _).
  pose proof (wr_p2 m mm mm' k (val3 c + 1) 0 HW ltac:(auto) ltac:(lia) ltac:(lia) P0) as P0'.
  pose proof (wr_p2 m mm mm' k (val3 c + 1) 4 HW ltac:(auto) ltac:(lia) ltac:(lia) P4) as P4'. rewrite rd3_ro in HR'.
  destruct (Z.eq_dec (val3 c) (m + 5)) as [Ev|Ev].
  - specialize (HF Ev).
    assert (H0 : cw (m + 5) 1 mm' 0).
    { apply (wr_cw (m + 5) 1 mm mm' k (val3 c + 1) 0 HW); [auto|apply (full_cw _ _ (m + 5)); auto; lia|lia|lia]. }
    destruct (ro mm' 0) as [d|] eqn:E.
    + apply some_inj in HR'. subst d. destruct (cw_read (m + 5) 1 mm' 0 c' ltac:(lia) ltac:(lia) H0 E) as (_ & HX & _). lia.
    + destruct (Z_le_dec 4 k) as [Hk|Hk].
      * pose proof (wr_full mm mm' k (val3 c + 1) 0 HW ltac:(auto) ltac:(lia)) as HX.
        destruct (Z.eq_dec (val3 c + 1) 16777215) as [Em|Em]; [|rewrite (full_ro mm' 0 _ HX) in E by lia; discriminate].
        assert (G6 : cw m 6 mm' 4). { apply (wr_cw m 6 mm mm' k (val3 c + 1) 4 HW); [auto|apply (cw_mono m 5); [lia|exact G4]|lia|lia]. }
        destruct (cw_plain m 6 mm' 4 c' Hm ltac:(lia) G6 HR') as (_ & HX2 & _). lia.
      * assert (HX : cw m 5 mm' 4). { intros j Hj. rewrite (wr_miss _ _ _ _ (4 + j) HW) by lia. apply G4. exact Hj. }
        apply (cw_read5 m mm' 4 c' Hm HX P4' HR').
  - assert (G0' : cw m 5 mm' 0) by (apply (wr_cw m 5 mm mm' k (val3 c + 1) 0 HW); auto; lia).
    assert (G4' : cw m 5 mm' 4) by (apply (wr_cw m 5 mm mm' k (val3 c + 1) 4 HW); auto; lia).
    destruct (ro mm' 0) as [d|] eqn:E.
    + apply some_inj in HR'. subst d. apply (cw_read5 m mm' 0 c' Hm G0' P0' E).
    + apply (cw_read5 m mm' 4 c' Hm G4' P4' HR').
Qed.

(** ** Put together *)
Definition R (m n : Z) (mm : Z -> Z) : Prop :=
  (0 <= n <= 4 /\ T m n mm) \/ (n = 5 /\ T5 m mm) \/ (n = 6 /\ forall c, rd3 mm = Some c -> m <= val3 c) \/ 7 <= n.
Lemma raw_ext a b : (forall j, 0 <= j < 8 -> raw a j = raw b j) -> rd3 a = rd3 b.
Proof. intros H. rewrite !rd3_raw. rewrite !H by lia. reflexivity. Qed.
Lemma R_read m n mm c : 0 <= m -> n <= 6 -> R m n mm -> rd3 mm = Some c -> m <= val3 c.
Proof.
  intros Hm Hn [[H1 HT] | [[H1 HT] | [[H1 HT] | H1]]] HR; [| |auto|lia].
  - destruct (T_read m n mm c Hm H1 HT HR) as (HX & _). lia.
  - destruct (T5_read m mm c Hm HT HR) as (HX & _). lia.
Qed.
Lemma R_step m n mm mm' k c : 0 <= m -> 0 <= n <= 6 -> R m n mm -> rd3 mm = Some c -> wr mm' mm k (val3 c + 1) -> R m (n + 1) mm'.
Proof.
  intros Hm Hn [[H1 HT] | [[H1 HT] | [[H1 HT] | H1]]] HR HW.
  - destruct (Z.eq_dec n 4) as [E|E].
    + right; left. split; [lia|]. subst n. apply (T_step5 m mm mm' k c Hm HT HR HW).
    + left. split; [lia|]. destruct (T_read m n mm c Hm H1 HT HR) as (HX & HX2 & _). apply (T_step m n mm mm' k (val3 c) Hm); auto; lia.
  - right; right; left. split; [lia|]. intros c' HR'. apply (T5_step m mm mm' k c c' Hm HT HR HW HR').
  - right; right; right. lia.
  - lia.
Qed.
Lemma raw_meq a b j : meq a b -> raw a j = raw b j.
Proof. intros H. unfold raw. rewrite H. reflexivity. Qed.
Lemma cw_meq m n a b k : meq a b -> cw m n a k -> cw m n b k.
Proof. intros H HC j Hj. rewrite <- (raw_meq a b _ H). apply HC. exact Hj. Qed.
Lemma full_meq a b k v : meq a b -> full a k v -> full b k v.
Proof. intros H HC j Hj. rewrite <- (raw_meq a b _ H). apply HC. exact Hj. Qed.
Lemma p2_meq m a b k : meq a b -> p2 m a k -> p2 m b k.
Proof. intros H HP HM. rewrite <- !(raw_meq a b _ H). apply HP. exact HM. Qed.
Lemma R_meq m n a b : meq a b -> R m n a -> R m n b.
Proof.
  intros H [[H1 (A & B & C & D & E)] | [[H1 (A & B & C)] | [[H1 HT] | H1]]].
  - left. split; [exact H1|]. split; [apply (cw_meq _ _ a); auto|]. split; [apply (cw_meq _ _ a); auto|].
    split; [apply (p2_meq _ a); auto|]. split; [apply (p2_meq _ a); auto|].
    destruct E as [E | E]; [left; apply (full_meq a); auto|right; apply (cw_meq _ _ a); auto].
  - right; left. split; [exact H1|]. split; [apply (p2_meq _ a); auto|]. split; [apply (p2_meq _ a); auto|].
    destruct C as [[C1 C2] | (C0 & mm4 & k & C1 & C2 & C3)]; [left; split; apply (cw_meq _ _ a); auto|].
    right. split; [exact C0|]. exists mm4, k. split; [exact C1|]. split; [exact C2|]. intros j Hj. rewrite <- (raw_meq a b _ H). apply C3. exact Hj.
  - right; right; left. split; [exact H1|]. intros c HR. apply HT. rewrite <- HR. apply raw_ext. intros j Hj. apply raw_meq. exact H.
  - right; right; right. exact H1.
Qed.
