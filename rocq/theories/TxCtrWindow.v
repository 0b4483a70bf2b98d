(** Mixed copies: what a copy whose bytes come from several consecutive counter
    values can be read back as. *)
From Verif Require Import Base CrcLin EepromModel EepromProofs TxCtrModel TxCtrProofs.

(** All bytes of both copies are bytes of (copies of) counter values in [m .. m+n]. *)
Definition win (m n : Z) (mm : Z -> Z) : Prop :=
  forall j, 0 <= j < 8 -> exists i, 0 <= i <= n /\ m + i < 16777216 /\ raw mm j = fld (j mod 4) (m + i).

Definition ED : list Z := [1;3;7;15;31;63;127;255].
Lemma xor_succ_sweep : below 255 (fun b => existsb (Z.eqb (Z.lxor b (b + 1))) [1;3;7;15;31;63;127;255]) = true.
Proof. vm_compute. reflexivity. Qed.
Lemma xor_succ b : 0 <= b < 255 -> In (Z.lxor b (b + 1)) ED.
Proof.
  intros H. pose proof (below_spec _ _ xor_succ_sweep b H) as E. cbv beta in E.
  apply existsb_exists in E. destruct E as (x & Hx & E). apply Z.eqb_eq in E. rewrite E. exact Hx.
Qed.

Definition D2 : list Z := [0;1;2;3;252;253;254;255].
Definition zero3 (a b c : Z) : bool := (a =? 0) && (b =? 0) && (c =? 0).
Definition ok3 (a b c : Z) : bool := negb (crc8_3 a b c =? 0) || zero3 a b c.
Definition sweepA : bool :=
  forallb (fun e => forallb (fun d2 => ok3 0 0 d2 && ok3 0 e d2) D2) ED.
Definition sweepB : bool :=
  forallb (fun e => forallb (fun d2 => ok3 0 0 d2 && ok3 0 255 d2 && ok3 e 0 d2 && ok3 e 255 d2) D2) ED.
Lemma sweepA_ok : sweepA = true. Proof. vm_compute. reflexivity. Qed.
Lemma sweepB_ok : sweepB = true. Proof. vm_compute. reflexivity. Qed.

#[local] Opaque crc8_3 crc8_update crc8_bit.
Lemma ok3_zero a b c : ok3 a b c = true -> crc8_3 a b c = 0 -> a = 0 /\ b = 0 /\ c = 0.
Proof. unfold ok3, zero3. intros H E. rewrite E in H. change (0 =? 0) with true in H. cbn [negb orb] in H. lia. Qed.

Lemma sweepA_spec e d2 : In e ED -> In d2 D2 -> ok3 0 0 d2 = true /\ ok3 0 e d2 = true.
Proof.
  intros He Hd. pose proof sweepA_ok as S. unfold sweepA in S. rewrite forallb_forall in S.
  specialize (S e He). cbv beta in S. rewrite forallb_forall in S. specialize (S d2 Hd). cbv beta in S.
  apply andb_prop in S. exact S.
Qed.
Lemma sweepB_spec e d2 : In e ED -> In d2 D2 ->
  ok3 0 0 d2 = true /\ ok3 0 255 d2 = true /\ ok3 e 0 d2 = true /\ ok3 e 255 d2 = true.
Proof.
  intros He Hd. pose proof sweepB_ok as S. unfold sweepB in S. rewrite forallb_forall in S.
  specialize (S e He). cbv beta in S. rewrite forallb_forall in S. specialize (S d2 Hd). cbv beta in S.
  apply andb_prop in S. destruct S as [S H4]. apply andb_prop in S. destruct S as [S H3].
  apply andb_prop in S. destruct S as [H1 H2]. auto.
Qed.
Lemma crc_diff a b c a' b' c' : crc8_3 a b c = crc8_3 a' b' c' ->
  crc8_3 (Z.lxor a a') (Z.lxor b b') (Z.lxor c c') = 0.
Proof. intros H. rewrite crc8_3_linear, H. apply Z.lxor_nilpotent. Qed.

Definition lows : list Z := [252;253;254;255;0;1;2;3].
Lemma low_xor x y : In x lows -> In y lows -> In (Z.lxor x y) D2.
Proof.
  intros Hx Hy.
  assert (forallb (fun x => forallb (fun y => existsb (Z.eqb (Z.lxor x y)) D2) lows) lows = true) as H
    by (vm_compute; reflexivity).
  rewrite forallb_forall in H. specialize (H x Hx). rewrite forallb_forall in H. specialize (H y Hy).
  apply existsb_exists in H. destruct H as (z & Hz & E). apply Z.eqb_eq in E. rewrite E. exact Hz.
Qed.
Lemma low_in m i : 252 <= m mod 256 -> 0 <= i <= 4 -> In ((m + i) mod 256) lows.
Proof.
  intros Hm Hi. assert ((m + i) mod 256 = m mod 256 + i \/ (m + i) mod 256 = m mod 256 + i - 256) as H by lia.
  unfold lows. cbn [In]. assert (0 <= (m + i) mod 256 < 256) by lia. lia.
Qed.

(** The bytes of a value in the window. *)
Lemma hi_cases m i : 0 <= m -> 0 <= i <= 4 -> m + i < 16777216 ->
  ((m + i) / 256 = m / 256 \/ ((m + i) / 256 = m / 256 + 1 /\ m mod 256 + i >= 256)).
Proof. intros. lia. Qed.

Lemma two_xor x y z : (x = z \/ x = z + 1) -> (y = z \/ y = z + 1) ->
  Z.lxor x y = 0 \/ Z.lxor x y = Z.lxor z (z + 1).
Proof.
  intros [-> | ->] [-> | ->]; rewrite ?Z.lxor_nilpotent; auto. right. apply Z.lxor_comm.
Qed.

Lemma div_a h q : h mod 256 < 255 -> q = h \/ q = h + 1 -> q / 256 = h / 256.
Proof. intros. lia. Qed.
Lemma mod_a h q : h mod 256 < 255 -> q = h \/ q = h + 1 -> q mod 256 = h mod 256 \/ q mod 256 = h mod 256 + 1.
Proof. intros. lia. Qed.
Lemma div_b h q : q = h \/ q = h + 1 -> q / 256 = h / 256 \/ q / 256 = h / 256 + 1.
Proof. intros. lia. Qed.
Lemma mod_b h q : h mod 256 = 255 -> q = h \/ q = h + 1 -> q mod 256 = 255 \/ q mod 256 = 0.
Proof. intros. lia. Qed.
Lemma hi_q m i : 0 <= i <= 4 -> (m + i) / 256 = m / 256 \/ (m + i) / 256 = m / 256 + 1.
Proof. intros. lia. Qed.
Lemma div_div256 v : v / 65536 = v / 256 / 256.
Proof. rewrite Z.div_div by lia. reflexivity. Qed.

Lemma mixture_diff h q0 q1 q3 d2 : 0 <= h < 65535 -> In d2 D2 ->
  (q0 = h \/ q0 = h + 1) -> (q1 = h \/ q1 = h + 1) -> (q3 = h \/ q3 = h + 1) ->
  crc8_3 (Z.lxor (q0 / 256) (q3 / 256)) (Z.lxor (q1 mod 256) (q3 mod 256)) d2 = 0 ->
  q0 / 256 = q3 / 256 /\ q1 mod 256 = q3 mod 256 /\ d2 = 0.
Proof.
  intros Hh HD2 Q0 Q1 Q3 HC.
  assert (Z.lxor (q0 / 256) (q3 / 256) = 0 /\ Z.lxor (q1 mod 256) (q3 mod 256) = 0 /\ d2 = 0) as (E0 & E1 & E2).
  { destruct (Z_lt_dec (h mod 256) 255) as [Hl|Hl].
    - rewrite (div_a h q0), (div_a h q3) in * by assumption. rewrite Z.lxor_nilpotent in *.
      destruct (sweepA_spec _ _ (xor_succ (h mod 256) ltac:(lia)) HD2) as [SA1 SA2].
      destruct (two_xor _ _ _ (mod_a h q1 Hl Q1) (mod_a h q3 Hl Q3)) as [E|E]; rewrite E in *.
      + apply (ok3_zero _ _ _ SA1 HC).
      + apply (ok3_zero _ _ _ SA2 HC).
    - assert (Hl' : h mod 256 = 255) by lia.
      assert (Hx : Z.lxor (q1 mod 256) (q3 mod 256) = 0 \/ Z.lxor (q1 mod 256) (q3 mod 256) = 255).
      { destruct (mod_b h q1 Hl' Q1) as [-> | ->]; destruct (mod_b h q3 Hl' Q3) as [-> | ->]; auto. }
      destruct (sweepB_spec _ _ (xor_succ (h / 256) ltac:(lia)) HD2) as (SB1 & SB2 & SB3 & SB4).
      destruct (two_xor _ _ _ (div_b h q0 Q0) (div_b h q3 Q3)) as [E|E]; destruct Hx as [Ex|Ex];
        rewrite E in *; rewrite Ex in *.
      + apply (ok3_zero _ _ _ SB1 HC).
      + apply (ok3_zero _ _ _ SB2 HC).
      + apply (ok3_zero _ _ _ SB3 HC).
      + apply (ok3_zero _ _ _ SB4 HC). }
  apply Z.lxor_eq in E0, E1. auto.
Qed.

(** Key fact: a CRC-valid mixture of up to five consecutive values is one of them. *)
Lemma mixture m n i0 i1 i2 i3 : 0 <= m -> n <= 4 ->
  0 <= i0 <= n -> 0 <= i1 <= n -> 0 <= i2 <= n -> 0 <= i3 <= n ->
  m + i0 < 16777216 -> m + i1 < 16777216 -> m + i2 < 16777216 -> m + i3 < 16777216 ->
  crc8_3 (fld 0 (m + i0)) (fld 1 (m + i1)) (fld 2 (m + i2)) = fld 3 (m + i3) ->
  exists v, m <= v <= m + n /\ v < 16777216 /\ (fld 0 (m + i0), fld 1 (m + i1), fld 2 (m + i2)) = enc3 v.
Proof.
  intros Hm Hn H0 H1 H2 H3 L0 L1 L2 L3 HC.
  change (fld 0 (m + i0)) with ((m + i0) / 65536) in *.
  change (fld 1 (m + i1)) with (((m + i1) / 256) mod 256) in *.
  change (fld 2 (m + i2)) with ((m + i2) mod 256) in *.
  change (fld 3 (m + i3)) with (crc8_3 ((m + i3) / 65536) (((m + i3) / 256) mod 256) ((m + i3) mod 256)) in *.
  rewrite (div_div256 (m + i0)) in *. rewrite (div_div256 (m + i3)) in *. unfold enc3.
  assert (HS : (m + i0) / 256 = m / 256 -> (m + i1) / 256 = m / 256 -> (m + i2) / 256 = m / 256 ->
     exists v, m <= v <= m + n /\ v < 16777216 /\
      ((m + i0) / 256 / 256, (m + i1) / 256 mod 256, (m + i2) mod 256) = (v / 65536, (v / 256) mod 256, v mod 256)).
  { intros E0 E1 E2. exists (m + i2). split; [clear HC; lia|]. split; [exact L2|].
    rewrite (div_div256 (m + i2)), E0, E1, E2. reflexivity. }
  destruct (Z_lt_dec (m mod 256 + n) 256) as [Hs|Hs].
  { clear HC. apply HS; clear HS; lia. }
  destruct (Z_lt_dec (m / 256) 65535) as [Hh|Hh].
  2:{ clear HC. apply HS; clear HS; lia. }
  clear HS. exists (m + i3). split; [clear HC; lia|]. split; [exact L3|].
  apply crc_diff in HC. rewrite (div_div256 (m + i3)).
  destruct (mixture_diff (m / 256) _ _ _ _ ltac:(clear HC; lia)
     (low_xor ((m + i2) mod 256) ((m + i3) mod 256) (low_in m i2 ltac:(clear HC; lia) ltac:(clear HC; lia))
        (low_in m i3 ltac:(clear HC; lia) ltac:(clear HC; lia)))
     (hi_q m i0 ltac:(clear HC; lia)) (hi_q m i1 ltac:(clear HC; lia)) (hi_q m i3 ltac:(clear HC; lia)) HC) as (E0 & E1 & E2).
  apply Z.lxor_eq in E2. rewrite E0, E1, E2. reflexivity.
Qed.

Lemma win_fld_byte j v : 0 <= v < 16777216 -> byte (fld j v).
Proof.
  intros H. unfold fld, byte. destruct (j =? 0); [lia|]. destruct (j =? 1); [lia|]. destruct (j =? 2); [lia|].
  apply crc8_3_byte.
Qed.

Lemma win_readOne m n mm k c : 0 <= m -> n <= 4 -> win m n mm -> (k = 0 \/ k = 4) ->
  readOne (raw mm k) (raw mm (k + 1)) (raw mm (k + 2)) (raw mm (k + 3)) = Some c ->
  bytes3 c /\ m <= val3 c <= m + n /\ val3 c < 16777215.
Proof.
  intros Hm Hn HW Hk HR.
  destruct (HW k ltac:(lia)) as (i0 & A0 & B0 & C0).
  destruct (HW (k + 1) ltac:(lia)) as (i1 & A1 & B1 & C1).
  destruct (HW (k + 2) ltac:(lia)) as (i2 & A2 & B2 & C2).
  destruct (HW (k + 3) ltac:(lia)) as (i3 & A3 & B3 & C3).
  replace (k mod 4) with 0 in C0 by lia. replace ((k + 1) mod 4) with 1 in C1 by lia.
  replace ((k + 2) mod 4) with 2 in C2 by lia. replace ((k + 3) mod 4) with 3 in C3 by lia.
  rewrite C0, C1, C2, C3 in HR.
  apply readOne_val in HR; try (apply win_fld_byte; lia).
  destruct HR as (-> & HE & Hne & Hb).
  destruct (mixture m n i0 i1 i2 i3 Hm Hn A0 A1 A2 A3 B0 B1 B2 B3 (eq_sym HE)) as (v & Hv & Hv2 & E).
  split; [exact Hb|]. rewrite E in Hne |- *. rewrite val3_enc in Hne |- * by lia. lia.
Qed.

Theorem win_read m n mm c : 0 <= m -> n <= 4 -> win m n mm -> rd3 mm = Some c ->
  bytes3 c /\ m <= val3 c <= m + n /\ val3 c < 16777215.
Proof.
  intros Hm Hn HW. rewrite rd3_raw.
  destruct (readOne (raw mm 0) (raw mm 1) (raw mm 2) (raw mm 3)) as [d|] eqn:E.
  - intros H. apply some_inj in H. subst d. apply (win_readOne m n mm 0 c Hm Hn HW); auto.
  - intros H. apply (win_readOne m n mm 4 c Hm Hn HW); auto.
Qed.

(** How the window grows. *)
Lemma win_meq m n a b : meq a b -> win m n a -> win m n b.
Proof.
  intros H HW j Hj. destruct (HW j Hj) as (i & A & B & C). exists i. unfold raw in *. rewrite <- H. auto.
Qed.
Lemma win_mono m n n' mm : n <= n' -> win m n mm -> win m n' mm.
Proof. intros H HW j Hj. destruct (HW j Hj) as (i & A & B & C). exists i. repeat split; auto; lia. Qed.
Lemma win_W m n mm k v : 0 <= m -> win m n mm -> m <= v <= m + n + 1 -> v < 16777216 ->
  win m (n + 1) (applyw (firstn k (W (enc3 v))) mm).
Proof.
  intros Hm HW Hv Hv2 j Hj. destruct (raw_W k (enc3 v) mm j (enc3_bytes v ltac:(lia)) Hj) as [E|E].
  - destruct (HW j Hj) as (i & A & B & C). exists i. rewrite E. repeat split; auto; lia.
  - exists (v - m). rewrite E, val3_enc by lia. replace (m + (v - m)) with v by lia. repeat split; auto; lia.
Qed.
Lemma win_W_all v mm : 0 <= v < 16777216 -> win v 0 (applyw (W (enc3 v)) mm).
Proof.
  intros Hv j Hj. exists 0. rewrite raw_W_all by (auto; apply enc3_bytes; lia).
  rewrite val3_enc by lia. rewrite Z.add_0_r. repeat split; auto; lia.
Qed.
Lemma win_read0 v mm : 0 <= v < 16777215 -> win v 0 mm -> rd3 mm = Some (enc3 v).
Proof.
  intros Hv HW.
  assert (HR : forall j, 0 <= j < 8 -> raw mm j = fld (j mod 4) v).
  { intros j Hj. destruct (HW j Hj) as (i & A & B & C). replace (v + i) with v in C by lia. exact C. }
  rewrite <- (rd3_meq (applyw (W (enc3 v)) mm) mm).
  - rewrite rd3_W by (apply enc3_bytes; lia). rewrite val3_enc by lia. replace (v =? 16777215) with false by lia. reflexivity.
  - intros q Hq. rewrite <- (inv8_inv (applyw _ mm q)), <- (inv8_inv (mm q)). f_equal.
    pose proof (raw_W_all (enc3 v) mm (q - 104) (enc3_bytes v ltac:(lia)) ltac:(lia)) as H1.
    pose proof (HR (q - 104) ltac:(lia)) as H2. unfold raw in *.
    replace (104 + (q - 104)) with q in * by lia. rewrite val3_enc in H1 by lia. congruence.
Qed.
