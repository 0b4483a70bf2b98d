(** C06-C11: padding, message counters, raw secure frames. *)
From Verif Require Import Base CrcModel CrcSpec CrcProofs FrameModel FrameSpec FrameProofs FrameProps SecureModel.

(** * C06: padding *)

Lemma pad_exact data junk x rest :
  Zlen data + Zlen junk = 31 ->
  pad32BBuffer (Some (data ++ junk ++ [x] ++ rest)) (Zlen data) =
  Some (32, Some (data ++ repeat 0 (length junk) ++ [Zlen junk] ++ rest)).
Proof.
  intros HL. pose proof (Zlen_nonneg data). pose proof (Zlen_nonneg junk).
  unfold pad32BBuffer. replace (Zlen data >? 31) with false by lia.
  rewrite u8_id by (unfold byte; lia).
  unfold wr. rewrite app_assoc.
  rewrite (blit_app_mid (data ++ junk) [x]) by (rewrite ?Zlen_app; reflexivity || lia).
  cbn [bind]. replace (32 - 1 - Zlen data) with (Zlen junk) by lia.
  rewrite <- app_assoc.
  replace (Z.to_nat (Zlen junk)) with (length junk) by (unfold Zlen; lia).
  rewrite (blit_app_mid data junk) by (rewrite ?Zlen_repeat; reflexivity).
  reflexivity.
Qed.

(** A body of up to 31 bytes, in a buffer of at least 32 bytes with arbitrary
    stale contents after the body, is padded in place to 32 bytes: body kept,
    zeros, then the pad count; the rest of the buffer is untouched; and
    unpadding any buffer starting with those 32 bytes gives back the length. *)
Theorem C06_pad_roundtrip : forall data stale : list Z,
  Zlen data <= 31 -> 32 <= Zlen (data ++ stale) ->
  exists padded,
    pad32BBuffer (Some (data ++ stale)) (Zlen data) = Some (32, Some padded) /\
    Zlen padded = Zlen (data ++ stale) /\
    (forall i, 0 <= i < Zlen data -> znth padded i = znth data i) /\
    (forall i, Zlen data <= i < 31 -> znth padded i = 0) /\
    znth padded 31 = 31 - Zlen data /\
    (forall i, 32 <= i -> znth padded i = znth (data ++ stale) i) /\
    (forall l, Zlen l >= 32 -> (forall i, 0 <= i < 32 -> znth l i = znth padded i) ->
       unpad32BBuffer l = Some (Zlen data)).
Proof.
  intros data stale HL HB. pose proof (Zlen_nonneg data).
  rewrite Zlen_app in HB.
  destruct (list_split_at stale (31 - Zlen data)) as (junk & r & -> & Hj); [lia|].
  rewrite Zlen_app in HB.
  destruct r as [|x rest]; [rewrite Zlen_nil in HB; lia|].
  exists (data ++ repeat 0 (length junk) ++ [Zlen junk] ++ rest).
  change (x :: rest) with ([x] ++ rest). rewrite pad_exact by lia.
  assert (HJ : Z.of_nat (length junk) = Zlen junk) by reflexivity.
  assert (H31 : znth (data ++ repeat 0 (length junk) ++ [Zlen junk] ++ rest) 31 = 31 - Zlen data).
  { rewrite !znth_app, !Zlen_repeat by (rewrite ?Zlen_repeat; lia).
    replace (31 <? Zlen data) with false by lia.
    replace (31 - Zlen data <? Z.of_nat (length junk)) with false by lia.
    replace (31 - Zlen data - Z.of_nat (length junk) <? Zlen [Zlen junk]) with true
      by (rewrite Zlen_cons, Zlen_nil; lia).
    replace (31 - Zlen data - Z.of_nat (length junk)) with 0 by lia. change (znth [Zlen junk] 0) with (Zlen junk). lia. }
  split; [reflexivity|]. split; [|split; [|split; [|split; [|split]]]].
  - autorewrite with zlen. lia.
  - intros i Hi. rewrite znth_app by lia. replace (i <? Zlen data) with true by lia. reflexivity.
  - intros i Hi. rewrite znth_app by lia. replace (i <? Zlen data) with false by lia.
    rewrite znth_app by lia. rewrite Zlen_repeat. replace (i <? Zlen data) with false by lia.
    replace (i - Zlen data <? Z.of_nat (length junk)) with true by lia.
    apply znth_repeat. lia.
  - exact H31.
  - intros i Hi. rewrite !(znth_app data) by lia.
    replace (i <? Zlen data) with false by lia.
    rewrite (znth_app junk), (znth_app (repeat 0 (length junk))) by lia.
    rewrite Zlen_repeat.
    replace (i - Zlen data <? Z.of_nat (length junk)) with false by lia.
    replace (i - Zlen data <? Zlen junk) with false by lia.
    rewrite !(znth_app [_]) by lia. rewrite !Zlen_cons, !Zlen_nil.
    replace (i - Zlen data - Z.of_nat (length junk) <? 1 + 0) with false by lia.
    replace (i - Zlen data - Zlen junk <? 1 + 0) with false by lia.
    reflexivity.
  - intros l Hl Hlp. unfold unpad32BBuffer. rewrite rd_some by lia. cbn [bind].
    rewrite Hlp, H31 by lia. replace (31 - Zlen data >? 31) with false by lia.
    rewrite u8_id by (unfold byte; lia). f_equal. lia.
Qed.

(** Bodies over 31 bytes (and a NULL buffer) are refused, nothing is written. *)
Theorem C06_pad_refused : forall (buf : option (list Z)) datalen,
  31 < datalen \/ buf = None ->
  pad32BBuffer buf datalen = Some (0, buf).
Proof.
  intros [b|] n [H|H]; try discriminate; unfold pad32BBuffer; try reflexivity.
  replace (n >? 31) with true by lia. reflexivity.
Qed.

Example C06_nonvacuous :
  pad32BBuffer (Some ([1; 2; 3] ++ repeat 9 32)) 3
  = Some (32, Some ([1; 2; 3] ++ repeat 0 28 ++ [28] ++ [9; 9; 9])).
Proof. reflexivity. Qed.

(** * C08: counter comparison *)

Lemma memcmp_be a b : length a = length b -> Forall byte a -> Forall byte b ->
  (memcmp a b > 0 <-> be a > be b) /\ (memcmp a b = 0 <-> a = b) /\ -255 <= memcmp a b <= 255.
Proof.
  revert b. induction a as [|x a IH]; intros [|y b] HL Ha Hb; simpl in HL; try lia.
  - repeat split; intros; try reflexivity; try (cbn in *; lia).
  - inversion Ha as [|? ? Hx Ha']; subst. inversion Hb as [|? ? Hy Hb']; subst.
    cbn [memcmp]. rewrite !be_cons.
    assert (HZ : Zlen a = Zlen b) by (unfold Zlen; lia). rewrite HZ.
    pose proof (be_range _ Ha') as Ra. pose proof (be_range _ Hb') as Rb. rewrite HZ in Ra.
    assert (HP : 0 < 256 ^ Zlen b) by (apply Z.pow_pos_nonneg; [lia|apply Zlen_nonneg]).
    destruct (x =? y) eqn:E.
    + apply Z.eqb_eq in E. subst y. destruct (IH b ltac:(lia) Ha' Hb') as (I1 & I2 & I3).
      split; [|split; [|exact I3]].
      * rewrite I1. lia.
      * rewrite I2. split; [intros ->; reflexivity|intros H; inversion H; reflexivity].
    + apply Z.eqb_neq in E. unfold byte in *. split; [|split; [|lia]].
      * set (P := 256 ^ Zlen b) in *. nia.
      * split; intros H; [lia|]. inversion H; lia.
Qed.

Lemma be_inj a b : length a = length b -> Forall byte a -> Forall byte b ->
  be a = be b -> a = b.
Proof.
  intros HL Ha Hb HE. destruct (memcmp_be a b HL Ha Hb) as (H1 & H2 & H3).
  destruct (memcmp_be b a (eq_sym HL) Hb Ha) as (H4 & H5 & H6).
  apply H2. destruct (Z.lt_trichotomy (memcmp a b) 0) as [H|[H|H]]; [|exact H|].
  - assert (Hne : a <> b) by (intros <-; apply proj2 in H2; rewrite H2 in H by reflexivity; lia).
    exfalso. destruct (Z.lt_trichotomy (memcmp b a) 0) as [G|[G|G]].
    + (* both negative: impossible; compare first difference *)
      clear - H G. revert b H G. induction a; intros [|y b] H G; simpl in *; try lia.
      rewrite (Z.eqb_sym y a) in G. destruct (a =? y) eqn:E; [eapply IHa; eauto|lia].
    + apply H5 in G. congruence.
    + apply Z.lt_gt in G. apply H4 in G. lia.
  - apply Z.lt_gt in H. apply H1 in H. lia.
Qed.

(** msgcountercmp's sign is the numeric order of the 48-bit big-endian
    counters: positive iff greater, zero iff equal, negative iff smaller. *)
Theorem C08_cmp_numeric : forall c1 c2 : list Z,
  Zlen c1 = 6 -> Zlen c2 = 6 -> Forall byte c1 -> Forall byte c2 ->
  exists r, msgcountercmp c1 c2 = Some r /\
    (r > 0 <-> be c1 > be c2) /\ (r = 0 <-> be c1 = be c2) /\ (r < 0 <-> be c1 < be c2).
Proof.
  intros c1 c2 H1 H2 B1 B2. unfold msgcountercmp.
  rewrite !sub_full_prefix by lia. cbn [bind].
  assert (L1 : length c1 = 6%nat) by (unfold Zlen in H1; lia).
  assert (L2 : length c2 = 6%nat) by (unfold Zlen in H2; lia).
  rewrite !firstn_all2 by lia.
  destruct (memcmp_be c1 c2 ltac:(lia) B1 B2) as (M1 & M2 & M3).
  rewrite i16_id by lia. eexists. split; [reflexivity|]. split; [exact M1|].
  assert (M2' : memcmp c1 c2 = 0 <-> be c1 = be c2).
  { rewrite M2. split; [intros ->; reflexivity|]. apply be_inj; auto; lia. }
  split; [exact M2'|]. lia.
Qed.

Example C08_nonvacuous : msgcountercmp [0;0;1;0;0;0] [0;0;0;255;255;255] = Some 1.
Proof. reflexivity. Qed.

(** * C09: counter addition *)

Lemma six (c : list Z) : Zlen c = 6 -> exists a b d e f g, c = [a; b; d; e; f; g].
Proof.
  intros H. unfold Zlen in H.
  do 6 (destruct c as [|? c]; [cbn in H; lia|]). destruct c; [|cbn in H; lia].
  repeat eexists.
Qed.

Lemma ripple_step c i r v : rd c i = Some v ->
  ripple c (i :: r) =
  (do c' <- wr c i (u8 (v + 1));
   if 255 =? v then (if u8 (v + 1) =? 0 then ripple c' r else Some c') else
   if u8 (v + 1) =? 0 then ripple c' r else Some c').
Proof.
  intros H. cbn [ripple]. rewrite H. cbn [bind].
  destruct (wr c i (u8 (v + 1))); cbn [bind]; auto.
  rewrite (Z.eqb_sym 0). destruct (255 =? v), (u8 (v + 1) =? 0); reflexivity.
Qed.

Lemma u8_succ v : byte v -> u8 (v + 1) = if v =? 255 then 0 else v + 1.
Proof.
  intros H. unfold byte in H. destruct (v =? 255) eqn:E.
  - apply Z.eqb_eq in E. subst. reflexivity.
  - rewrite u8_id; [reflexivity|unfold byte; lia].
Qed.

(** Exact behaviour for every counter and delta. *)
Theorem C09_add_behaviour : forall (c : list Z) (delta : Z),
  Zlen c = 6 -> Forall byte c -> byte delta ->
  exists ok c', msgcounteradd c delta = Some (ok, c') /\ Zlen c' = 6 /\ Forall byte c' /\
    (2 ^ 48 <= be c + delta -> ok = false /\ c' = c) /\
    (be c + delta < 2 ^ 48 -> ok = true /\
       be c' = be c / 2 ^ 40 * 2 ^ 40 + (be c mod 2 ^ 40 + delta) mod 2 ^ 40).
Proof.
  intros c delta HL HB HD.
  destruct (six c HL) as (b0 & b1 & b2 & b3 & b4 & b5 & ->).
  repeat match goal with H : Forall byte (_ :: _) |- _ => inversion H; clear H; subst end.
  assert (Hall : Forall byte [b0; b1; b2; b3; b4; b5]) by (repeat (constructor; [assumption|]); constructor).
  unfold byte in *.
  assert (Hbe : forall x0 x1 x2 x3 x4 x5, be [x0; x1; x2; x3; x4; x5] =
    ((((x0 * 256 + x1) * 256 + x2) * 256 + x3) * 256 + x4) * 256 + x5)
    by (intros; unfold be; cbn [fold_left]; lia).
  assert (HP40 : 2 ^ 40 = 1099511627776) by reflexivity.
  assert (HP48 : 2 ^ 48 = 281474976710656) by reflexivity.
  rewrite HP40, HP48.
  assert (Hdiv : be [b0; b1; b2; b3; b4; b5] / 1099511627776 = b0).
  { symmetry. rewrite Hbe. apply Z.div_unique with (be [0; b1; b2; b3; b4; b5]); rewrite ?Hbe; lia. }
  assert (Hmod : be [b0; b1; b2; b3; b4; b5] mod 1099511627776 = be [0; b1; b2; b3; b4; b5]).
  { symmetry. rewrite Hbe. apply Z.mod_unique with b0; rewrite ?Hbe; lia. }
  rewrite Hdiv, Hmod.
  unfold msgcounteradd.
  destruct (0 =? delta) eqn:E0.
  { apply Z.eqb_eq in E0. subst delta. exists true, [b0; b1; b2; b3; b4; b5].
    split; [reflexivity|]. split; [reflexivity|]. split; [exact Hall|].
    split; intros HX; [rewrite Hbe in HX; lia|]. split; [reflexivity|].
    rewrite Z.mod_small by (rewrite Hbe; lia). rewrite !Hbe. lia. }
  apply Z.eqb_neq in E0.
  change (rd [b0; b1; b2; b3; b4; b5] 5) with (Some b5). cbn [bind].
  assert (Hu : u8 (b5 + delta) = if 256 <=? b5 + delta then b5 + delta - 256 else b5 + delta).
  { unfold u8. destruct (256 <=? b5 + delta) eqn:E; symmetry.
    - apply Z.mod_unique with 1; lia.
    - apply Z.mod_unique with 0; lia. }
  rewrite Hu.
  destruct (256 <=? b5 + delta) eqn:E1.
  2:{ replace (b5 + delta >? b5) with true by lia.
      exists true, [b0; b1; b2; b3; b4; b5 + delta].
      split; [reflexivity|]. split; [reflexivity|].
      split; [repeat (constructor; [unfold byte; lia|]); constructor|].
      split; intros HX; [rewrite Hbe in HX; lia|]. split; [reflexivity|].
      rewrite Z.mod_small by (rewrite Hbe; lia). rewrite !Hbe. lia. }
  replace (b5 + delta - 256 >? b5) with false by lia.
  change (sub [b0; b1; b2; b3; b4; b5] 0 5) with (Some [b0; b1; b2; b3; b4]). cbn [bind forallb].
  destruct ((255 =? b0) && ((255 =? b1) && ((255 =? b2) && ((255 =? b3) && ((255 =? b4) && true))))) eqn:EF.
  { exists false, [b0; b1; b2; b3; b4; b5].
    split; [reflexivity|]. split; [reflexivity|]. split; [exact Hall|].
    assert (b0 = 255 /\ b1 = 255 /\ b2 = 255 /\ b3 = 255 /\ b4 = 255) by lia.
    split; intros HX; [auto|]. rewrite Hbe in HX. lia. }
  change (wr [b0; b1; b2; b3; b4; b5] 5 (b5 + delta - 256))
    with (Some [b0; b1; b2; b3; b4; b5 + delta - 256]). cbn [bind ripple].
  change (rd [b0; b1; b2; b3; b4; b5 + delta - 256] 4) with (Some b4). cbn [bind].
  rewrite u8_succ by (unfold byte; lia).
  assert (Hfin : forall x1 x2 x3 x4,
     0 <= x1 < 256 -> 0 <= x2 < 256 -> 0 <= x3 < 256 -> 0 <= x4 < 256 ->
     be [0; x1; x2; x3; x4; b5 + delta - 256] =
       (be [0; b1; b2; b3; b4; b5] + delta) mod 1099511627776 ->
     exists ok c', Some (true, [b0; x1; x2; x3; x4; b5 + delta - 256]) = Some (ok, c') /\ Zlen c' = 6 /\
       Forall byte c' /\
       (281474976710656 <= be [b0; b1; b2; b3; b4; b5] + delta -> ok = false /\ c' = [b0; b1; b2; b3; b4; b5]) /\
       (be [b0; b1; b2; b3; b4; b5] + delta < 281474976710656 -> ok = true /\
         be c' = b0 * 1099511627776 + (be [0; b1; b2; b3; b4; b5] + delta) mod 1099511627776)).
  { intros x1 x2 x3 x4 ? ? ? ? HE. eexists _, _. split; [reflexivity|]. split; [reflexivity|].
    split; [repeat (constructor; [unfold byte; lia|]); constructor|].
    split; intros HH.
    - exfalso. rewrite Hbe in HH. lia.
    - split; [reflexivity|]. rewrite <- HE. rewrite !Hbe. lia. }
  destruct (b4 =? 255) eqn:E4.
  2:{ change (wr [b0; b1; b2; b3; b4; b5 + delta - 256] 4 (b4 + 1))
        with (Some [b0; b1; b2; b3; b4 + 1; b5 + delta - 256]). cbn [bind].
      replace (0 =? b4 + 1) with false by lia. cbn [negb bind]. apply Hfin; try lia.
      rewrite Z.mod_small; rewrite !Hbe; lia. }
  change (wr [b0; b1; b2; b3; b4; b5 + delta - 256] 4 0)
        with (Some [b0; b1; b2; b3; 0; b5 + delta - 256]). cbn [bind].
  change (0 =? 0) with true. cbn [negb].
  change (rd [b0; b1; b2; b3; 0; b5 + delta - 256] 3) with (Some b3). cbn [bind].
  rewrite u8_succ by (unfold byte; lia).
  destruct (b3 =? 255) eqn:E3.
  2:{ change (wr [b0; b1; b2; b3; 0; b5 + delta - 256] 3 (b3 + 1))
        with (Some [b0; b1; b2; b3 + 1; 0; b5 + delta - 256]). cbn [bind].
      replace (0 =? b3 + 1) with false by lia. cbn [negb bind]. apply Hfin; try lia.
      rewrite Z.mod_small; rewrite !Hbe; lia. }
  change (wr [b0; b1; b2; b3; 0; b5 + delta - 256] 3 0)
        with (Some [b0; b1; b2; 0; 0; b5 + delta - 256]). cbn [bind].
  change (0 =? 0) with true. cbn [negb].
  change (rd [b0; b1; b2; 0; 0; b5 + delta - 256] 2) with (Some b2). cbn [bind].
  rewrite u8_succ by (unfold byte; lia).
  destruct (b2 =? 255) eqn:E2.
  2:{ change (wr [b0; b1; b2; 0; 0; b5 + delta - 256] 2 (b2 + 1))
        with (Some [b0; b1; b2 + 1; 0; 0; b5 + delta - 256]). cbn [bind].
      replace (0 =? b2 + 1) with false by lia. cbn [negb bind]. apply Hfin; try lia.
      rewrite Z.mod_small; rewrite !Hbe; lia. }
  change (wr [b0; b1; b2; 0; 0; b5 + delta - 256] 2 0)
        with (Some [b0; b1; 0; 0; 0; b5 + delta - 256]). cbn [bind].
  change (0 =? 0) with true. cbn [negb].
  change (rd [b0; b1; 0; 0; 0; b5 + delta - 256] 1) with (Some b1). cbn [bind].
  rewrite u8_succ by (unfold byte; lia).
  destruct (b1 =? 255) eqn:E1'.
  2:{ change (wr [b0; b1; 0; 0; 0; b5 + delta - 256] 1 (b1 + 1))
        with (Some [b0; b1 + 1; 0; 0; 0; b5 + delta - 256]). cbn [bind].
      replace (0 =? b1 + 1) with false by lia. cbn [negb bind]. apply Hfin; try lia.
      rewrite Z.mod_small; rewrite !Hbe; lia. }
  change (wr [b0; b1; 0; 0; 0; b5 + delta - 256] 1 0)
        with (Some [b0; 0; 0; 0; 0; b5 + delta - 256]). cbn [bind].
  change (0 =? 0) with true. cbn [negb bind].
  apply Hfin; try lia.
  replace (be [0; b1; b2; b3; b4; b5] + delta) with (be [0; 0; 0; 0; 0; b5 + delta - 256] + 1 * 1099511627776)
    by (rewrite !Hbe; lia).
  rewrite Z.mod_add, Z.mod_small; rewrite ?Hbe; lia.
Qed.

(** The full claim, for every counter that does not carry out of its low 40
    bits (missing: the carry into the most significant byte, see the
    refutation below). *)
Theorem C09_add_partial : forall (c : list Z) (delta : Z),
  Zlen c = 6 -> Forall byte c -> byte delta ->
  (be c mod 2 ^ 40 + delta < 2 ^ 40 \/ 2 ^ 48 <= be c + delta) ->
  exists ok c', msgcounteradd c delta = Some (ok, c') /\
    ((be c + delta < 2 ^ 48 /\ ok = true /\ be c' = be c + delta) \/
     (2 ^ 48 <= be c + delta /\ ok = false /\ c' = c)).
Proof.
  intros c delta HL HB HD HR.
  destruct (C09_add_behaviour c delta HL HB HD) as (ok & c' & H1 & H2 & H3 & H4 & H5).
  exists ok, c'. split; [exact H1|].
  destruct (Z.lt_ge_cases (be c + delta) (2 ^ 48)) as [Hlt|Hge].
  - left. destruct (H5 Hlt) as [-> HE]. split; [exact Hlt|]. split; [reflexivity|].
    destruct HR as [HR|HR]; [|lia].
    unfold byte in HD. rewrite Z.mod_small in HE by (pose proof (Z.mod_pos_bound (be c) (2 ^ 40)); lia).
    rewrite HE. pose proof (Z.div_mod (be c) (2 ^ 40)). lia.
  - right. destruct (H4 Hge) as [-> ->]. auto.
Qed.

(** The unrestricted claim is false: the carry loop stops before byte 0, so
    00FFFFFFFFFF + 1 reports success and yields 0. *)
Theorem C09_add_refuted : ~ (forall (c : list Z) (delta : Z),
  Zlen c = 6 -> Forall byte c -> byte delta -> be c + delta < 2 ^ 48 ->
  exists c', msgcounteradd c delta = Some (true, c') /\ be c' = be c + delta).
Proof.
  intros H. destruct (H [0; 255; 255; 255; 255; 255] 1) as (c' & H1 & H2).
  - reflexivity.
  - repeat (constructor; [unfold byte; lia|]); constructor.
  - unfold byte; lia.
  - reflexivity.
  - change (msgcounteradd [0; 255; 255; 255; 255; 255] 1)
      with (Some (true, [0; 0; 0; 0; 0; 0])) in H1.
    inversion H1. subst c'. discriminate H2.
Qed.

Example C09_nonvacuous : msgcounteradd [0; 0; 1; 2; 255; 250] 9 = Some (true, [0; 0; 1; 3; 0; 3]).
Proof. reflexivity. Qed.
