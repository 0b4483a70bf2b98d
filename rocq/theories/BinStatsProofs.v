(** Binary stats codec: C49. *)
From Verif Require Import Base CrcModel CrcLin CrcSpec CrcProofs BinStatsModel BinStatsSpec.

(** ** Reads of an explicit prefix *)
Fixpoint rds (buf : list Z) (i : Z) (w : list Z) : Prop :=
  match w with [] => True | x :: w => rd buf i = Some x /\ rds buf (i + 1) w end.

Lemma rd_cons a l i : 1 <= i -> rd (a :: l) i = rd l (i - 1).
Proof.
  intros. unfold rd. rewrite Zlen_cons.
  replace (i <? 1 + Zlen l) with (i - 1 <? Zlen l) by lia.
  replace (0 <=? i) with (0 <=? i - 1) by lia.
  rewrite znth_cons by lia. replace (i =? 0) with false by lia. reflexivity.
Qed.
Lemma rd_nil i : rd [] i = None.
Proof. unfold rd. change (Zlen (@nil Z)) with 0. destruct (0 <=? i) eqn:?, (i <? 0) eqn:?; auto; lia. Qed.
Lemma rd_cons0 a l : rd (a :: l) 0 = Some a.
Proof. rewrite rd_some; [reflexivity|]. rewrite Zlen_cons. pose proof (Zlen_nonneg l). lia. Qed.
Lemma rds_cons a l i w : 1 <= i -> rds (a :: l) i w <-> rds l (i - 1) w.
Proof.
  revert i. induction w; intros i Hi; cbn [rds]; [tauto|].
  rewrite rd_cons by lia. rewrite (IHw (i + 1)) by lia.
  replace (i + 1 - 1) with (i - 1 + 1) by lia. tauto.
Qed.
Lemma rds_firstn w : forall buf, rds buf 0 w <-> firstn (length w) buf = w.
Proof.
  induction w; intros buf; cbn [rds length]; [simpl; tauto|].
  destruct buf as [|b buf].
  - rewrite rd_nil. simpl. split; [intros [? _]|]; discriminate.
  - rewrite rd_cons0, firstn_cons. change (0 + 1) with 1. rewrite rds_cons by lia.
    change (1 - 1) with 0. rewrite IHw. split.
    + intros [H1 H2]. apply some_inj in H1. congruence.
    + intros H. injection H as -> H. rewrite H. auto.
Qed.
Lemma rds_app buf i w1 w2 : rds buf i (w1 ++ w2) <-> rds buf i w1 /\ rds buf (i + Zlen w1) w2.
Proof.
  revert i. induction w1; intros i; cbn [app rds].
  - change (Zlen (@nil Z)) with 0. replace (i + 0) with i by lia. tauto.
  - rewrite IHw1, Zlen_cons. replace (i + (1 + Zlen w1)) with (i + 1 + Zlen w1) by lia. tauto.
Qed.
Lemma rds_sub buf w : rds buf 0 w -> sub buf 0 (Zlen w) = Some w.
Proof.
  intros H. apply rds_firstn in H.
  assert (Zlen w <= Zlen buf).
  { unfold Zlen. rewrite <- H. rewrite firstn_length. lia. }
  rewrite sub_some by (try lia; apply Zlen_nonneg). cbn [Z.to_nat skipn].
  unfold Zlen. rewrite Nat2Z.id. rewrite H. reflexivity.
Qed.

(** ** Bit facts *)
Definition hdr_chk (h : Z) : bool :=
  Bool.eqb ((112 =? Z.land h 112) && (0 =? Z.land h 128)) ((112 <=? h) && (h <? 128)) &&
  Bool.eqb (negb (0 =? Z.land h 4)) (Z.testbit h 2) &&
  Bool.eqb (negb (0 =? Z.land h 2)) (Z.testbit h 1) &&
  Bool.eqb (64 =? Z.land h 224) ((64 <=? h) && (h <? 96)) &&
  Bool.eqb (96 =? Z.land h 224) ((96 <=? h) && (h <? 128)) &&
  Bool.eqb (0 =? Z.land 128 h) (h <? 128) &&
  Bool.eqb (0 =? Z.land h 128) (h <? 128) &&
  Bool.eqb (negb (0 =? Z.land h 8)) (Z.testbit h 3) &&
  Bool.eqb (negb (0 =? Z.land h 16)) (Z.testbit h 4) &&
  (Z.land h 3 =? h mod 4) && (Z.land h 15 =? h mod 16) &&
  (Z.lor h 128 =? Z.max h (128 + h mod 128)) && (Z.lor h 0 =? h) && (Z.land h 127 =? h mod 128).
Lemma hdr_sweep : below 256 hdr_chk = true.
Proof. vm_compute. reflexivity. Qed.
Lemma hdr_facts h : byte h ->
  (112 =? Z.land h 112) && (0 =? Z.land h 128) = (112 <=? h) && (h <? 128) /\
  negb (0 =? Z.land h 4) = Z.testbit h 2 /\ negb (0 =? Z.land h 2) = Z.testbit h 1 /\
  (64 =? Z.land h 224) = (64 <=? h) && (h <? 96) /\
  (96 =? Z.land h 224) = (96 <=? h) && (h <? 128) /\
  (0 =? Z.land 128 h) = (h <? 128) /\ (0 =? Z.land h 128) = (h <? 128) /\
  negb (0 =? Z.land h 8) = Z.testbit h 3 /\ negb (0 =? Z.land h 16) = Z.testbit h 4 /\
  Z.land h 3 = h mod 4 /\ Z.land h 15 = h mod 16 /\
  Z.lor h 128 = Z.max h (128 + h mod 128) /\ Z.lor h 0 = h /\ Z.land h 127 = h mod 128.
Proof.
  intros H. pose proof (below_spec _ _ hdr_sweep h H) as S. unfold hdr_chk in S.
  bool_to_prop. rewrite !Bool.eqb_true_iff in *. auto 20.
Qed.

Lemma lor_shift b1 r : 0 <= b1 -> 0 <= r < 16 -> Z.lor (Z.shiftl b1 4) r = 16 * b1 + r.
Proof.
  intros H1 H2. rewrite <- Z.add_nocarry_lxor || idtac.
  apply Z.bits_inj'. intros n Hn.
  rewrite Z.lor_spec, Z.shiftl_spec by lia.
  destruct (Z.lt_ge_cases n 4).
  - rewrite Z.testbit_neg_r by lia. cbn [orb].
    rewrite <- (Z.mod_pow2_bits_low (16 * b1 + r) 4 n) by lia. f_equal. change (2 ^ 4) with 16.
    apply Z.mod_unique with b1; lia.
  - replace (Z.testbit r n) with false.
    + rewrite orb_false_r.
      replace n with (n - 4 + 4) at 2 by lia.
      rewrite <- Z.div_pow2_bits by lia. f_equal. change (2 ^ 4) with 16.
      apply Z.div_unique with r; lia.
    + symmetry. destruct (Z.eq_dec r 0) as [->|]; [apply Z.bits_0|].
      apply Z.bits_above_log2; [lia|]. assert (Z.log2 r < 4); [|lia].
      apply Z.log2_lt_pow2; lia.
Qed.

Lemma extract_eq b0 b1 : byte b0 -> 0 <= b1 ->
  extract_min b0 b1 = mkMin (16 * b1 + b0 mod 16 - 320) (Z.testbit b0 4).
Proof.
  intros H H1. unfold extract_min.
  destruct (hdr_facts b0 H) as (_&_&_&_&_&_&_&_&->&_&->&_).
  rewrite lor_shift by (try lia; apply Z.mod_pos_bound; lia). f_equal. 
Qed.

(** ** The decoder accepts exactly the grammar *)
Lemma rd_byte buf i x : Forall byte buf -> rd buf i = Some x -> byte x.
Proof. intros HB H. apply rd_inv in H. destruct H as [H ->]. apply Forall_znth; auto. Qed.

Lemma f_hdr h : byte h -> (112 =? Z.land h 112) = true -> (0 =? Z.land h 128) = true -> 112 <= h < 128.
Proof. intros H E1 E2. destruct (hdr_facts h H) as (F&_). rewrite E1, E2 in F. clear - F. lia. Qed.
Lemma f_b2 h : byte h -> negb (0 =? Z.land h 4) = Z.testbit h 2.
Proof. intros H. apply (hdr_facts h H). Qed.
Lemma f_b1 h : byte h -> negb (0 =? Z.land h 2) = Z.testbit h 1.
Proof. intros H. apply (hdr_facts h H). Qed.
Lemma f_b3 h : byte h -> negb (0 =? Z.land h 8) = Z.testbit h 3.
Proof. intros H. apply (hdr_facts h H). Qed.
Lemma f_temp h : byte h -> (64 =? Z.land h 224) = true -> 64 <= h < 96.
Proof. intros H E. destruct (hdr_facts h H) as (_&_&_&F&_). rewrite E in F. clear - F. lia. Qed.
Lemma f_flags h : byte h -> (96 =? Z.land h 224) = true -> 96 <= h < 128.
Proof. intros H E. destruct (hdr_facts h H) as (_&_&_&_&F&_). rewrite E in F. clear - F. lia. Qed.
Lemma f_msb h : byte h -> (0 =? Z.land 128 h) = true -> 0 <= h < 128.
Proof. intros H E. destruct (hdr_facts h H) as (_&_&_&_&_&F&_). rewrite E in F. unfold byte in H. clear - F H. lia. Qed.
Lemma f_land3 h : byte h -> Z.land h 3 = h mod 4.
Proof. intros H. apply (hdr_facts h H). Qed.
Lemma f_or h (t : bool) : byte h -> Z.lor h (if t then 128 else 0) = if t then Z.max h (128 + h mod 128) else h.
Proof. intros H. destruct t; apply (hdr_facts h H). Qed.

Ltac step H :=
  match type of H with
  | context [bind (rd ?b ?i) _] =>
      let x := fresh "x" in let E := fresh "R" in
      destruct (rd b i) as [x|] eqn:E; cbn [bind] in H; [|discriminate H]
  end.

Theorem decode_accepts_only_wire : forall buf buflen c n,
  Forall byte buf -> decode_full buf buflen = Some (Some (c, n)) ->
  3 <= n <= buflen /\ n <= Zlen buf /\ full_wire (firstn (Z.to_nat n) buf) c.
Proof.
  intros buf buflen c n HB H. unfold decode_full in H.
  destruct (buflen <? 3) eqn:E3; [discriminate H|].
  step H. pose proof (rd_byte _ _ _ HB R) as Bx.
  destruct (negb (112 =? Z.land x 112)) eqn:E1; [discriminate H|].
  destruct (negb (0 =? Z.land x 128)) eqn:E2; [discriminate H|].
  apply negb_false_iff in E1, E2. pose proof (f_hdr x Bx E1 E2) as Hx. clear E1 E2.
  rewrite (f_b2 x Bx), (f_b1 x Bx) in H.
  (* ID section *)
  assert (HID : exists c1 b1 idb, 
     (b1 = 1 + Zlen idb /\ rds buf 1 idb /\ (b1 = 1 \/ b1 = 3) /\ 
      containsTempAndPower c1 = false /\ containsAmbL c1 = false /\ tempAndPower c1 = mkMin 0 false /\ ambL c1 = 0 /\
     ((containsID c1 = true /\ Z.testbit x 2 = true /\
      exists x0 x1, idb = [x0; x1] /\
        id0 c1 = (if Z.testbit x 1 then Z.max x0 (128 + x0 mod 128) else x0) /\
        id1 c1 = (if Z.testbit x 1 then Z.max x1 (128 + x1 mod 128) else x1)) \/
     (containsID c1 = false /\ Z.testbit x 2 = false /\ idb = [] /\ id0 c1 = 0 /\ id1 c1 = 0))) /\
     (if Z.testbit x 2
         then
          bind (rd buf 1) (fun x0 : Z =>
           bind (rd buf (1 + 1)) (fun x1 : Z =>
             Some
               ({|
                  containsID := true;
                  containsTempAndPower := containsTempAndPower cleared;
                  containsAmbL := containsAmbL cleared;
                  id0 := Z.lor x0 (if Z.testbit x 1 then 128 else 0);
                  id1 := Z.lor x1 (if Z.testbit x 1 then 128 else 0);
                  tempAndPower := tempAndPower cleared;
                  ambL := ambL cleared;
                  occ := occ cleared
                |}, 1 + 2)))
         else Some (cleared, 1)) = Some (c1, b1)).
  { destruct (Z.testbit x 2) eqn:T2.
    - change (1 + 1) with 2 in *. change (1 + 2) with 3 in *.
      destruct (rd buf 1) as [x0|] eqn:R1; cbn [bind] in H |- *; [|discriminate H].
      destruct (rd buf 2) as [x1|] eqn:R2; cbn [bind] in H |- *; [|discriminate H].
      rewrite (f_or x0 _ (rd_byte _ _ _ HB R1)), (f_or x1 _ (rd_byte _ _ _ HB R2)) in *.
      eexists _, 3, [x0; x1]. split; [|reflexivity].
      repeat split; auto.
      left. repeat split; auto. exists x0, x1. split; [reflexivity|]. cbn [id0 id1]. auto.
    - exists cleared, 1, []. split; [|reflexivity]. repeat split; auto.
      right. auto. }
  destruct HID as (c1 & b1 & idb & (Hb1 & Rid & Hb13 & HcT & HcA & HcTP & HcAL & HID) & EQ).
  rewrite EQ in H. cbn [bind] in H. clear EQ.
  destruct (buflen <=? b1) eqn:E4; [discriminate H|].
  step H. rename x0 into h. rename R0 into Rh.
  pose proof (rd_byte _ _ _ HB Rh) as Bh.
  (* temperature section *)
  assert (HT : exists c2 b2 tpb,
     (b2 = b1 + Zlen tpb /\ rds buf b1 tpb /\ containsID c2 = containsID c1 /\
      id0 c2 = id0 c1 /\ id1 c2 = id1 c1 /\ containsAmbL c2 = false /\ ambL c2 = 0 /\
     ((containsTempAndPower c2 = true /\
      exists t0 t1, tpb = [t0; t1] /\ 64 <= t0 < 96 /\ 0 <= t1 < 128 /\
        tempAndPower c2 = mkMin (16 * t1 + t0 mod 16 - 320) (Z.testbit t0 4)) \/
     (containsTempAndPower c2 = false /\ tpb = [] /\ tempAndPower c2 = mkMin 0 false))) /\
     match (if 64 =? Z.land h 224 then
       if buflen - 1 <=? b1 then Some None else
       do h1 <- rd buf (b1 + 1);
       if negb (0 =? Z.land 128 h1) then Some None else
       Some (Some (mkFull (containsID c1) true (containsAmbL c1) (id0 c1) (id1 c1)
                     (extract_min h h1) (ambL c1) (occ c1), b1 + 2))
     else Some (Some (c1, b1))) with Some (Some q) => q = (c2, b2) | _ => True end).
  { destruct (64 =? Z.land h 224) eqn:E5.
    - destruct (buflen - 1 <=? b1) eqn:E6; [discriminate H|].
      destruct (rd buf (b1 + 1)) as [h1|] eqn:R1; cbn [bind] in H |- *; [|discriminate H].
      destruct (negb (0 =? Z.land 128 h1)) eqn:E7; [discriminate H|].
      pose proof (rd_byte _ _ _ HB R1) as Bh1.
      eexists _, (b1 + 2), [h; h1]. split; [|reflexivity].
      cbn [containsID id0 id1 containsAmbL ambL containsTempAndPower tempAndPower rds].
      apply negb_false_iff in E7.
      split; [reflexivity|]. repeat split; auto.
      left. split; [reflexivity|]. exists h, h1. split; [reflexivity|]. split; [exact (f_temp _ Bh E5)|].
      pose proof (f_msb _ Bh1 E7). split; [assumption|].
      apply extract_eq; [exact Bh|apply Bh1].
    - exists c1, b1, []. split; [|reflexivity]. 
      change (Zlen (@nil Z)) with 0. repeat split; auto; try lia. }
  destruct HT as (c2 & b2 & tpb & (Hb2 & Rtp & HcI2 & Hi0 & Hi1 & HcA2 & HcAL2 & HT) & EQ).
  match type of H with
  | (bind ?m _) = _ => destruct m as [[[? ?]|]|]; cbn [bind] in H; try discriminate H
  end.
  apply pair_inj in EQ. destruct EQ as [-> ->].
  destruct (buflen <=? b2) eqn:E8; [discriminate H|].
  destruct (rd buf b2) as [fl|] eqn:Rf; cbn [bind] in H; [|discriminate H].
  pose proof (rd_byte _ _ _ HB Rf) as Bf.
  destruct (negb (96 =? Z.land fl 224)) eqn:E9; [discriminate H|].
  apply negb_false_iff in E9.
  cbn [containsID id0 id1 containsAmbL ambL containsTempAndPower tempAndPower occ] in H.
  pose proof (f_flags _ Bf E9) as Hfl. clear E9.
  rewrite (f_land3 _ Bf), (f_b3 _ Bf) in H.
  match type of H with
  | (bind ?m _) = _ =>
    assert (HA : exists c3 b3 amb,
     (b3 = b2 + 1 + Zlen amb /\ rds buf (b2 + 1) amb /\ containsID c3 = containsID c1 /\
      id0 c3 = id0 c1 /\ id1 c3 = id1 c1 /\
      containsTempAndPower c3 = containsTempAndPower c2 /\ tempAndPower c3 = tempAndPower c2 /\
      occ c3 = fl mod 4 /\
    ((containsAmbL c3 = true /\ Z.testbit fl 3 = true /\
      amb = [ambL c3] /\ 1 <= ambL c3 <= 254) \/
     (containsAmbL c3 = false /\ Z.testbit fl 3 = false /\ amb = [] /\ ambL c3 = 0))) /\
     match m with Some (Some q) => q = (c3, b3) | _ => True end)
  end.
  { destruct (Z.testbit fl 3) eqn:E10.
    - destruct (buflen <=? b2 + 1) eqn:E11; [discriminate H|].
      destruct (rd buf (b2 + 1)) as [a|] eqn:Ra; cbn [bind] in H |- *; [|discriminate H].
      destruct ((0 =? a) || (a =? 255)) eqn:E12; [discriminate H|].
      pose proof (rd_byte _ _ _ HB Ra) as Ba. unfold byte in Ba.
      eexists _, (b2 + 1 + 1), [a]. split; [|reflexivity].
      cbn [containsID id0 id1 containsAmbL ambL containsTempAndPower tempAndPower occ rds].
      split; [reflexivity|]. split; [auto|].
      split; [congruence|]. split; [congruence|]. split; [congruence|].
      split; [reflexivity|]. split; [reflexivity|]. split; [congruence|].
      left. repeat split; auto; lia.
    - eexists _, (b2 + 1), []. split; [|reflexivity].
      cbn [containsID id0 id1 containsAmbL ambL containsTempAndPower tempAndPower occ rds].
      change (Zlen (@nil Z)) with 0.
      split; [lia|]. split; [auto|].
      split; [congruence|]. split; [congruence|]. split; [congruence|].
      split; [reflexivity|]. split; [reflexivity|]. split; [congruence|].
      right. repeat split; auto. }
  destruct HA as (c3 & b3 & amb & (Hb3 & Ram & HcI3 & Hi03 & Hi13 & HcT3 & HcTP3 & Hocc & HA) & EQ).
  match type of H with
  | (bind ?m _) = _ => destruct m as [[[? ?]|]|]; cbn [bind] in H; try discriminate H
  end.
  apply pair_inj in EQ. destruct EQ as [-> ->].
  destruct (buflen <=? b3) eqn:E13; [discriminate H|].
  set (body := [x] ++ idb ++ tpb ++ [fl] ++ amb).
  assert (RB : rds buf 0 body).
  { unfold body. rewrite !rds_app. cbn [rds]. change (Zlen [x]) with 1. change (Zlen [fl]) with 1.
    replace (0 + 1 + Zlen idb) with b1 by (clear - Hb1; lia). rewrite <- Hb2.
    repeat split; auto. }
  assert (LB : Zlen body = b3).
  { unfold body. rewrite !Zlen_app. change (Zlen [x]) with 1. change (Zlen [fl]) with 1. clear - Hb1 Hb2 Hb3. lia. }
  pose proof (rds_sub _ _ RB) as RS. rewrite LB in RS. rewrite RS in H. cbn [bind] in H.
  destruct (rd buf b3) as [y|] eqn:Ry; cbn [bind] in H; [|discriminate H].
  destruct (negb (crc7_run 127 body =? y)) eqn:E14; [discriminate H|].
  bool_to_prop. apply some_inj in H. apply some_pair_inj in H. destruct H as [<- <-].
  assert (Hw : rds buf 0 (body ++ [y])).
  { rewrite rds_app. split; [exact RB|]. cbn [rds]. rewrite LB, Z.add_0_l. auto. }
  pose proof (proj1 (rds_firstn _ _) Hw) as HF.
  assert (LW : length (body ++ [y]) = Z.to_nat (b3 + 1)).
  { rewrite app_length. unfold Zlen in LB. cbn [length]. clear - LB. lia. }
  rewrite LW in HF.
  assert (Zlen (body ++ [y]) <= Zlen buf).
  { rewrite <- HF. rewrite Zlen_firstn. clear. lia. }
  rewrite Zlen_app, LB in H. change (Zlen [y]) with 1 in H.
  pose proof (Zlen_nonneg idb). pose proof (Zlen_nonneg tpb). pose proof (Zlen_nonneg amb).
  split; [clear - E13 Hb3 Hb2 Hb1 H H0 H1 H2; lia|]. split; [clear - H; lia|].
  rewrite HF. exists x, idb, tpb, fl, amb. cbv zeta. fold body.
  split; [congruence|]. split; [exact Hx|]. split; [exact Hfl|]. split; [exact Hocc|].
  split; [|split].
  - rewrite HcI3, Hi03, Hi13. exact HID.
  - rewrite HcT3, HcTP3. exact HT.
  - exact HA.
Qed.

(** The decoder never reads outside the first [buflen] bytes. *)
Theorem decode_no_overread : forall buf buflen, buflen <= Zlen buf -> decode_full buf buflen <> None.
Proof.
  intros buf buflen HL. unfold decode_full.
  destruct (buflen <? 3) eqn:E3; [discriminate|]. apply Z.ltb_ge in E3.
  rewrite (rd_some buf 0) by lia. cbn [bind].
  destruct (negb (112 =? _)); [discriminate|]. destruct (negb (0 =? Z.land _ 128)); [discriminate|].
  change (1 + 1) with 2. rewrite (rd_some buf 1), (rd_some buf 2) by lia. cbn [bind].
  match goal with |- bind ?m _ <> None =>
    assert (HM : exists c1 b1, m = Some (c1, b1) /\ (b1 = 1 \/ b1 = 3)) end.
  { destruct (negb (0 =? _)); eexists _, _; (split; [reflexivity|]); auto. }
  destruct HM as (c1 & b1 & -> & Hb1). cbn [bind].
  destruct (buflen <=? b1) eqn:E4; [discriminate|]. apply Z.leb_gt in E4.
  rewrite (rd_some buf b1) by lia. cbn [bind].
  match goal with |- bind ?m _ <> None =>
    assert (HM : m = Some None \/ exists c2 b2, m = Some (Some (c2, b2)) /\ 0 <= b2) end.
  { destruct (64 =? _); [|right; eexists _, _; split; [reflexivity|lia]].
    destruct (buflen - 1 <=? b1) eqn:E5; [auto|]. apply Z.leb_gt in E5.
    rewrite (rd_some buf (b1 + 1)) by lia. cbn [bind].
    destruct (negb _); [auto|]. right; eexists _, _; split; [reflexivity|lia]. }
  destruct HM as [->|(c2 & b2 & -> & Hb2)]; cbn [bind]; [discriminate|].
  destruct (buflen <=? b2) eqn:E6; [discriminate|]. apply Z.leb_gt in E6.
  rewrite (rd_some buf b2) by lia. cbn [bind].
  destruct (negb (96 =? _)); [discriminate|].
  match goal with |- bind ?m _ <> None =>
    assert (HM : m = Some None \/ exists c2 b2, m = Some (Some (c2, b2)) /\ 0 <= b2) end.
  { destruct (negb (0 =? _)); [|right; eexists _, _; split; [reflexivity|lia]].
    destruct (buflen <=? b2 + 1) eqn:E5; [auto|]. apply Z.leb_gt in E5.
    rewrite (rd_some buf (b2 + 1)) by lia. cbn [bind].
    destruct ((0 =? _) || _); [auto|]. right; eexists _, _; split; [reflexivity|lia]. }
  destruct HM as [->|(c3 & b3 & -> & Hb3)]; cbn [bind]; [discriminate|].
  destruct (buflen <=? b3) eqn:E7; [discriminate|]. apply Z.leb_gt in E7.
  rewrite sub_some by lia. cbn [bind]. rewrite (rd_some buf b3) by lia. cbn [bind].
  destruct (negb _); discriminate.
Qed.

Lemma r_hdr h : 112 <= h < 128 -> (112 =? Z.land h 112) = true /\ (0 =? Z.land h 128) = true.
Proof.
  intros H. assert (B : byte h) by (unfold byte; lia).
  destruct (hdr_facts h B) as (F&_). replace ((112 <=? h) && (h <? 128)) with true in F by lia.
  apply andb_prop in F. exact F.
Qed.
Lemma r_temp h : 64 <= h < 96 -> (64 =? Z.land h 224) = true.
Proof.
  intros H. assert (B : byte h) by (unfold byte; lia).
  destruct (hdr_facts h B) as (_&_&_&F&_). rewrite F. lia.
Qed.
Lemma r_flags h : 96 <= h < 128 -> (96 =? Z.land h 224) = true /\ (64 =? Z.land h 224) = false.
Proof.
  intros H. assert (B : byte h) by (unfold byte; lia).
  destruct (hdr_facts h B) as (_&_&_&F1&F&_). rewrite F, F1. lia.
Qed.
Lemma r_msb h : 0 <= h < 128 -> (0 =? Z.land 128 h) = true.
Proof.
  intros H. assert (B : byte h) by (unfold byte; lia).
  destruct (hdr_facts h B) as (_&_&_&_&_&F&_). rewrite F. lia.
Qed.

Theorem decode_accepts_wire : forall w rest c buflen,
  Forall byte w -> full_wire w c -> Zlen w <= buflen ->
  decode_full (w ++ rest) buflen = Some (Some (c, Zlen w)).
Proof.
  intros w rest c buflen HB (hdr & idb & tpb & fl & amb & HW & Hh & Hf & Ho & HI & HT & HA) HL.
  set (body := [hdr] ++ idb ++ tpb ++ [fl] ++ amb) in *.
  assert (HR : rds (w ++ rest) 0 w).
  { apply rds_firstn. rewrite firstn_app, Nat.sub_diag, firstn_all. apply app_nil_r. }
  set (buf := w ++ rest) in *. clearbody buf.
  assert (HLw : Zlen w = Zlen body + 1) by (rewrite HW, Zlen_app; reflexivity).
  rewrite HLw in *.
  rewrite HW in HR, HB. apply rds_app in HR. destruct HR as [HR [Hcrc _]].
  pose proof (rds_sub _ _ HR) as HS.
  rewrite Z.add_0_l in Hcrc.
  apply Forall_app in HB. destruct HB as [HB _].
  unfold body in HR, HB. rewrite !rds_app in HR. cbn [rds] in HR.
  destruct HR as [[R0 _] [RI [RT [[RF _] RA]]]].
  change (Zlen [hdr]) with 1 in *. change (Zlen [fl]) with 1 in *. rewrite Z.add_0_l in *.
  assert (LB : Zlen body = 1 + Zlen idb + Zlen tpb + 1 + Zlen amb).
  { unfold body. rewrite !Zlen_app. change (Zlen [hdr]) with 1. change (Zlen [fl]) with 1. lia. }
  pose proof (Zlen_nonneg idb). pose proof (Zlen_nonneg tpb). pose proof (Zlen_nonneg amb).
  assert (Bh : byte hdr) by (unfold byte; lia). assert (Bf : byte fl) by (unfold byte; lia).
  unfold decode_full.
  replace (buflen <? 3) with false by lia. rewrite R0. cbn [bind].
  destruct (r_hdr hdr Hh) as [-> ->]. cbn [negb].
  rewrite (f_b2 hdr Bh), (f_b1 hdr Bh).
  match goal with |- bind ?m _ = _ =>
    assert (HM : m = Some (mkFull (containsID c) false false (id0 c) (id1 c) (mkMin 0 false) 0 0, 1 + Zlen idb)) end.
  { destruct HI as [(-> & -> & x0 & x1 & -> & -> & ->)|(-> & -> & -> & -> & ->)]; [|reflexivity].
    cbn [rds] in RI. destruct RI as [-> [-> _]]. cbn [bind].
    apply Forall_app in HB. destruct HB as [_ HB]. cbn [app] in HB.
    inversion HB; subst. inversion H5; subst.
    rewrite !f_or by assumption. reflexivity. }
  rewrite HM. cbn [bind]. clear HM. set (b1 := 1 + Zlen idb) in *.
  replace (buflen <=? b1) with false by lia.
  assert (HM : exists h, rd buf b1 = Some h /\
     (if 64 =? Z.land h 224 then
       if buflen - 1 <=? b1 then Some None else
       do h1 <- rd buf (b1 + 1);
       if negb (0 =? Z.land 128 h1) then Some None else
       Some (Some (mkFull (containsID c) true false (id0 c) (id1 c)
                     (extract_min h h1) 0 0, b1 + 2))
     else Some (Some (mkFull (containsID c) false false (id0 c) (id1 c) (mkMin 0 false) 0 0, b1)))
     = Some (Some (mkFull (containsID c) (containsTempAndPower c) false (id0 c) (id1 c) (tempAndPower c) 0 0,
          b1 + Zlen tpb))).
  { destruct HT as [(-> & t0 & t1 & -> & Ht0 & Ht1 & ->)|(-> & -> & ->)].
    - cbn [rds] in RT. destruct RT as [R1 [R2 _]]. exists t0. split; [exact R1|].
      rewrite (r_temp _ Ht0). change (Zlen [t0; t1]) with 2 in *.
      replace (buflen - 1 <=? b1) with false by lia. rewrite R2. cbn [bind].
      rewrite (r_msb _ Ht1). cbn [negb]. rewrite extract_eq by (unfold byte; lia). reflexivity.
    - change (Zlen (@nil Z)) with 0 in *. rewrite Z.add_0_r in RF. exists fl. split; [exact RF|].
      destruct (r_flags _ Hf) as [_ ->]. rewrite Z.add_0_r. reflexivity. }
  destruct HM as (h & -> & HM). cbn [bind]. 
  cbn [containsID id0 id1 containsAmbL ambL containsTempAndPower tempAndPower occ].
  rewrite HM. cbn [bind]. clear HM h. set (b2 := b1 + Zlen tpb) in *.
  replace (buflen <=? b2) with false by lia. rewrite RF. cbn [bind].
  destruct (r_flags _ Hf) as [-> _]. cbn [negb].
  cbn [containsID id0 id1 containsAmbL ambL containsTempAndPower tempAndPower occ].
  rewrite (f_land3 _ Bf), (f_b3 _ Bf).
  match goal with |- bind ?m _ = _ =>
    assert (HM : m = Some (Some (c, b2 + 1 + Zlen amb))) end.
  { destruct c as [ci ct ca i0 i1 tp al oc]. 
    cbn [containsID id0 id1 containsAmbL ambL containsTempAndPower tempAndPower occ] in *. subst oc.
    destruct HA as [(-> & -> & -> & Ha)|(-> & -> & -> & ->)].
    - cbn [rds] in RA. destruct RA as [-> _]. change (Zlen [al]) with 1 in *.
      replace (buflen <=? b2 + 1) with false by lia. cbn [bind].
      replace ((0 =? al) || (al =? 255)) with false by lia. reflexivity.
    - change (Zlen (@nil Z)) with 0. rewrite Z.add_0_r. reflexivity. }
  rewrite HM. cbn [bind]. clear HM.
  replace (b2 + 1 + Zlen amb) with (Zlen body) by lia.
  replace (buflen <=? Zlen body) with false by lia.
  rewrite HS. cbn [bind]. rewrite Hcrc. cbn [bind]. rewrite Z.eqb_refl. reflexivity.
Qed.
