(** C45 (round trip), C46 (decoder), C63 (scale conversion). *)
From Verif Require Import Base FhtModel FhtEnc FhtDec.

Lemma rem_len buf p : 0 <= p -> Zlen (rem buf p) = Z.max 0 (4 * Zlen buf - p).
Proof. intros. unfold rem. rewrite Zlen_skipn, bps_len. lia. Qed.

Lemma rem_shift buf p a l : 0 <= p -> rem buf p = a ++ l -> l = rem buf (p + Zlen a).
Proof.
  intros P H. unfold rem in *. rewrite <- (skipn_skipn_z (bps buf) p (Zlen a)) by (pose proof (Zlen_nonneg a); lia).
  rewrite H. unfold Zlen. rewrite Nat2Z.id. rewrite skipn_app, skipn_all, Nat.sub_diag. reflexivity.
Qed.

Lemma skip0_ok buf fuel : forall s p, Forall byte buf -> at_pos s p -> Zlen (rem buf p) < 2 * Z.of_nat fuel ->
  exists r, skip0 fuel buf s = Some r /\
    match r with
    | Some s' => exists k p', at_pos s' p' /\ p' = p + Zlen (encs (repeat false k ++ [true])) /\
                  rem buf p = encs (repeat false k ++ [true]) ++ rem buf p'
    | None => forall k l, rem buf p <> encs (repeat false k ++ [true]) ++ l
    end.
Proof.
  induction fuel as [|fuel IH]; intros s p FB A F; [pose proof (Zlen_nonneg (rem buf p)); lia|].
  cbn [skip0]. pose proof (at_pos_nonneg _ _ A) as P.
  destruct (rd_bit buf s p FB A) as (s1 & b & -> & M). cbn [bind].
  destruct (rbit (rem buf p)) as [[x l1]|] eqn:E.
  - destruct M as (-> & A1 & ->). apply rbit_inv in E. destruct x.
    + change (1 =? 0) with false. eexists. split; [reflexivity|]. exists 0%nat, (p + 3).
      split; [exact A1|]. split; [reflexivity|]. exact E.
    + change (0 =? 0) with true. rewrite (proj1 A1). cbn [enc] in *. change (Zlen [3; 0]) with 2 in *.
      destruct (IH s1 (p + 2) FB A1) as (r & -> & R).
      { rewrite E in F. rewrite Zlen_app in F. change (Zlen [3; 0]) with 2 in F. lia. }
      eexists. split; [reflexivity|]. destruct r as [s'|].
      * destruct R as (k & p' & A' & -> & R). exists (S k), (p + 2 + Zlen (encs (repeat false k ++ [true]))).
        split; [exact A'|]. cbn [repeat app encs flat_map enc].
        change (flat_map enc (repeat false k ++ [true])) with (encs (repeat false k ++ [true])).
        rewrite !Zlen_cons. split; [lia|]. rewrite E, R at 1. reflexivity.
      * intros k l. rewrite E. destruct k as [|k]; cbn [repeat app encs flat_map enc].
        -- discriminate.
        -- intros X. injection X as X. apply (R k l). exact X.
  - destruct M as (-> & FL). change (0 =? 0) with true. rewrite FL. eexists. split; [reflexivity|].
    intros k l X. rewrite X in E. destruct k as [|k]; cbn in E; discriminate.
Qed.

Ltac fail_rest F :=
  lazymatch goal with
  | |- context [readByte ?b ?s] =>
      let s' := fresh "s'" in let F' := fresh "F'" in
      destruct (readByte_failed b s F) as (s' & -> & F'); cbn [bind]; fail_rest F'
  | _ => rewrite F
  end.

(** The message as it must appear on the line (after any number of leading 0s). *)
Definition on_line (k : nat) (m : msg) : list bool :=
  repeat false k ++ [true] ++
  body (m_hc1 m) (m_hc2 m) (m_address m) (m_command m) (m_extension m) ++ [false].

Lemma pos_idx s p : at_pos s p -> d_idx s = p / 4.
Proof. intros (_ & I & [[_ ->] | (k & K & _ & ->)]); Z.div_mod_to_equations; lia. Qed.

Lemma encs_zeros_inj k1 k2 a b :
  encs (repeat false k1 ++ [true]) ++ a = encs (repeat false k2 ++ [true]) ++ b -> k1 = k2 /\ a = b.
Proof.
  revert k2. induction k1 as [|k1 IH]; intros [|k2]; cbn [repeat app encs flat_map enc]; intros H;
    try discriminate H.
  - injection H as H. auto.
  - injection H as H. destruct (IH k2 H). auto.
Qed.

Definition body_pairs (m : msg) (rest : list Z) : list Z :=
  encs (with_parity (m_hc1 m)) ++ encs (with_parity (m_hc2 m)) ++ encs (with_parity (m_address m)) ++
  encs (with_parity (m_command m)) ++ encs (with_parity (m_extension m)) ++
  encs (with_parity (checksum m (m_address m))) ++ enc false ++ rest.
Lemma on_line_split k m rest :
  encs (on_line k m) ++ rest = encs (repeat false k ++ [true]) ++ body_pairs m rest.
Proof.
  unfold on_line, body, body_pairs. cbn [flat_map]. rewrite app_nil_r, !encs_app, <- !app_assoc. reflexivity.
Qed.

Lemma decode_spec buf : Forall byte buf ->
  exists r, decode buf = Some r /\
    match r with
    | Some (m, q) => msg_ok m /\ exists k rest, bps buf = encs (on_line k m) ++ rest /\
                       q = Zlen (encs (on_line k m)) / 4 + 1
    | None => forall k m rest, msg_ok m -> bps buf <> encs (on_line k m) ++ rest
    end.
Proof.
  intros FB. unfold decode.
  assert (A0 : at_pos (D 0 0 false) 0) by (split; [reflexivity|]; split; [cbn; lia|]; left; auto).
  destruct (skip0_ok buf (S (S (2 * length buf))) _ _ FB A0) as (r & -> & R).
  { rewrite rem_len by lia. unfold Zlen. lia. }
  cbn [bind]. change (rem buf 0) with (bps buf) in R.
  (* every candidate decomposition has the same leading part *)
  destruct r as [s0|].
  2:{ eexists. split; [reflexivity|]. intros k m rest _ X. apply (R k
        (encs (body (m_hc1 m) (m_hc2 m) (m_address m) (m_command m) (m_extension m) ++ [false]) ++ rest)).
      rewrite X. unfold on_line. rewrite !encs_app, <- !app_assoc. reflexivity. }
  destruct R as (k & p0 & A & P0 & R). rewrite Z.add_0_l in P0.
  assert (NO : forall P : list Z -> Prop,
     (forall m rest, msg_ok m ->
        rem buf p0 = encs (with_parity (m_hc1 m)) ++ encs (with_parity (m_hc2 m)) ++ encs (with_parity (m_address m)) ++
          encs (with_parity (m_command m)) ++ encs (with_parity (m_extension m)) ++
          encs (with_parity (checksum m (m_address m))) ++ enc false ++ rest -> False) ->
     forall k m rest, msg_ok m -> bps buf <> encs (on_line k m) ++ rest).
  { intros _ N k' m rest MO X. apply (N m rest MO).
    rewrite R, on_line_split in X. apply encs_zeros_inj in X. destruct X as [_ X]. exact X. }
  specialize (NO (fun _ => True)).
  (* six bytes *)
  destruct (readByte_ok buf s0 p0 FB A) as (s1 & v1 & -> & M1). cbn [bind].
  destruct (rbyte (rem buf p0)) as [[x1 l1]|] eqn:E1.
  2:{ fail_rest M1. eexists. split; [reflexivity|]. cbn iota beta. apply NO. intros m rest (B1 & B2 & B3 & B4 & B5) X.
      rewrite X, rbyte_enc in E1 by assumption. discriminate. }
  destruct M1 as (-> & p1 & A1 & -> & _). destruct (rbyte_inv _ _ _ E1) as [BX1 R1].
  destruct (readByte_ok buf s1 p1 FB A1) as (s2 & v2 & -> & M2). cbn [bind].
  destruct (rbyte (rem buf p1)) as [[x2 l2]|] eqn:E2.
  2:{ fail_rest M2. eexists. split; [reflexivity|]. cbn iota beta. apply NO. intros m rest (B1 & B2 & B3 & B4 & B5) X.
      rewrite X, rbyte_enc in E1 by assumption. apply some_pair_inj in E1. destruct E1 as [_ E1].
      rewrite <- E1, rbyte_enc in E2 by assumption. discriminate. }
  destruct M2 as (-> & p2 & A2 & -> & _). destruct (rbyte_inv _ _ _ E2) as [BX2 R2].
  destruct (readByte_ok buf s2 p2 FB A2) as (s3 & v3 & -> & M3). cbn [bind].
  destruct (rbyte (rem buf p2)) as [[x3 l3]|] eqn:E3.
  2:{ fail_rest M3. eexists. split; [reflexivity|]. cbn iota beta. apply NO. intros m rest (B1 & B2 & B3 & B4 & B5) X.
      rewrite X, rbyte_enc in E1 by assumption. apply some_pair_inj in E1. destruct E1 as [_ E1].
      rewrite <- E1, rbyte_enc in E2 by assumption. apply some_pair_inj in E2. destruct E2 as [_ E2].
      rewrite <- E2, rbyte_enc in E3 by assumption. discriminate. }
  destruct M3 as (-> & p3 & A3 & -> & _). destruct (rbyte_inv _ _ _ E3) as [BX3 R3].
  destruct (readByte_ok buf s3 p3 FB A3) as (s4 & v4 & -> & M4). cbn [bind].
  destruct (rbyte (rem buf p3)) as [[x4 l4]|] eqn:E4.
  2:{ fail_rest M4. eexists. split; [reflexivity|]. cbn iota beta. apply NO. intros m rest (B1 & B2 & B3 & B4 & B5) X.
      rewrite X, rbyte_enc in E1 by assumption. apply some_pair_inj in E1. destruct E1 as [_ E1].
      rewrite <- E1, rbyte_enc in E2 by assumption. apply some_pair_inj in E2. destruct E2 as [_ E2].
      rewrite <- E2, rbyte_enc in E3 by assumption. apply some_pair_inj in E3. destruct E3 as [_ E3].
      rewrite <- E3, rbyte_enc in E4 by assumption. discriminate. }
  destruct M4 as (-> & p4 & A4 & -> & _). destruct (rbyte_inv _ _ _ E4) as [BX4 R4].
  destruct (readByte_ok buf s4 p4 FB A4) as (s5 & v5 & -> & M5). cbn [bind].
  destruct (rbyte (rem buf p4)) as [[x5 l5]|] eqn:E5.
  2:{ fail_rest M5. eexists. split; [reflexivity|]. cbn iota beta. apply NO. intros m rest (B1 & B2 & B3 & B4 & B5) X.
      rewrite X, rbyte_enc in E1 by assumption. apply some_pair_inj in E1. destruct E1 as [_ E1].
      rewrite <- E1, rbyte_enc in E2 by assumption. apply some_pair_inj in E2. destruct E2 as [_ E2].
      rewrite <- E2, rbyte_enc in E3 by assumption. apply some_pair_inj in E3. destruct E3 as [_ E3].
      rewrite <- E3, rbyte_enc in E4 by assumption. apply some_pair_inj in E4. destruct E4 as [_ E4].
      rewrite <- E4, rbyte_enc in E5 by assumption. discriminate. }
  destruct M5 as (-> & p5 & A5 & -> & _). destruct (rbyte_inv _ _ _ E5) as [BX5 R5].
  destruct (readByte_ok buf s5 p5 FB A5) as (s6 & v6 & -> & M6). cbn [bind].
  destruct (rbyte (rem buf p5)) as [[x6 l6]|] eqn:E6.
  2:{ fail_rest M6. eexists. split; [reflexivity|]. cbn iota beta. apply NO. intros m rest (B1 & B2 & B3 & B4 & B5) X.
      rewrite X, rbyte_enc in E1 by assumption. apply some_pair_inj in E1. destruct E1 as [_ E1].
      rewrite <- E1, rbyte_enc in E2 by assumption. apply some_pair_inj in E2. destruct E2 as [_ E2].
      rewrite <- E2, rbyte_enc in E3 by assumption. apply some_pair_inj in E3. destruct E3 as [_ E3].
      rewrite <- E3, rbyte_enc in E4 by assumption. apply some_pair_inj in E4. destruct E4 as [_ E4].
      rewrite <- E4, rbyte_enc in E5 by assumption. apply some_pair_inj in E5. destruct E5 as [_ E5].
      rewrite <- E5, rbyte_enc in E6 by apply u8_byte. discriminate. }
  destruct M6 as (-> & p6 & A6 & -> & _). destruct (rbyte_inv _ _ _ E6) as [BX6 R6].
  rewrite (proj1 A6).
  set (m := Msg x1 x2 x3 x4 x5).
  (* what any decomposition must look like *)
  assert (UNIQ : forall m' rest, msg_ok m' ->
     rem buf p0 = encs (with_parity (m_hc1 m')) ++ encs (with_parity (m_hc2 m')) ++ encs (with_parity (m_address m')) ++
          encs (with_parity (m_command m')) ++ encs (with_parity (m_extension m')) ++
          encs (with_parity (checksum m' (m_address m'))) ++ enc false ++ rest ->
     m' = m /\ checksum m' (m_address m') = x6 /\ rem buf p6 = enc false ++ rest).
  { intros m' rest (B1 & B2 & B3 & B4 & B5) X.
    rewrite X, rbyte_enc in E1 by assumption. apply some_pair_inj in E1. destruct E1 as [Y1 E1].
    rewrite <- E1, rbyte_enc in E2 by assumption. apply some_pair_inj in E2. destruct E2 as [Y2 E2].
    rewrite <- E2, rbyte_enc in E3 by assumption. apply some_pair_inj in E3. destruct E3 as [Y3 E3].
    rewrite <- E3, rbyte_enc in E4 by assumption. apply some_pair_inj in E4. destruct E4 as [Y4 E4].
    rewrite <- E4, rbyte_enc in E5 by assumption. apply some_pair_inj in E5. destruct E5 as [Y5 E5].
    rewrite <- E5, rbyte_enc in E6 by apply u8_byte. apply some_pair_inj in E6. destruct E6 as [Y6 E6].
    split; [|split; [exact Y6|symmetry; exact E6]].
    unfold m. rewrite <- Y1, <- Y2, <- Y3, <- Y4, <- Y5. destruct m'; reflexivity. }
  change x3 with (m_address m).
  destruct (checksum m (m_address m) =? x6) eqn:EC; cbn [negb].
  2:{ eexists. split; [reflexivity|]. cbn iota beta. apply NO. intros m' rest MO X.
      destruct (UNIQ m' rest MO X) as (-> & CK & _). apply Z.eqb_neq in EC. congruence. }
  apply Z.eqb_eq in EC.
  destruct (rd_bit buf s6 p6 FB A6) as (s7 & b & -> & M7). cbn [bind].
  destruct (rbit (rem buf p6)) as [[y l7]|] eqn:E7.
  2:{ destruct M7 as (-> & F7). change (0 =? 0) with true. cbn [negb]. rewrite F7.
      eexists. split; [reflexivity|]. cbn iota beta. apply NO. intros m' rest MO X.
      destruct (UNIQ m' rest MO X) as (_ & _ & Y). rewrite Y, rbit_enc in E7. discriminate. }
  destruct M7 as (-> & A7 & ->). destruct y.
  { change (negb (1 =? 0)) with true. cbn iota. eexists. split; [reflexivity|]. cbn iota beta. apply NO. intros m' rest MO X.
    destruct (UNIQ m' rest MO X) as (_ & _ & Y). rewrite Y, rbit_enc in E7. discriminate. }
  change (negb (0 =? 0)) with false. cbn iota. rewrite (proj1 A7).
  eexists. split; [reflexivity|].
  split; [exact (conj BX1 (conj BX2 (conj BX3 (conj BX4 BX5))))|].
  apply rbit_inv in E7.
  assert (EQ : bps buf = encs (on_line k m) ++ rem buf (p6 + Zlen (enc false))).
  { rewrite R, R1, R2, R3, R4, R5, R6, E7. unfold on_line, body. cbn [flat_map]. rewrite app_nil_r.
    replace (msg_sum (m_hc1 m) (m_hc2 m) (m_address m) (m_command m) (m_extension m)) with x6
      by (rewrite <- EC; reflexivity).
    rewrite !encs_app, <- !app_assoc. reflexivity. }
  exists k, (rem buf (p6 + Zlen (enc false))). split; [exact EQ|].
  rewrite (pos_idx _ _ A7). f_equal. f_equal.
  (* position from lengths *)
  pose proof (at_pos_nonneg _ _ A7) as N7.
  assert (LEN : Zlen (rem buf (p6 + Zlen (enc false))) = 4 * Zlen buf - (p6 + Zlen (enc false))).
  { rewrite rem_len by exact N7.
    pose proof (f_equal (fun l => Zlen l) E7) as LE. cbn beta in LE. rewrite Zlen_app in LE.
    pose proof (at_pos_nonneg _ _ A6). rewrite (rem_len buf p6) in LE by assumption.
    rewrite rem_len in LE by exact N7. change (Zlen (enc false)) with 2 in *. lia. }
  pose proof (f_equal (fun l => Zlen l) EQ) as LE. cbn beta in LE. rewrite Zlen_app, bps_len, LEN in LE. lia.
Qed.

(** C46.  On any bytes received (any number, any values) the decoder terminates and reads only
    those bytes; it accepts exactly when they start with a valid message on the line: any number of
    0s, a 1, five bytes and their checksum each with correct even parity, and a 0; and then returns
    those bytes and a pointer just past the byte holding the first bit after the message. *)
Theorem fht_decode_accepts_iff buf : Forall byte buf ->
  exists r, decode buf = Some r /\
    forall m q, r = Some (m, q) <->
      (msg_ok m /\ exists k rest, bps buf = encs (on_line k m) ++ rest /\
          q = Zlen (encs (on_line k m)) / 4 + 1).
Proof.
  intros FB. destruct (decode_spec buf FB) as (r & E & R). exists r. split; [exact E|].
  intros m q. destruct r as [[m0 q0]|].
  - destruct R as (MO & k & rest & EQ & ->). split.
    + intros X. injection X as <- <-. split; [exact MO|]. exists k, rest. auto.
    + intros ((B1 & B2 & B3 & B4 & B5) & k' & rest' & EQ' & ->).
      rewrite EQ, !on_line_split in EQ'. apply encs_zeros_inj in EQ'. destruct EQ' as [<- X].
      unfold body_pairs in X.
      destruct MO as (C1 & C2 & C3 & C4 & C5).
      pose proof (f_equal rbyte X) as Y. rewrite !rbyte_enc in Y by assumption. apply some_pair_inj in Y. destruct Y as [Y1 Y].
      apply (f_equal rbyte) in Y. rewrite !rbyte_enc in Y by assumption. apply some_pair_inj in Y. destruct Y as [Y2 Y].
      apply (f_equal rbyte) in Y. rewrite !rbyte_enc in Y by assumption. apply some_pair_inj in Y. destruct Y as [Y3 Y].
      apply (f_equal rbyte) in Y. rewrite !rbyte_enc in Y by assumption. apply some_pair_inj in Y. destruct Y as [Y4 Y].
      apply (f_equal rbyte) in Y. rewrite !rbyte_enc in Y by assumption. apply some_pair_inj in Y. destruct Y as [Y5 Y].
      destruct m0, m; cbn in *. subst. reflexivity.
  - split; [discriminate|]. intros (MO & k & rest & EQ & _). exfalso. exact (R k m rest MO EQ).
Qed.

(** Consequence: an accepted message has the right checksum (12 plus the sum of the five bytes, mod
    256) on the line, with every byte's parity correct: stated in [body].  The pointer returned can
    be at most two past the last byte given. *)
Theorem fht_decode_pointer buf m q : Forall byte buf -> decode buf = Some (Some (m, q)) ->
  35 <= 4 * q /\ q <= Zlen buf + 1.
Proof.
  intros FB H. destruct (fht_decode_accepts_iff buf FB) as (r & E & R).
  rewrite E in H. apply some_inj in H. subst r.
  destruct (proj1 (R m q) eq_refl) as ((B1 & B2 & B3 & B4 & B5) & k & rest & EQ & ->).
  pose proof (f_equal (fun l => Zlen l) EQ) as LE. cbn beta in LE. rewrite Zlen_app, bps_len in LE.
  pose proof (Zlen_nonneg rest).
  assert (109 + 2 <= Zlen (encs (on_line k m))).
  { unfold on_line, body. cbn [flat_map]. rewrite !encs_app, !Zlen_app.
    pose proof (wp_len _ B1). pose proof (wp_len _ B2). pose proof (wp_len _ B3). pose proof (wp_len _ B4).
    pose proof (wp_len _ B5).
    assert (byte (msg_sum (m_hc1 m) (m_hc2 m) (m_address m) (m_command m) (m_extension m))) as BS by apply u8_byte.
    pose proof (wp_len _ BS). change (Zlen (encs [true])) with 3. change (Zlen (encs [false])) with 2.
    change (Zlen (encs [])) with 0. pose proof (Zlen_nonneg (encs (repeat false k))). lia. }
  Z.div_mod_to_equations. lia.
Qed.

(** C45 (round trip).  Whatever part of the six preamble bytes the receiver misses, and whatever
    follows the encoded stream in the receive buffer, decoding the encoding of any command gives
    back that command (house codes, address sent, command, extension), and a pointer just past the
    stream (to where a trailer starts). *)
Theorem fht_round_trip adr b0 p0 m lost trailing :
  msg_ok m -> 0 <= p0 -> Zlen (pairs_of adr m) < 4 * (Zlen b0 - p0) ->
  (lost <= 6)%nat -> Forall byte trailing ->
  exists buf' q,
    create adr b0 p0 m = Some (buf', q) /\
    let stream := firstn (Z.to_nat (q - p0)) (skipn (Z.to_nat p0) buf') in
    decode (skipn lost stream ++ trailing) =
      Some (Some (Msg (m_hc1 m) (m_hc2 m) (addr_of adr m) (m_command m) (m_extension m),
                  Zlen stream - Z.of_nat lost)).
Proof.
  intros MO P SZ LO FT.
  destruct (fht_encode adr b0 p0 m MO P SZ) as (buf' & q & stream & CR & LB & Q & ST & FB & _ & _ & _ & LS & BP).
  exists buf', q. split; [exact CR|]. cbv zeta.
  replace (q - p0) with (Zlen stream) by lia. rewrite <- ST.
  assert (FB2 : Forall byte (skipn lost stream ++ trailing)).
  { apply Forall_app. split; [apply Forall_skipn'; exact FB|exact FT]. }
  destruct (fht_decode_accepts_iff _ FB2) as (r & -> & R). f_equal. apply R.
  destruct MO as (H1 & H2 & H3 & H4 & H5).
  assert (A3 : byte (addr_of adr m)) by (unfold addr_of; destruct adr; [assumption|unfold byte; lia]).
  split; [exact (conj H1 (conj H2 (conj A3 (conj H4 H5))))|].
  set (m' := Msg (m_hc1 m) (m_hc2 m) (addr_of adr m) (m_command m) (m_extension m)).
  pose proof (line_len _ _ _ _ _ H1 H2 A3 H4 H5) as [LL _]. fold (msg_line adr m) in LL. fold (pairs_of adr m) in LL.
  assert (SPLIT : pairs_of adr m = encs (on_line 12 m') ++ [3; 0; 3; 0]).
  { unfold pairs_of, msg_line, line, on_line. rewrite !encs_app, <- !app_assoc. reflexivity. }
  (* dropping [lost] bytes of preamble drops 2*lost leading zeros *)
  assert (ON : encs (on_line 12 m') = encs (repeat false (2 * lost)) ++ encs (on_line (12 - 2 * lost) m')).
  { rewrite <- encs_app. f_equal. unfold on_line.
    replace (repeat false 12) with (repeat false (2 * lost) ++ repeat false (12 - 2 * lost))
      by (rewrite <- repeat_app; f_equal; lia).
    rewrite <- app_assoc. reflexivity. }
  set (N := Zlen (encs (on_line 12 m'))) in *.
  assert (LP : Zlen (pairs_of adr m) = N + 4) by (rewrite SPLIT, Zlen_app; reflexivity).
  assert (FULL : Zlen stream = N / 4 + 1).
  { rewrite LS, LP. replace (N + 4) with (N + 1 * 4) by lia. rewrite Z.div_add by lia. reflexivity. }
  assert (LZ : Zlen (encs (repeat false (2 * lost))) = 4 * Z.of_nat lost).
  { rewrite encs_len, Zlen_repeat. unfold ones.
    replace (filter (fun x => x) (repeat false (2 * lost))) with (@nil bool).
    - change (Zlen (@nil bool)) with 0. lia.
    - clear. induction (2 * lost)%nat; [reflexivity|exact IHn]. }
  exists (12 - 2 * lost)%nat.
  assert (BS : exists t, bps stream = encs (on_line 12 m') ++ t).
  { rewrite BP, SPLIT. rewrite firstn_app. exists (firstn (Z.to_nat (4 * Zlen stream) - length (encs (on_line 12 m'))) [3; 0; 3; 0]).
    f_equal. apply firstn_all2. unfold N, Zlen in *. Z.div_mod_to_equations. lia. }
  destruct BS as [t BS].
  assert (BSK : bps (skipn lost stream) = encs (on_line (12 - 2 * lost) m') ++ t).
  { assert (G : forall n l, bps (skipn n l) = skipn (4 * n) (bps l)).
    { clear. induction n as [|n IH]; intros l; [reflexivity|]. destruct l as [|a l]; [rewrite !skipn_nil; reflexivity|].
      replace (4 * S n)%nat with (4 + 4 * n)%nat by lia. cbn [skipn]. rewrite IH. reflexivity. }
    rewrite G, BS, ON, <- app_assoc. rewrite skipn_app.
    replace (length (encs (repeat false (2 * lost)))) with (4 * lost)%nat by (unfold Zlen in LZ; lia).
    rewrite Nat.sub_diag. rewrite skipn_all2 by (unfold Zlen in LZ; lia). reflexivity. }
  exists (t ++ bps trailing). split.
  - rewrite bps_app, BSK, <- app_assoc. reflexivity.
  - assert (LN : Zlen (encs (on_line (12 - 2 * lost) m')) = N - 4 * Z.of_nat lost).
    { unfold N. rewrite ON, Zlen_app, LZ. lia. }
    rewrite LN, FULL. Z.div_mod_to_equations. lia.
Qed.

Example fht_round_trip_example :
  decode (skipn 3 (firstn 41 (match create false (repeat 0 46) 0 (Msg 13 73 0 0x26 255) with Some (b, _) => b | None => [] end)) ++ [1; 2; 3])
  = Some (Some (Msg 13 73 0 0x26 255, 38)).
Proof. vm_compute. reflexivity. Qed.
(** A message with one bit wrong is not accepted, and no bytes at all are handled. *)
Example fht_decode_reject_example :
  decode [0xcc; 0xe3; 0x33] = Some None /\ decode [] = Some None.
Proof. split; vm_compute; reflexivity. Qed.

(** ** C63: scale conversion *)

(** Percentage to 0..255 and back: monotone, exact at both ends, within one step. *)
Theorem fht_scale_percent :
  percentTo255 0 = 0 /\ percentTo255 100 = 255 /\
  scale255ToPercent 0 = 0 /\ scale255ToPercent 255 = 100 /\
  (forall a b, 0 <= a <= b -> b <= 255 -> percentTo255 a <= percentTo255 b) /\
  (forall a b, 0 <= a <= b -> b <= 255 -> scale255ToPercent a <= scale255ToPercent b <= 100) /\
  (forall p, 0 <= p <= 100 -> -1 <= scale255ToPercent (percentTo255 p) - p <= 1) /\
  (forall p, 0 <= p <= 100 -> Z.abs (100 * percentTo255 p - 255 * p) <= 150) /\
  (forall p, 0 < p < 100 -> 0 < scale255ToPercent (percentTo255 p) < 100).
Proof.
  assert (MONO : forall f, below 255 (fun a => f a <=? f (a + 1)) = true ->
     forall a b, 0 <= a <= b -> b <= 255 -> f a <= f b).
  { intros f H a b Hab Hb. replace b with (a + Z.of_nat (Z.to_nat (b - a))) by lia.
    assert (G : forall n, a + Z.of_nat n <= 255 -> f a <= f (a + Z.of_nat n)).
    { induction n as [|n IH]; intros L; [rewrite Z.add_0_r; lia|].
      pose proof (below_spec _ _ H (a + Z.of_nat n) ltac:(lia)) as SS. cbn beta in SS.
      replace (a + Z.of_nat (S n)) with (a + Z.of_nat n + 1) by lia. specialize (IH ltac:(lia)). lia. }
    apply G. lia. }
  split; [reflexivity|]. split; [reflexivity|]. split; [reflexivity|]. split; [reflexivity|].
  split; [apply MONO; vm_compute; reflexivity|]. split.
  { intros a b H1 H2. split; [apply MONO; auto; vm_compute; reflexivity|].
    apply (MONO scale255ToPercent ltac:(vm_compute; reflexivity) b 255); lia. }
  split.
  { intros p Hp. assert (B : below 101 (fun p => let d := scale255ToPercent (percentTo255 p) - p in (-1 <=? d) && (d <=? 1)) = true)
      by (vm_compute; reflexivity).
    pose proof (below_spec _ _ B p ltac:(lia)) as S. cbv beta zeta in S. lia. }
  split.
  { intros p Hp. assert (B : below 101 (fun p => Z.abs (100 * percentTo255 p - 255 * p) <=? 150) = true)
      by (vm_compute; reflexivity).
    pose proof (below_spec _ _ B p ltac:(lia)) as S. cbv beta zeta in S. lia. }
  { intros p Hp. assert (B : below 100 (fun p => let v := scale255ToPercent (percentTo255 p) in (p =? 0) || ((0 <? v) && (v <? 100))) = true)
      by (vm_compute; reflexivity).
    pose proof (below_spec _ _ B p ltac:(lia)) as S. cbv beta zeta in S. lia. }
Qed.
