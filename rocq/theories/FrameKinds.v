(** C185: the kinds of message on the air are told apart by their decoders.
    The decoders are those of FhtModel, BinStatsModel, JsonFrame, FrameModel. *)
From Verif Require Import Base CrcModel CrcLin CrcSpec.
From Verif Require FhtModel FhtEnc FhtDec FhtTop BinStatsModel BinStatsSpec BinStatsProofs JsonFrame
  FrameModel FrameSpec FrameProofs FrameProps.

(** What each receiver accepts, of [n] bytes received. *)
Definition is_valve_command (buf : list Z) : Prop :=
  exists m q, FhtModel.decode buf = Some (Some (m, q)).
Definition is_full_stats (buf : list Z) (n : Z) : Prop :=
  exists c k, BinStatsModel.decode_full buf n = Some (Some (c, k)).
Definition is_json (buf : list Z) (n : Z) : Prop :=
  exists r, JsonFrame.checkRX buf n = Some r /\ r <> -1.
Definition is_small_frame (buf : list Z) (n : Z) : Prop :=
  exists h r h', Zlen (FrameModel.hid h) = 8 /\
    FrameModel.decodeHeader h (Some buf) n = Some (r, h') /\ r <> 0.

Lemma fht_first buf : Forall byte buf -> is_valve_command buf ->
  192 <= znth buf 0 < 208 \/ 224 <= znth buf 0 < 240.
Proof.
  intros FB (m & q & E). destruct (FhtTop.fht_decode_accepts_iff buf FB) as (r & E' & R).
  rewrite E in E'. apply some_inj in E'. subst r.
  destruct (proj1 (R m q) eq_refl) as (_ & k & rest & H & _).
  unfold FhtTop.on_line in H.
  assert (P : exists b l, FhtEnc.bps buf = FhtEnc.enc b ++ l).
  { destruct k as [|k]; cbn [repeat app] in H; unfold FhtEnc.encs in H; cbn [flat_map] in H;
      rewrite <- app_assoc in H; eexists _, _; exact H. }
  clear H. destruct P as (b & l & P). destruct buf as [|x buf].
  - destruct b; discriminate.
  - apply Forall_cons_iff in FB. destruct FB as [Bx _]. change (znth (x :: buf) 0) with x.
    unfold FhtEnc.bps in P. cbn [flat_map FhtEnc.bp app] in P.
    assert (P1 : x / 64 = 3 /\ (x / 16 mod 4 = 0 \/ x / 16 mod 4 = 2)).
    { destruct b; unfold FhtEnc.enc in P; cbn [app] in P;
        pose proof (f_equal (fun l => nth 0 l 9) P) as Q0; pose proof (f_equal (fun l => nth 1 l 9) P) as Q1;
        cbn [nth] in Q0, Q1; split; auto. }
    clear P. unfold byte in Bx. Z.div_mod_to_equations. lia.
Qed.

Lemma stats_shape buf n : Forall byte buf -> is_full_stats buf n ->
  112 <= znth buf 0 < 128 /\ (znth buf 0 < 116 \/ 120 <= znth buf 0 < 124 -> 64 <= znth buf 1).
Proof.
  intros FB (c & k & E).
  destruct (BinStatsProofs.decode_accepts_only_wire buf n c k FB E) as (Hk & Hl & W).
  destruct W as (hdr & idb & tpb & fl & amb & W). cbv zeta in W.
  destruct W as (W & Hh & Hf & _ & Hid & Htp & Hamb).
  set (w := firstn (Z.to_nat k) buf) in *.
  assert (E0 : znth buf 0 = znth w 0 /\ znth buf 1 = znth w 1).
  { unfold w. destruct buf as [|x [|y buf]]; destruct (Z.to_nat k) as [|[|j]] eqn:Ek; try lia;
      try (split; reflexivity); exfalso; unfold Zlen in Hl; cbn [length] in Hl; lia. }
  destruct E0 as [-> ->]. rewrite W. clear W. cbn [app].
  split; [exact Hh|]. intros Hb.
  change (znth (hdr :: ?t) 0) with hdr in Hb.
  destruct Hid as [(_ & Hbit & _) | (_ & _ & -> & _)].
  - exfalso.
    assert (Hb2 : hdr / 4 mod 2 = 1).
    { rewrite <- (Z.testbit_true hdr 2) by lia. exact Hbit. }
    clear - Hb Hb2 Hh. cbn [znth] in Hb. change (znth (hdr :: _) 0) with hdr in Hb.
    Z.div_mod_to_equations. lia.
  - cbn [app]. destruct Htp as [(_ & t0 & t1 & -> & Ht0 & _) | (_ & -> & _)]; cbn [app].
    + change (64 <= t0). lia.
    + change (64 <= fl). lia.
Qed.

Lemma json_first buf n : is_json buf n -> znth buf 0 = 123.
Proof.
  intros (r & E & Hr). unfold JsonFrame.checkRX in E.
  destruct buf as [|c t]; [discriminate|]. change (rd (c :: t) 0) with (Some c) in E. cbn [bind] in E.
  destruct (c =? JsonFrame.OPEN) eqn:Ec; cbn [negb] in E.
  - change (znth (c :: t) 0) with c. unfold JsonFrame.OPEN in Ec. lia.
  - apply some_inj in E. congruence.
Qed.

Lemma small_first buf n : n <= Zlen buf -> Forall byte buf -> is_small_frame buf n ->
  4 <= znth buf 0 <= 63.
Proof.
  intros Hn FB (h & r & h' & Hh & E & Hr).
  destruct (FrameProps.C02_decode_header_exact h buf n Hn FB Hh) as (r' & h'' & E' & Hiff & _).
  rewrite E in E'. apply some_pair_inj in E'. destruct E' as [<- _].
  apply Hiff in Hr. destruct Hr as (_ & H & _). exact H.
Qed.

(** The first byte shows the kind: 0x7b for JSON, 0x70 to 0x7f for statistics,
    4 to 63 for the length-prefixed frames, secure or not, and above 0xbf for a
    valve command. *)
Theorem kinds_first_byte : forall buf n, Forall byte buf -> n <= Zlen buf ->
  (is_valve_command buf -> 192 <= znth buf 0 < 240) /\
  (is_full_stats buf n -> 112 <= znth buf 0 < 128) /\
  (is_json buf n -> znth buf 0 = 123) /\
  (is_small_frame buf n -> 4 <= znth buf 0 <= 63).
Proof.
  intros buf n FB Hn. split; [|split; [|split]].
  - intros H. pose proof (fht_first buf FB H). lia.
  - intros H. exact (proj1 (stats_shape buf n FB H)).
  - apply json_first.
  - apply small_first; assumption.
Qed.

(** No received bytes are accepted as two kinds, except possibly as JSON and
    statistics both; and those two exclude each other when the JSON begins, as
    every written object with a member does, with an opening quote or any
    character below '@', and when the statistics carry an ID, as messages sent
    on their own do. *)
Theorem kinds_exclusive_partial : forall buf n, Forall byte buf -> n <= Zlen buf ->
  ~ (is_valve_command buf /\ is_full_stats buf n) /\
  ~ (is_valve_command buf /\ is_json buf n) /\
  ~ (is_valve_command buf /\ is_small_frame buf n) /\
  ~ (is_full_stats buf n /\ is_small_frame buf n) /\
  ~ (is_json buf n /\ is_small_frame buf n) /\
  (znth buf 1 < 64 \/ 116 <= znth buf 0 < 120 -> ~ (is_full_stats buf n /\ is_json buf n)).
Proof.
  intros buf n FB Hn. destruct (kinds_first_byte buf n FB Hn) as (A & B & C & D).
  split; [intros [H1 H2]; specialize (A H1); specialize (B H2); lia|].
  split; [intros [H1 H2]; specialize (A H1); specialize (C H2); lia|].
  split; [intros [H1 H2]; specialize (A H1); specialize (D H2); lia|].
  split; [intros [H1 H2]; specialize (B H1); specialize (D H2); lia|].
  split; [intros [H1 H2]; specialize (C H1); specialize (D H2); lia|].
  intros H [H1 H2]. specialize (C H2). destruct (stats_shape buf n FB H1) as [_ S].
  destruct H as [H|H]; [|lia]. enough (64 <= znth buf 1) by lia. apply S. lia.
Qed.

(** The exception is real: these five bytes are a complete JSON frame with a
    good CRC and begin with a complete statistics message with a good CRC. *)
Theorem kinds_exclusive_refuted : exists buf,
  Forall byte buf /\ is_json buf (Zlen buf) /\ is_full_stats buf (Zlen buf).
Proof.
  exists [123; 97; 119; 253; JsonFrame.json_crc [97; 119]].
  split; [repeat constructor; unfold byte; vm_compute; intuition discriminate|].
  split.
  - exists 4. split; [vm_compute; reflexivity|discriminate].
  - eexists _, _. vm_compute. reflexivity.
Qed.

(** Each kind occurs: a JSON frame, a statistics message with ID, a
    keep-alive frame, a valve command as sent. *)
Example kinds_case :
  is_json [123; 34; 34; 253; JsonFrame.json_crc [34; 34]] 5 /\
  is_full_stats [116; 1; 2; 96; crc7_run 127 [116; 1; 2; 96]] 5 /\
  is_small_frame [8; 33; 2; 128; 129; 2; 0; 1; 35] 9 /\
  (exists buf' q, FhtModel.create false (repeat 0 50) 0 (FhtModel.Msg 13 73 0 38 25) = Some (buf', q) /\
     is_valve_command (firstn (Z.to_nat q) buf')).
Proof.
  split; [exists 4; split; [vm_compute; reflexivity|discriminate]|].
  split; [eexists _, _; vm_compute; reflexivity|].
  split; [exists FrameModel.hdr0, 6; eexists; split; [reflexivity|]; split; [vm_compute; reflexivity|discriminate]|].
  eexists _, _. split; [vm_compute; reflexivity|]. eexists _, _. vm_compute. reflexivity.
Qed.

Print Assumptions kinds_first_byte.
Print Assumptions kinds_exclusive_partial.
Print Assumptions kinds_exclusive_refuted.
