(** Error detection of the binary stats payloads, and the minimal payload: C49. *)
From Verif Require Import Base CrcModel CrcLin CrcSpec CrcProofs BinStatsModel BinStatsSpec BinStatsProofs BinStatsEnc.

Lemma full_wire_split w c : full_wire w c ->
  exists body, w = body ++ [crc7_run 127 body] /\ (2 <= length body <= 7)%nat.
Proof.
  intros (hdr & idb & tpb & fl & amb & HW & _ & _ & _ & HI & HT & HA).
  eexists; split; [exact HW|]. rewrite !app_length. cbn [length].
  assert (length idb <= 2)%nat by (destruct HI as [(_&_&x0&x1&->&_)|(_&_&->&_)]; cbn [length]; lia).
  assert (length tpb <= 2)%nat by (destruct HT as [(_&x0&x1&->&_)|(_&->&_)]; cbn [length]; lia).
  assert (length amb <= 1)%nat by (destruct HA as [(_&_&->&_)|(_&_&->&_)]; cbn [length]; lia).
  lia.
Qed.

Lemma diff_snoc l l' a a' e x : diff (l ++ [a]) (l' ++ [a']) (e ++ [x]) -> length l = length l' -> length e = length l ->
  diff l l' e /\ x = Z.lxor a a'.
Proof.
  intros (H1 & H2 & H3) E E2. split.
  - split; [exact E|]. split; [exact E2|]. intros i Hi. specialize (H3 i).
    rewrite Zlen_app in H3. change (Zlen [a]) with 1 in H3. specialize (H3 ltac:(lia)).
    rewrite !znth_app in H3 by lia.
    replace (i <? Zlen l) with true in H3 by lia.
    replace (i <? Zlen l') with true in H3 by (unfold Zlen in *; lia).
    replace (i <? Zlen e) with true in H3 by (unfold Zlen in *; lia). exact H3.
  - specialize (H3 (Zlen l)). rewrite Zlen_app in H3. change (Zlen [a]) with 1 in H3.
    pose proof (Zlen_nonneg l). specialize (H3 ltac:(lia)).
    rewrite !znth_app in H3 by lia.
    replace (Zlen l <? Zlen l) with false in H3 by lia.
    replace (Zlen l <? Zlen l') with false in H3 by (unfold Zlen in *; lia).
    replace (Zlen l <? Zlen e) with false in H3 by (unfold Zlen in *; lia).
    replace (Zlen l - Zlen e) with 0 in H3 by (unfold Zlen in *; lia).
    replace (Zlen l - Zlen l') with 0 in H3 by (unfold Zlen in *; lia).
    rewrite Z.sub_diag in H3. exact H3.
Qed.
Lemma ones_l_app l l' : ones_l (l ++ l') = ones_l l + ones_l l'.
Proof. induction l; cbn [app ones_l fold_right]; [reflexivity|]. fold (ones_l l). fold (ones_l (l ++ l')). lia. Qed.

(** Two different messages of equal length accepted by the decoder differ in at
    least four bits: Hamming distance 4. *)
Theorem full_hamming_distance : forall buf buf' len len' c c' n k,
  Forall byte buf -> Forall byte buf' ->
  decode_full buf len = Some (Some (c, n)) -> decode_full buf' len' = Some (Some (c', n)) ->
  firstn (Z.to_nat n) buf <> firstn (Z.to_nat n) buf' ->
  differ_bits (firstn (Z.to_nat n) buf) (firstn (Z.to_nat n) buf') k -> 4 <= k.
Proof.
  intros buf buf' len len' c c' n k HB HB' D D' Hne (e & Hd & He).
  destruct (decode_accepts_only_wire _ _ _ _ HB D) as (Hn & Hl & W).
  destruct (decode_accepts_only_wire _ _ _ _ HB' D') as (_ & Hl' & W').
  assert (FB : Forall byte (firstn (Z.to_nat n) buf)) by (apply Forall_firstn'; auto).
  assert (FB' : Forall byte (firstn (Z.to_nat n) buf')) by (apply Forall_firstn'; auto).
  assert (LL : length (firstn (Z.to_nat n) buf) = length (firstn (Z.to_nat n) buf')).
  { rewrite !firstn_length. unfold Zlen in *. lia. }
  set (w := firstn (Z.to_nat n) buf) in *. set (w' := firstn (Z.to_nat n) buf') in *.
  clearbody w w'.
  destruct (full_wire_split _ _ W) as (b & -> & Hb). destruct (full_wire_split _ _ W') as (b' & -> & Hb').
  rewrite !app_length in LL. cbn [length] in LL.
  assert (exists e1 x, e = e1 ++ [x] /\ length e1 = length b) as (e1 & x & -> & Le).
  { pose proof Hd as (_ & L & _). rewrite app_length in L. cbn [length] in L.
    destruct (rev e) as [|x r] eqn:ER.
    - apply (f_equal (@length Z)) in ER. rewrite rev_length in ER. cbn [length] in ER. lia.
    - exists (rev r), x. split.
      + rewrite <- (rev_involutive e), ER. reflexivity.
      + apply (f_equal (@length Z)) in ER. rewrite !rev_length in *. cbn [length] in ER. lia. }
  assert (LBB : length b = length b') by lia.
  destruct (diff_snoc _ _ _ _ _ _ Hd LBB Le) as [Hd1 ->].
  apply Forall_app in FB, FB'. destruct FB as [FB _]. destruct FB' as [FB' _].
  rewrite ones_l_app in He. cbn [ones_l fold_right] in He.
  destruct (list_eq_dec Z.eq_dec b b') as [->|HN]; [congruence|].
  pose proof (crc7_hd4 b b' e1 127 ltac:(lia) Hd1 FB FB' ltac:(lia) HN). lia.
Qed.

(** The decoder's answer depends only on the bytes it consumes. *)
Theorem decode_prefix : forall buf buf' len len' c n,
  Forall byte buf -> decode_full buf len = Some (Some (c, n)) ->
  firstn (Z.to_nat n) buf' = firstn (Z.to_nat n) buf -> n <= len' ->
  decode_full buf' len' = Some (Some (c, n)).
Proof.
  intros buf buf' len len' c n HB D HF HL.
  destruct (decode_accepts_only_wire _ _ _ _ HB D) as (Hn & Hl & W).
  rewrite <- (firstn_skipn (Z.to_nat n) buf'), HF.
  assert (ZL : Zlen (firstn (Z.to_nat n) buf) = n) by (rewrite Zlen_firstn; lia).
  rewrite <- ZL at 3. apply decode_accepts_wire; auto.
  - apply Forall_firstn'; auto.
  - lia.
Qed.

(** A decoded message never contains 0xff from its fourth byte on, so decoding
    cannot run through a terminator. *)
Lemma full_wire_no_ff w c i : full_wire w c -> 3 <= i < Zlen w -> znth w i <> 255.
Proof.
  intros (hdr & idb & tpb & fl & amb & HW & Hh & Hf & _ & HI & HT & HA) Hi.
  set (body := [hdr] ++ idb ++ tpb ++ [fl] ++ amb) in *.
  pose proof (crc7_run_range 127 body ltac:(lia)) as HC.
  set (cr := crc7_run 127 body) in *. clearbody cr. subst w body.
  rewrite znth_app by lia.
  destruct (i <? _) eqn:E1.
  2:{ replace (i - _) with 0; [change (znth [cr] 0) with cr; lia|]. rewrite Zlen_app in Hi. change (Zlen [cr]) with 1 in Hi. lia. }
  assert (HF : Forall (fun x => x <> 255) (tpb ++ [fl] ++ amb)).
  { rewrite !Forall_app. split; [|split].
    - destruct HT as [(_&x0&x1&->&?&?&_)|(_&->&_)]; repeat constructor; lia.
    - repeat constructor; lia.
    - destruct HA as [(_&_&->&?)|(_&_&->&_)]; repeat constructor; lia. }
  rewrite app_assoc. rewrite app_assoc in E1.
  assert (HL : Zlen ([hdr] ++ idb) <= 3).
  { destruct HI as [(_&_&x0&x1&->&_)|(_&_&->&_)]; unfold Zlen; cbn; lia. }
  rewrite Zlen_app in E1. rewrite znth_app by lia. replace (i <? Zlen ([hdr] ++ idb)) with false by lia.
  apply (Forall_znth _ _ _ HF). lia.
Qed.

(** ** Single-bit errors
    A single flipped bit may turn a message into a shorter one whose CRC happens
    to be right: the decoder alone does not detect every single-bit error. *)
Theorem full_single_bit_detected_refuted :
  exists lvl c c' buf1 w w' n',
    full_ok c /\ encode_full (repeat 0 9) 9 lvl false c = Some (Some (wire_len c), buf1) /\
    w = firstn (Z.to_nat (wire_len c)) buf1 /\ differ_bits w w' 1 /\ Forall byte w' /\
    decode_full w' (Zlen w') = Some (Some (c', n')) /\ c' <> visible lvl c.
Proof.
  exists 0, (mkFull false false true 0 0 (mkMin 0 false) 101 0), (mkFull false false false 0 0 (mkMin 0 false) 0 0),
    [112; 104; 101; 109; 255; 0; 0; 0; 0], [112; 104; 101; 109], [112; 96; 101; 109], 3.
  split; [unfold full_ok, min_ok, byte; vm_compute; intuition congruence|].
  split; [vm_compute; reflexivity|].
  split; [vm_compute; reflexivity|].
  split.
  - exists [0; 8; 0; 0]. split; [|reflexivity].
    split; [reflexivity|]. split; [reflexivity|].
    intros i Hi. change (Zlen _) with 4 in Hi.
    assert (HC : i = 0 \/ i = 1 \/ i = 2 \/ i = 3) by lia.
    destruct HC as [-> | [-> | [-> | ->]]]; reflexivity.
  - split; [repeat constructor; unfold byte; vm_compute; congruence|].
    split; [vm_compute; reflexivity|vm_compute; congruence].
Qed.

(** But a receiver that also requires the 0xff terminator right after the decoded
    message (as every sender appends) rejects every single-bit error. *)
Definition accepted_with_terminator (buf : list Z) (len : Z) : Prop :=
  exists c n, decode_full buf len = Some (Some (c, n)) /\ rd buf n = Some 255.

Lemma ones_zero_same l l' : Forall byte l -> Forall byte l' -> differ_bits l l' 0 -> l = l'.
Proof.
  intros H H' (e & Hd & He). pose proof (diff_byte _ _ _ Hd H H') as Be.
  rewrite (ones_l_zero e Be He) in Hd. eapply diff_zero; eauto.
Qed.

Lemma diff_app_l l1 l2 l1' l2' e : length l1 = length l1' -> diff (l1 ++ l2) (l1' ++ l2') e ->
  exists e1 e2, e = e1 ++ e2 /\ diff l1 l1' e1 /\ diff l2 l2' e2.
Proof.
  intros HL (H1 & H2 & H3). exists (firstn (length l1) e), (skipn (length l1) e).
  split; [symmetry; apply firstn_skipn|]. rewrite !app_length in *.
  assert (L1 : length (firstn (length l1) e) = length l1) by (rewrite firstn_length; lia).
  assert (L2 : length (skipn (length l1) e) = length l2) by (rewrite skipn_length; lia).
  split; (split; [lia|split; [lia|]]); intros i Hi.
  - rewrite znth_firstn by (unfold Zlen in *; lia).
    rewrite H3 by (rewrite Zlen_app; pose proof (Zlen_nonneg l2); lia). rewrite !znth_app by lia.
    replace (i <? Zlen l1) with true by lia. replace (i <? Zlen l1') with true by (unfold Zlen in *; lia). reflexivity.
  - rewrite znth_skipn by lia. rewrite H3 by (rewrite Zlen_app; unfold Zlen in *; lia). rewrite !znth_app by lia.
    replace (_ <? Zlen l1) with false by (unfold Zlen in *; lia).
    replace (_ <? Zlen l1') with false by (unfold Zlen in *; lia).
    f_equal; f_equal; unfold Zlen in *; lia.
Qed.

Theorem full_single_bit_detected_with_terminator_partial : forall buf buflen lvl sec c p buf' w w' rest len,
  full_ok c -> 0 <= lvl -> buflen <= Zlen buf ->
  encode_full buf buflen lvl sec c = Some (Some p, buf') ->
  w = firstn (Z.to_nat p) buf' ->
  differ_bits w w' 1 -> Forall byte w' -> Forall byte rest ->
  ~ accepted_with_terminator (w' ++ 255 :: rest) len.
Proof.
  intros buf buflen lvl sec c p buf' w w' rest len HO HL HB E Hw (e & Hd & He) HBw' HBr (c' & n' & D & R).
  destruct (full_round_trip buf buflen lvl sec c p buf' HO HL HB E) as (w0 & HE & Zw & Hp & _ & Fw & DW).
  assert (w0 = w).
  { rewrite Hw, HE. assert (LW : Z.to_nat p = length w0) by (unfold Zlen in Zw; lia).
    rewrite LW, firstn_app, Nat.sub_diag, firstn_all. cbn [firstn]. rewrite app_nil_r. reflexivity. }
  subst w0. clear Hw HE.
  assert (FB : Forall byte w) by (eapply Forall_impl; [|exact Fw]; cbv beta; unfold byte; intros; lia).
  assert (LL : length w' = length w) by (destruct Hd as (A&_); lia).
  assert (Zw' : Zlen w' = p) by (unfold Zlen in *; lia).
  assert (FB2 : Forall byte (w' ++ 255 :: rest)).
  { apply Forall_app; split; [exact HBw'|]. constructor; [unfold byte; lia|exact HBr]. }
  destruct (decode_accepts_only_wire _ _ _ _ FB2 D) as (Hn & Hl & W).
  pose proof (decode_accepts_only_wire w p (visible lvl c) p FB) as W0.
  pose proof (DW [] p ltac:(lia)) as D0. rewrite app_nil_r in D0. specialize (W0 D0). destruct W0 as (_&_&W0).
  assert (LW : Z.to_nat p = length w) by (unfold Zlen in Zw; lia).
  destruct (Z.lt_trichotomy n' p) as [Hlt|[->|Hgt]].
  - (* shorter: the terminator must come from the flipped bit *)
    apply rd_inv in R. destruct R as [_ R]. rewrite znth_app in R by lia.
    replace (n' <? Zlen w') with true in R by lia.
    set (k := Z.to_nat n').
    assert (HS : w = firstn k w ++ skipn k w) by (symmetry; apply firstn_skipn).
    assert (HS' : w' = firstn k w' ++ skipn k w') by (symmetry; apply firstn_skipn).
    rewrite HS, HS' in Hd. apply diff_app_l in Hd; [|rewrite !firstn_length; lia].
    destruct Hd as (e1 & e2 & -> & Hd1 & Hd2). rewrite ones_l_app in He.
    pose proof (ones_l_nonneg e1). pose proof (ones_l_nonneg e2).
    assert (HC : ones_l e1 = 0 \/ ones_l e2 = 0) by lia.
    destruct HC as [HC|HC].
    + (* consumed bytes unchanged: the original decodes to n' too *)
      assert (HF : firstn k w = firstn k w').
      { apply ones_zero_same; try (apply Forall_firstn'; auto). exists e1; auto. }
      assert (D2 : decode_full w p = Some (Some (c', n'))).
      { apply (decode_prefix (w' ++ 255 :: rest) w len p c' n' FB2 D); [|lia]. fold k.
        rewrite firstn_app. replace (k - length w')%nat with 0%nat by (unfold k, Zlen in *; lia).
        cbn [firstn]. rewrite app_nil_r. exact HF. }
      rewrite D2 in D0. apply some_inj in D0. apply some_pair_inj in D0. lia.
    + assert (HF : skipn k w = skipn k w').
      { apply ones_zero_same; try (apply Forall_skipn'; auto). exists e2; auto. }
      assert (HN : znth w n' = 255).
      { rewrite R. replace n' with (Z.of_nat k + 0) by (unfold k; lia).
        rewrite <- !znth_skipn by lia. rewrite HF. reflexivity. }
      pose proof (Forall_znth _ w n' Fw ltac:(lia)) as HX. cbv beta in HX. lia.
  - (* same length: distance 4 *)
    assert (HF' : firstn (Z.to_nat p) (w' ++ 255 :: rest) = w').
    { rewrite LW, <- LL, firstn_app, Nat.sub_diag, firstn_all. cbn [firstn]. apply app_nil_r. }
    assert (HF : firstn (Z.to_nat p) w = w) by (rewrite LW; apply firstn_all).
    enough (4 <= 1) by lia.
    apply (full_hamming_distance w (w' ++ 255 :: rest) p len (visible lvl c) c' p 1 FB FB2 D0 D).
    + rewrite HF, HF'. intros ->. destruct Hd as (A1 & A2 & A3).
      assert (HZ : e = repeat 0 (length w')).
      { apply zlist_ext; [rewrite Zlen_repeat; unfold Zlen; lia|]. intros i Hi. 
        rewrite A3 by (unfold Zlen in *; lia). rewrite Z.lxor_nilpotent.
        symmetry. apply znth_repeat. unfold Zlen in Hi. lia. }
      rewrite HZ in He. clear - He. exfalso. revert He.
      assert (ones_l (repeat 0 (length w')) = 0); [|lia].
      induction (length w'); [reflexivity|]. cbn [repeat ones_l fold_right]. fold (ones_l (repeat 0 n)).
      rewrite IHn. reflexivity.
    + rewrite HF, HF'. exists e. auto.
  - (* longer: decoding would run through the terminator *)
    apply (full_wire_no_ff _ _ p W).
    + rewrite Zlen_firstn. lia.
    + rewrite znth_firstn by lia. rewrite znth_app by lia. replace (p <? Zlen w') with false by lia.
      rewrite Zw', Z.sub_diag. reflexivity.
Qed.
Example full_single_bit_ex :
  accepted_with_terminator [0x76; 0x03; 0x1a; 0x57; 0x28; 0x6a; 42; 62; 255; 0] 10 /\
  decode_full [0x76; 0x03; 0x1b; 0x57; 0x28; 0x6a; 42; 62; 255; 0] 10 = Some None /\
  decode_full [112; 96; 101; 109; 255] 5 = Some (Some (cleared, 3)) /\ rd [112; 96; 101; 109; 255] 3 <> Some 255.
Proof.
  split; [eexists _, _; split; vm_compute; reflexivity|].
  split; [vm_compute; reflexivity|]. split; [vm_compute; reflexivity|vm_compute; congruence].
Qed.

(** Decoded IDs are not guaranteed to be sendable ones: the decoder does not
    check the ID bytes' top bits, so 0xff can come out. *)
Theorem decoded_id_valid_refuted : exists buf c n,
  Forall byte buf /\ decode_full buf (Zlen buf) = Some (Some (c, n)) /\ ~ sendable c.
Proof.
  exists [0x74; 255; 3; 0x60; 16], (mkFull true false false 255 3 (mkMin 0 false) 0 0), 5.
  split; [repeat constructor; unfold byte; lia|]. split; [vm_compute; reflexivity|].
  intros [H _]. specialize (H eq_refl). cbn in H. lia.
Qed.

(** ** The three-byte minimal payload *)
Lemma write_min_run b0 b1 b2 rest p :
  write_min (b0 :: b1 :: b2 :: rest) p
    = Some (fst (min_body p) :: snd (min_body p) :: crc7_5B_update (fst (min_body p)) (snd (min_body p)) :: rest).
Proof.
  unfold write_min, write_min_body. pose proof (Zlen_nonneg rest).
  change (b0 :: b1 :: b2 :: rest) with ([] ++ b0 :: b1 :: b2 :: rest).
  rewrite put1; [|reflexivity|rewrite !Zlen_cons; lia]. cbn [bind tl].
  rewrite put1; [|reflexivity|rewrite !Zlen_cons; lia]. cbn [bind tl].
  cbn [app]. rewrite rd_cons0. cbn [bind]. rewrite rd_cons by lia. change (1 - 1) with 0. rewrite rd_cons0. cbn [bind].
  match goal with |- wr (?x :: ?y :: ?r) 2 ?v = _ => change (x :: y :: r) with ([x; y] ++ r) end.
  rewrite put1; [|reflexivity|rewrite !Zlen_cons; lia]. reflexivity.
Qed.

(** Writing, verifying and extracting: the temperature (forced into range) and
    the low-power flag come back; the bytes are below 0x80 (so never 0xff), the
    first is never zero, and only the three bytes are touched. *)
Theorem minimal_round_trip : forall buf p,
  min_ok p -> 3 <= Zlen buf ->
  exists x y z, write_min buf p = Some (x :: y :: z :: skipn 3 buf) /\
    64 <= x < 96 /\ 0 <= y < 128 /\ 0 <= z < 128 /\
    forall rest, verify_min (x :: y :: z :: rest) = Some true /\
                 extract_min_buf (x :: y :: z :: rest) = Some (clampM p).
Proof.
  intros buf p HM HL. destruct buf as [|b0 [|b1 [|b2 rest]]]; try (cbv in HL; congruence).
  destruct (body_facts p HM) as (A & B & C).
  eexists _, _, _. split; [apply write_min_run|].
  split; [exact A|]. split; [exact B|]. split; [apply crc7_update_range|].
  intros rest'. unfold verify_min, extract_min_buf.
  rewrite rd_cons0. cbn [bind]. rewrite (r_temp _ A). cbn [negb].
  rewrite rd_cons by lia. change (1 - 1) with 0. rewrite rd_cons0. cbn [bind].
  assert (Bb : byte (snd (min_body p))) by (unfold byte; lia).
  destruct (hdr_facts _ Bb) as (_&_&_&_&_&_&F&_). rewrite F. replace (snd (min_body p) <? 128) with true by lia. cbn [negb].
  rewrite rd_cons by lia. change (2 - 1) with 1. rewrite rd_cons by lia. change (1 - 1) with 0. rewrite rd_cons0. cbn [bind].
  rewrite Z.eqb_refl. split; [reflexivity|].
  rewrite extract_eq by (unfold byte; lia). rewrite C. reflexivity.
Qed.
Example minimal_round_trip_ex :
  write_min [0; 0; 0; 7] (mkMin 327 true) = Some [0x57; 0x28; 31; 7] /\
  verify_min [0x57; 0x28; 31] = Some true /\ verify_min [0x57; 0x29; 31] = Some false /\
  write_min [0; 0; 0] (mkMin (-400) false) = Some [0x40; 0; 26].
Proof. vm_compute. auto. Qed.

(** Acceptance, exactly; and at least four bits apart. *)
Theorem verify_min_iff : forall x y z rest, byte x -> byte y ->
  verify_min (x :: y :: z :: rest) = Some true <->
  64 <= x < 96 /\ 0 <= y < 128 /\ z = crc7_5B_update x y.
Proof.
  intros x y z rest Bx By. unfold verify_min. rewrite rd_cons0. cbn [bind].
  rewrite rd_cons by lia. change (1 - 1) with 0. rewrite rd_cons0. cbn [bind].
  rewrite rd_cons by lia. change (2 - 1) with 1. rewrite rd_cons by lia. change (1 - 1) with 0. rewrite rd_cons0. cbn [bind].
  destruct (hdr_facts _ By) as (_&_&_&_&_&_&F&_). rewrite F.
  destruct (hdr_facts _ Bx) as (_&_&_&G&_). rewrite G. unfold byte in *.
  destruct ((64 <=? x) && (x <? 96)) eqn:E1; cbn [negb]; [|split; [discriminate|lia]].
  destruct (y <? 128) eqn:E2; cbn [negb]; [|split; [discriminate|lia]].
  destruct (z =? crc7_5B_update x y) eqn:E3; split; intros HH; try discriminate HH; try reflexivity; lia.
Qed.

Definition weak_pair (i y : Z) : bool :=
  existsb (fun k => (i =? 2 ^ k) && (y =? 2 ^ (k + 1))) [0; 1; 2; 3; 4].
Definition min_hd_chk (i y : Z) : bool :=
  ((i =? 0) && (y =? 0)) || (weak_pair i y && (crc7_5B_update i y =? 0))
  || (3 <? ones8 i + ones8 y + ones8 (crc7_5B_update i y)).
Lemma min_hd_sweep : below2 32 128 min_hd_chk = true.
Proof. vm_compute. reflexivity. Qed.

(** Corruption of up to three bits of a valid minimal payload goes undetected in
    exactly one way: bit k of the first byte and bit k+1 of the second both
    flipped, for k = 0..4. *)
Theorem minimal_errors_exact : forall x y z x' y' z',
  byte x -> byte y -> byte z -> byte x' -> byte y' -> byte z' ->
  verify_min [x; y; z] = Some true -> [x'; y'; z'] <> [x; y; z] ->
  ones8 (Z.lxor x x') + ones8 (Z.lxor y y') + ones8 (Z.lxor z z') <= 3 ->
  (verify_min [x'; y'; z'] = Some true <->
   exists k, 0 <= k <= 4 /\ x' = Z.lxor x (2 ^ k) /\ y' = Z.lxor y (2 ^ (k + 1)) /\ z' = z).
Proof.
  intros x y z x' y' z' Bx By Bz Bx' By' Bz' HV Hne Hw.
  apply verify_min_iff in HV; auto. destruct HV as (Hx & Hy & Hz).
  assert (SW : below2 32 32 (fun a b => Z.lxor (64 + a) (64 + b) <? 32) = true) by (vm_compute; reflexivity).
  split.
  - intros HV'. apply verify_min_iff in HV'; auto. destruct HV' as (Hx' & Hy' & Hz').
    pose proof (below2_spec _ _ _ SW (x - 64) (x' - 64) ltac:(lia) ltac:(lia)) as HX. cbv beta in HX.
    replace (64 + (x - 64)) with x in HX by lia. replace (64 + (x' - 64)) with x' in HX by lia.
    pose proof (lxor8 _ _ Bx Bx') as BX. unfold byte in BX.
    pose proof (lxor7 y y' Hy Hy') as HY.
    pose proof (below2_spec _ _ _ min_hd_sweep (Z.lxor x x') (Z.lxor y y') ltac:(lia) HY) as S.
    assert (EZ : Z.lxor z z' = crc7_5B_update (Z.lxor x x') (Z.lxor y y')).
    { rewrite crc7_linear by (auto; lia). congruence. }
    rewrite EZ in Hw. unfold min_hd_chk in S.
    apply orb_prop in S. destruct S as [S|S]; [|apply Z.ltb_lt in S; lia].
    apply orb_prop in S. destruct S as [S|S].
    { bool_to_prop. rewrite Z.lxor_eq_0_iff in *. exfalso. apply Hne. congruence. }
    apply andb_prop in S. destruct S as [S1 S2]. apply Z.eqb_eq in S2.
    unfold weak_pair in S1. apply existsb_exists in S1. destruct S1 as (k & Hk & S1). bool_to_prop.
    exists k. rewrite <- H, <- H0. rewrite <- !Z.lxor_assoc, !Z.lxor_nilpotent, !Z.lxor_0_l.
    rewrite S2 in EZ. apply Z.lxor_eq in EZ.
    cbn [In] in Hk. split; [lia|]. split; [reflexivity|]. split; [reflexivity|]. congruence.
  - intros (k & Hk & -> & -> & ->). apply verify_min_iff; auto.
    assert (S1 : below2 32 5 (fun a k => let v := Z.lxor (64 + a) (2 ^ k) in (64 <=? v) && (v <? 96)) = true)
      by (vm_compute; reflexivity).
    assert (S2 : below2 128 5 (fun a k => let v := Z.lxor a (2 ^ (k + 1)) in (0 <=? v) && (v <? 128)) = true)
      by (vm_compute; reflexivity).
    pose proof (below2_spec _ _ _ S1 (x - 64) k ltac:(lia) ltac:(lia)) as A. cbv beta zeta in A.
    replace (64 + (x - 64)) with x in A by lia.
    pose proof (below2_spec _ _ _ S2 y k ltac:(lia) ltac:(lia)) as B. cbv beta zeta in B.
    split; [lia|]. split; [lia|].
    assert (P : 0 < 2 ^ k <= 16 /\ 0 < 2 ^ (k + 1) <= 32 /\ crc7_5B_update (2 ^ k) (2 ^ (k + 1)) = 0).
    { assert (HC : k = 0 \/ k = 1 \/ k = 2 \/ k = 3 \/ k = 4) by lia.
      destruct HC as [-> | [-> | [-> | [-> | ->]]]]; vm_compute; intuition congruence. }
    rewrite crc7_linear by (try assumption; unfold byte; lia).
    destruct P as (_ & _ & ->). rewrite Z.lxor_0_r. exact Hz.
Qed.

(** In particular single-bit (and any odd number of up to three) errors are
    always caught, but two-bit errors are not. *)
Theorem minimal_single_bit_detected : forall x y z x' y' z',
  byte x -> byte y -> byte z -> byte x' -> byte y' -> byte z' ->
  verify_min [x; y; z] = Some true ->
  ones8 (Z.lxor x x') + ones8 (Z.lxor y y') + ones8 (Z.lxor z z') = 1 \/
  ones8 (Z.lxor x x') + ones8 (Z.lxor y y') + ones8 (Z.lxor z z') = 3 ->
  verify_min [x'; y'; z'] <> Some true.
Proof.
  intros x y z x' y' z' Bx By Bz Bx' By' Bz' HV HW HV'.
  assert (Hne : [x'; y'; z'] <> [x; y; z]).
  { intros E. injection E as -> -> ->. rewrite !Z.lxor_nilpotent in HW. vm_compute in HW. intuition congruence. }
  apply (minimal_errors_exact x y z x' y' z') in HV'; auto; [|lia].
  destruct HV' as (k & Hk & -> & -> & ->). rewrite <- !Z.lxor_assoc, !Z.lxor_nilpotent, !Z.lxor_0_l in HW.
  assert (HC : k = 0 \/ k = 1 \/ k = 2 \/ k = 3 \/ k = 4) by lia.
  destruct HC as [-> | [-> | [-> | [-> | ->]]]]; vm_compute in HW; intuition congruence.
Qed.
Theorem minimal_two_bit_detected_refuted : exists p x y z x' y',
  write_min [0; 0; 0] p = Some [x; y; z] /\
  ones8 (Z.lxor x x') = 1 /\ ones8 (Z.lxor y y') = 1 /\
  verify_min [x'; y'; z] = Some true /\ extract_min_buf [x'; y'; z] <> Some p.
Proof.
  exists (mkMin 327 true), 87, 40, 31, 86, 42. vm_compute. intuition congruence.
Qed.

(** ** Buffers one byte short are refused (encoder) *)
Example encode_short_ex : encode_full (repeat 0 10) 8 0 false (mkFull true true true 0x83 0x9a (mkMin 327 true) 42 2)
  = Some (None, repeat 0 10).
Proof. reflexivity. Qed.
