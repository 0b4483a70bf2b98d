(** C175: fast access to I/O pins touches the right pin and no other. *)
From Verif Require Import Base PinModel.

(** ** Specification: where the pins of the board are, and the level at one. *)
Definition pin_at (n : Z) : PortName * Z :=
  if n <? 8 then (PD, n) else if n <? 14 then (PB, n - 8) else (PC, n - 14).
Definition level (s : Ports) (n : Z) : bool := Z.testbit (port s (fst (pin_at n))) (snd (pin_at n)).
Definition is_pin (n : Z) : Prop := 0 <= n < 20.
Definition bytes (s : Ports) : Prop := byte (port_D s) /\ byte (port_B s) /\ byte (port_C s).

Theorem pins_distinct n m : is_pin n -> is_pin m -> pin_at n = pin_at m -> n = m.
Proof.
  unfold is_pin, pin_at. intros Hn Hm H.
  destruct (n <? 8) eqn:A, (n <? 14) eqn:B, (m <? 8) eqn:C, (m <? 14) eqn:D;
    apply pair_inj in H; destruct H as [H1 H2]; try discriminate H1; lia.
Qed.

Lemma shr_bit r k : 0 <= k -> Z.land (Z.shiftr r k) 1 = if Z.testbit r k then 1 else 0.
Proof.
  intros Hk. change 1 with (Z.ones 1) at 1. rewrite Z.land_ones by lia. change (2 ^ 1) with 2.
  rewrite Zmod_odd, <- Z.bit0_odd, Z.shiftr_spec by lia. rewrite Z.add_0_l. destruct (Z.testbit r k); reflexivity.
Qed.
(** Reading a pin gives its level. *)
Theorem pin_read s n : is_pin n -> fast_read true s n = Some (if level s n then 1 else 0).
Proof.
  unfold is_pin, fast_read, in_range, level, pin_at. intros H. cbn [andb].
  destruct (n <? 8) eqn:A.
  - replace (0 <=? n) with true by lia. cbn [andb fst snd port]. rewrite shr_bit by lia. reflexivity.
  - rewrite andb_false_r. destruct (n <? 14) eqn:B.
    + replace (8 <=? n) with true by lia. cbn [andb fst snd port]. rewrite Z.max_l, shr_bit by lia. reflexivity.
    + rewrite andb_false_r. replace (14 <=? n) with true by lia. replace (n <? 20) with true by lia.
      cbn [andb fst snd port]. rewrite Z.max_l, shr_bit by lia. reflexivity.
Qed.
Lemma u8_testbit r k : 0 <= k < 8 -> Z.testbit (u8 r) k = Z.testbit r k.
Proof. intros H. unfold u8. change 256 with (2 ^ 8). rewrite Z.mod_pow2_bits_low by lia. reflexivity. Qed.
Lemma bit_write_spec r b v k : 0 <= b < 8 -> 0 <= k < 8 ->
  Z.testbit (bit_write r b v) k = if k =? b then v else Z.testbit r k.
Proof.
  intros Hb Hk. unfold bit_write. rewrite Z.shiftl_1_l. destruct v; rewrite u8_testbit by lia.
  - rewrite Z.lor_spec, Z.pow2_bits_eqb by lia. rewrite (Z.eqb_sym b k). destruct (k =? b); [apply orb_true_r|apply orb_false_r].
  - rewrite Z.land_spec, Z.lnot_spec, Z.pow2_bits_eqb by lia. rewrite (Z.eqb_sym b k).
    destruct (k =? b); [apply andb_false_r|apply andb_true_r].
Qed.
Lemma bit_write_byte r b v : byte (bit_write r b v).
Proof. unfold bit_write. destruct v; apply u8_byte. Qed.

Definition unused_kept (s s' : Ports) : Prop :=
  (forall k, 6 <= k < 8 -> Z.testbit (port_B s') k = Z.testbit (port_B s) k) /\
  (forall k, 6 <= k < 8 -> Z.testbit (port_C s') k = Z.testbit (port_C s) k).
(** Writing sets that pin's output and nothing else, of the pins or of the spare bits. *)
Theorem pin_write s n v : is_pin n -> bytes s -> exists s', fast_write true true s n v = Some s' /\
  level s' n = v /\ (forall m, is_pin m -> m <> n -> level s' m = level s m) /\ unused_kept s s' /\ bytes s'.
Proof.
  unfold is_pin, fast_write, in_range. intros Hn [HD [HB HC]]. cbn [andb].
  assert (L : forall s m, level s m = if m <? 8 then Z.testbit (port_D s) m else if m <? 14 then Z.testbit (port_B s) (m - 8) else Z.testbit (port_C s) (m - 14)).
  { intros s' m. unfold level, pin_at. destruct (m <? 8); [reflexivity|]. destruct (m <? 14); reflexivity. }
  destruct (n <? 8) eqn:A; [|rewrite andb_false_r; destruct (n <? 14) eqn:B; [|rewrite andb_false_r]].
  - replace (0 <=? n) with true by lia. cbn [andb]. eexists. split; [reflexivity|].
    rewrite L, A. cbn [port_D]. rewrite bit_write_spec, Z.eqb_refl by lia. split; [reflexivity|].
    split; [|split; [split; intros; reflexivity|refine (conj (bit_write_byte _ _ _) (conj HB HC))]].
    intros m Hm Hmn. rewrite !L. cbn [port_D port_B port_C]. destruct (m <? 8) eqn:M; [|reflexivity].
    rewrite bit_write_spec by lia. replace (m =? n) with false by lia. reflexivity.
  - replace (8 <=? n) with true by lia. cbn [andb]. rewrite Z.max_l by lia. eexists. split; [reflexivity|].
    rewrite L, A, B. cbn [port_B]. rewrite bit_write_spec, Z.eqb_refl by lia. split; [reflexivity|].
    split; [|split; [split; intros k Hk; cbn [port_B port_C]; [|reflexivity]|refine (conj HD (conj (bit_write_byte _ _ _) HC))]].
    + intros m Hm Hmn. rewrite !L. cbn [port_D port_B port_C]. destruct (m <? 8) eqn:M; [reflexivity|].
      destruct (m <? 14) eqn:M2; [|reflexivity].
      rewrite bit_write_spec by lia. replace (m - 8 =? n - 8) with false by lia. reflexivity.
    + rewrite bit_write_spec by lia. replace (k =? n - 8) with false by lia. reflexivity.
  - replace (14 <=? n) with true by lia. replace (n <? 20) with true by lia. cbn [andb].
    rewrite Z.max_l by lia. eexists. split; [reflexivity|].
    rewrite L, A, B. cbn [port_C]. rewrite bit_write_spec, Z.eqb_refl by lia. split; [reflexivity|].
    split; [|split; [split; intros k Hk; cbn [port_B port_C]; [reflexivity|]|refine (conj HD (conj HB (bit_write_byte _ _ _)))]].
    + intros m Hm Hmn. rewrite !L. cbn [port_D port_B port_C]. destruct (m <? 8) eqn:M; [reflexivity|].
      destruct (m <? 14) eqn:M2; [reflexivity|].
      rewrite bit_write_spec by lia. replace (m - 14 =? n - 14) with false by lia. reflexivity.
    + rewrite bit_write_spec by lia. replace (k =? n - 14) with false by lia. reflexivity.
Qed.
(** The register and mask pick out the same level: polling loops that load them once read the same pin. *)
Theorem pin_mask s n : is_pin n -> exists r m, fast_reg true n = Some r /\ fast_mask true n = Some m /\
  fast_reg_ true n = Some r /\ fast_mask_ true n = Some m /\
  negb (Z.land (port s r) m =? 0) = level s n.
Proof.
  unfold is_pin. intros H.
  assert (T : forall x k, 0 <= k -> negb (Z.land x (Z.shiftl 1 k) =? 0) = Z.testbit x k).
  { intros x k Hk. rewrite Z.shiftl_1_l. destruct (Z.testbit x k) eqn:E.
    - replace (Z.land x (2 ^ k) =? 0) with false; [reflexivity|]. symmetry. apply Z.eqb_neq. intros Z0.
      pose proof (f_equal (fun z => Z.testbit z k) Z0) as P. cbn beta in P.
      rewrite Z.land_spec, Z.pow2_bits_true, E, Z.bits_0 in P by lia. discriminate P.
    - replace (Z.land x (2 ^ k)) with 0; [reflexivity|]. apply Z.bits_inj'. intros j Hj.
      rewrite Z.land_spec, Z.pow2_bits_eqb, Z.bits_0 by lia. destruct (k =? j) eqn:J.
      + assert (j = k) as -> by lia. rewrite E. reflexivity.
      + symmetry. apply andb_false_r. }
  unfold fast_reg, fast_reg_, fast_mask, fast_mask_, reg_or, mask_or, in_range, level, pin_at. cbn [andb].
  destruct (n <? 8) eqn:A; [|rewrite !andb_false_r; destruct (n <? 14) eqn:B; [|rewrite !andb_false_r]].
  - replace (0 <=? n) with true by lia. cbn [andb fst snd]. do 2 eexists. do 4 (split; [reflexivity|]). apply T. lia.
  - replace (8 <=? n) with true by lia. cbn [andb fst snd]. do 2 eexists. do 4 (split; [reflexivity|]). apply T. lia.
  - replace (14 <=? n) with true by lia. replace (n <? 20) with true by lia. cbn [andb fst snd].
    do 2 eexists. do 4 (split; [reflexivity|]). apply T. lia.
Qed.
(** Anything else goes to the generic routines, and the internal mask is then 0: always read as low. *)
Theorem pin_other c vc s n v : c = false \/ n < 0 \/ 20 <= n ->
  fast_read c s n = None /\ fast_mask c n = None /\ fast_reg c n = None /\ fast_mask_ c n = Some 0 /\
  fast_write c vc s n v = None.
Proof.
  intros H. assert (HR : forall b lo hi, 0 <= lo -> hi <= 20 -> in_range (c && b) n lo hi = false).
  { intros b lo hi Hl Hh. unfold in_range. destruct H as [-> | H]; [reflexivity|]. destruct (c && b); [cbn [andb]; lia|reflexivity]. }
  pose proof (HR true) as HT. rewrite andb_true_r in HT.
  unfold fast_read, fast_mask, fast_mask_, fast_reg, mask_or, reg_or, fast_write.
  rewrite !HT, !HR by lia. repeat split; reflexivity.
Qed.
Example pin_ex : is_pin 13 /\ bytes (mkPorts 85 192 0) /\ fast_write true true (mkPorts 85 192 0) 13 true = Some (mkPorts 85 224 0)
  /\ fast_read true (mkPorts 85 224 0) 13 = Some 1 /\ fast_read true (mkPorts 85 224 0) 5 = Some 0.
Proof. unfold is_pin, bytes, byte. cbn [port_D port_B port_C]. repeat split; try lia; vm_compute; reflexivity. Qed.
