(** Linearity of the 7-bit CRC over GF(2), proved algebraically. *)
From Verif Require Import Base CrcModel CrcSpec.

Lemma crc7_update_range crc datum : 0 <= crc7_5B_update crc datum < 128.
Proof.
  unfold crc7_5B_update. change 127 with (Z.ones 7). rewrite Z.land_ones by lia.
  apply Z.mod_pos_bound. lia.
Qed.

Lemma crc7_run_range init l : 0 <= init < 128 -> 0 <= crc7_run init l < 128.
Proof.
  unfold crc7_run. revert init. induction l; intros; simpl; [lia|].
  apply IHl. apply crc7_update_range.
Qed.

(** One bit step on the 7-bit state. *)
Definition stp (c : Z) (b : bool) : Z :=
  Z.lxor (Z.land (Z.shiftl c 1) 127) (if xorb (Z.testbit c 6) b then 55 else 0).

Lemma land_pow2_testbit x k : 0 <= k -> negb (Z.land x (2 ^ k) =? 0) = Z.testbit x k.
Proof.
  intros Hk. destruct (Z.testbit x k) eqn:E.
  - destruct (Z.land x (2 ^ k) =? 0) eqn:E0; auto. apply Z.eqb_eq in E0.
    assert (H : Z.testbit (Z.land x (2 ^ k)) k = false) by (rewrite E0; apply Z.bits_0).
    rewrite Z.land_spec, E, Z.pow2_bits_true in H by lia. discriminate.
  - assert (Z.land x (2 ^ k) = 0) as ->; [|reflexivity].
    apply Z.bits_inj'. intros n Hn. rewrite Z.bits_0, Z.land_spec.
    destruct (Z.eq_dec n k) as [->|].
    + rewrite E. reflexivity.
    + rewrite Z.pow2_bits_false by lia. apply andb_false_r.
Qed.

Lemma land127_u8 x : Z.land (u8 x) 127 = Z.land x 127.
Proof.
  unfold u8. change 256 with (2 ^ 8). rewrite <- (Z.land_ones x 8) by lia.
  rewrite <- Z.land_assoc. reflexivity.
Qed.

Lemma crc7_bit_stp c d k : 0 <= k ->
  Z.land (crc7_bit c d (2 ^ k)) 127 = stp (Z.land c 127) (Z.testbit d k).
Proof.
  intros Hk. unfold crc7_bit, stp.
  change 64 with (2 ^ 6). rewrite !land_pow2_testbit by lia.
  assert (H6 : Z.testbit (Z.land c 127) 6 = Z.testbit c 6).
  { rewrite Z.land_spec. change (Z.testbit 127 6) with true. apply andb_true_r. }
  rewrite H6.
  assert (HS : Z.land (Z.shiftl (Z.land c 127) 1) 127 = Z.land (Z.shiftl c 1) 127).
  { apply Z.bits_inj'. intros n Hn. rewrite !Z.land_spec, !Z.shiftl_spec, Z.land_spec by lia.
    change 127 with (Z.ones 7). rewrite !Z.testbit_ones by lia.
    destruct (Z.eq_dec n 0) as [->|].
    - rewrite (Z.testbit_neg_r c) by lia. reflexivity.
    - replace (0 <=? n - 1) with true by lia. replace (0 <=? n) with true by lia.
      destruct (n <? 7) eqn:E.
      + replace (n - 1 <? 7) with true by lia. rewrite !andb_true_r. reflexivity.
      + rewrite !andb_false_r. reflexivity. }
  rewrite HS.
  assert (HD : forall a b, Z.land (Z.lxor a b) 127 = Z.lxor (Z.land a 127) (Z.land b 127)).
  { intros. apply Z.bits_inj'. intros n Hn.
    rewrite !Z.land_spec, !Z.lxor_spec, !Z.land_spec.
    destruct (Z.testbit a n), (Z.testbit b n), (Z.testbit 127 n); reflexivity. }
  destruct (Z.testbit d k), (Z.testbit c 6); cbn [negb xorb];
    rewrite ?HD, land127_u8, ?Z.lxor_0_r; reflexivity.
Qed.

Definition bits8 (d : Z) : list bool :=
  [Z.testbit d 7; Z.testbit d 6; Z.testbit d 5; Z.testbit d 4;
   Z.testbit d 3; Z.testbit d 2; Z.testbit d 1; Z.testbit d 0].

Lemma crc7_update_bits c d : 0 <= c < 128 ->
  crc7_5B_update c d = fold_left stp (bits8 d) c.
Proof.
  intros Hc. unfold crc7_5B_update, bits8.
  change [128; 64; 32; 16; 8; 4; 2; 1] with (map (Z.pow 2) [7; 6; 5; 4; 3; 2; 1; 0]).
  cbn [map fold_left].
  rewrite !crc7_bit_stp by lia.
  replace (Z.land c 127) with c; [reflexivity|].
  symmetry. change 127 with (Z.ones 7). rewrite Z.land_ones by lia. apply Z.mod_small.
  change (2 ^ 7) with 128. lia.
Qed.

Lemma stp_range c b : 0 <= stp c b < 128.
Proof.
  assert (H : stp c b = Z.land (stp c b) 127).
  { unfold stp. apply Z.bits_inj'. intros n Hn.
    rewrite !Z.land_spec, !Z.lxor_spec, Z.land_spec.
    destruct (Z.testbit 127 n) eqn:E.
    - rewrite !andb_true_r. reflexivity.
    - rewrite !andb_false_r. destruct (xorb (Z.testbit c 6) b); [|rewrite Z.bits_0; reflexivity].
      change 127 with (Z.ones 7) in E. rewrite Z.testbit_ones in E by lia.
      destruct (n <? 7) eqn:E1; [lia|]. rewrite Z.bits_above_log2; [reflexivity|lia|].
      change (Z.log2 55) with 5. lia. }
  rewrite H. change 127 with (Z.ones 7). rewrite Z.land_ones by lia.
  apply Z.mod_pos_bound. lia.
Qed.

Lemma stp_linear c c' b b' :
  stp (Z.lxor c c') (xorb b b') = Z.lxor (stp c b) (stp c' b').
Proof.
  unfold stp. rewrite Z.shiftl_lxor, Z.lxor_spec.
  assert (HD : forall a b, Z.land (Z.lxor a b) 127 = Z.lxor (Z.land a 127) (Z.land b 127)).
  { intros. apply Z.bits_inj'. intros n Hn.
    rewrite !Z.land_spec, !Z.lxor_spec, !Z.land_spec.
    destruct (Z.testbit a n), (Z.testbit b0 n), (Z.testbit 127 n); reflexivity. }
  rewrite HD. set (A := Z.land (Z.shiftl c 1) 127). set (B := Z.land (Z.shiftl c' 1) 127).
  set (p := xorb (Z.testbit c 6) b). set (q := xorb (Z.testbit c' 6) b').
  replace (xorb (xorb (Z.testbit c 6) (Z.testbit c' 6)) (xorb b b')) with (xorb p q)
    by (unfold p, q; destruct (Z.testbit c 6), (Z.testbit c' 6), b, b'; reflexivity).
  replace (if xorb p q then 55 else 0) with (Z.lxor (if p then 55 else 0) (if q then 55 else 0))
    by (destruct p, q; reflexivity).
  rewrite !Z.lxor_assoc. f_equal. rewrite <- !Z.lxor_assoc. f_equal. apply Z.lxor_comm.
Qed.

Lemma lxor_bound n a b : 0 <= n -> 0 <= a < 2 ^ n -> 0 <= b < 2 ^ n ->
  0 <= Z.lxor a b < 2 ^ n.
Proof.
  intros Hn Ha Hb. split.
  - apply Z.lxor_nonneg. lia.
  - destruct (Z.eq_dec (Z.lxor a b) 0) as [->|Hne]; [lia|].
    assert (0 <= Z.lxor a b) by (apply Z.lxor_nonneg; lia).
    apply Z.log2_lt_pow2; [lia|].
    eapply Z.le_lt_trans; [apply Z.log2_lxor; lia|].
    destruct (Z.eq_dec n 0) as [->|].
    { change (2 ^ 0) with 1 in *. assert (a = 0) by lia. assert (b = 0) by lia.
      subst. simpl in Hne. lia. }
    assert (Z.log2 a < n).
    { destruct (Z.eq_dec a 0) as [->|]; [simpl; lia|]. apply Z.log2_lt_pow2; lia. }
    assert (Z.log2 b < n).
    { destruct (Z.eq_dec b 0) as [->|]; [simpl; lia|]. apply Z.log2_lt_pow2; lia. }
    lia.
Qed.
Lemma lxor7 a b : 0 <= a < 128 -> 0 <= b < 128 -> 0 <= Z.lxor a b < 128.
Proof. intros. apply (lxor_bound 7); lia. Qed.
Lemma lxor8 a b : byte a -> byte b -> byte (Z.lxor a b).
Proof. unfold byte. intros. apply (lxor_bound 8); lia. Qed.

Lemma crc7_linear c d c' d' : 0 <= c < 128 -> 0 <= c' < 128 -> byte d -> byte d' ->
  crc7_5B_update (Z.lxor c c') (Z.lxor d d') =
  Z.lxor (crc7_5B_update c d) (crc7_5B_update c' d').
Proof.
  intros Hc Hc' Hd Hd'.
  rewrite !crc7_update_bits by (auto using lxor7).
  unfold bits8. cbn [fold_left]. rewrite !Z.lxor_spec, !stp_linear. reflexivity.
Qed.

(** xor of equal-length byte strings *)
Fixpoint xorl (l e : list Z) : list Z :=
  match l, e with
  | a :: l', b :: e' => Z.lxor a b :: xorl l' e'
  | _, _ => []
  end.

Lemma xorl_len l e : length l = length e -> length (xorl l e) = length l.
Proof. revert e. induction l; destruct e; simpl; intros; try lia. rewrite IHl; lia. Qed.

Lemma xorl_byte l e : Forall byte l -> Forall byte e -> Forall byte (xorl l e).
Proof.
  intros Hl. revert e. induction Hl; intros e He; destruct e; simpl; auto.
  inversion He; subst. constructor; [apply lxor8; auto|auto].
Qed.

Lemma crc7_run_linear l e c c' : length l = length e ->
  Forall byte l -> Forall byte e -> 0 <= c < 128 -> 0 <= c' < 128 ->
  crc7_run (Z.lxor c c') (xorl l e) = Z.lxor (crc7_run c l) (crc7_run c' e).
Proof.
  unfold crc7_run. revert e c c'. induction l; intros [|b e] c c' HL Hl He Hc Hc';
    simpl in *; try lia; auto.
  inversion Hl; inversion He; subst.
  rewrite crc7_linear by auto. apply IHl; auto using crc7_update_range.
Qed.

(** The CRC of a message corrupted by error pattern [e]. *)
Lemma crc7_run_error l e c : length l = length e ->
  Forall byte l -> Forall byte e -> 0 <= c < 128 ->
  crc7_run c (xorl l e) = Z.lxor (crc7_run c l) (crc7_run 0 e).
Proof.
  intros. rewrite <- crc7_run_linear by (auto; lia). rewrite Z.lxor_0_r. reflexivity.
Qed.

Lemma lxor_eq_self a b : Z.lxor a b = a -> b = 0.
Proof.
  intros H. rewrite <- (Z.lxor_0_l b), <- (Z.lxor_nilpotent a), Z.lxor_assoc, H.
  reflexivity.
Qed.

(** ** A zero byte acts injectively on the CRC state. *)
Definition inj0_ok (c : Z) : bool := (c =? 0) || negb (crc7_5B_update c 0 =? 0).
Lemma inj0_sweep : below 128 inj0_ok = true.
Proof. vm_compute. reflexivity. Qed.
Lemma crc7_zero_inj c : 0 <= c < 128 -> crc7_5B_update c 0 = 0 -> c = 0.
Proof.
  intros H H0. pose proof (below_spec _ _ inj0_sweep c H) as H1.
  unfold inj0_ok in H1. rewrite H0 in H1. simpl in H1. lia.
Qed.
Lemma crc7_run_app c l1 l2 : crc7_run c (l1 ++ l2) = crc7_run (crc7_run c l1) l2.
Proof. unfold crc7_run. apply fold_left_app. Qed.
Lemma crc7_run_zeros_inj n c : 0 <= c < 128 ->
  crc7_run c (repeat 0 n) = 0 -> c = 0.
Proof.
  revert c. induction n; intros c Hc H; [exact H|].
  unfold crc7_run in *. simpl in H. apply IHn in H; [|apply crc7_update_range].
  apply crc7_zero_inj; auto.
Qed.
Lemma crc7_run_zeros0 n : crc7_run 0 (repeat 0 n) = 0.
Proof. unfold crc7_run. induction n; simpl; auto. Qed.

(** ** Parity: the CRC generator has the factor (x+1), so the parity of the
    CRC equals the parity of the message (xor initial value parity). *)
(** A step changes the parity of the state exactly by the input bit. *)
Definition par_ok (c b : Z) : bool :=
  (ones8 (stp c (b =? 1))) mod 2 =? (ones8 c + b) mod 2.
Lemma par_sweep : below2 128 2 par_ok = true.
Proof. vm_compute. reflexivity. Qed.
Lemma stp_parity c b : 0 <= c < 128 ->
  (ones8 (stp c b)) mod 2 = (ones8 c + Z.b2z b) mod 2.
Proof.
  intros Hc. pose proof (below2_spec _ _ _ par_sweep c (Z.b2z b) Hc) as H.
  unfold par_ok in H. apply Z.eqb_eq.
  replace (Z.b2z b =? 1) with b in H by (destruct b; reflexivity).
  apply H. destruct b; simpl; lia.
Qed.
Lemma fold_stp_parity bs : forall c, 0 <= c < 128 ->
  (ones8 (fold_left stp bs c)) mod 2 =
  (ones8 c + fold_right (fun b a => Z.b2z b + a) 0 bs) mod 2.
Proof.
  induction bs; intros c Hc; cbn [fold_left fold_right].
  - f_equal. lia.
  - rewrite IHbs by apply stp_range. rewrite Z.add_mod, stp_parity by lia.
    rewrite <- Z.add_mod by lia. f_equal. lia.
Qed.
Lemma bits8_ones d : fold_right (fun b a => Z.b2z b + a) 0 (bits8 d) = ones8 d.
Proof.
  unfold bits8, ones8. cbn [fold_right ones_n].
  assert (H : forall k, 0 <= k -> Z.b2z (Z.testbit d k) = (d / 2 ^ k) mod 2).
  { intros. apply Z.testbit_spec'. lia. }
  rewrite !H by lia.
  rewrite !Z.div_div by lia.
  change (2 ^ 0) with 1. rewrite Z.div_1_r.
  change (2 ^ 7) with 128. change (2 ^ 6) with 64. change (2 ^ 5) with 32.
  change (2 ^ 4) with 16. change (2 ^ 3) with 8. change (2 ^ 2) with 4. change (2 ^ 1) with 2.
  change (2 * (2 * (2 * (2 * (2 * (2 * 2)))))) with 128.
  lia.
Qed.
Lemma crc7_update_parity c d : 0 <= c < 128 ->
  (ones8 (crc7_5B_update c d)) mod 2 = (ones8 c + ones8 d) mod 2.
Proof.
  intros. rewrite crc7_update_bits, fold_stp_parity, bits8_ones by auto. reflexivity.
Qed.

Lemma crc7_run_parity c l : 0 <= c < 128 -> Forall byte l ->
  (ones8 (crc7_run c l)) mod 2 = (ones8 c + ones_l l) mod 2.
Proof.
  intros Hc Hl. revert c Hc. induction Hl; intros c Hc.
  - unfold crc7_run; simpl. f_equal. lia.
  - change (crc7_run c (x :: l)) with (crc7_run (crc7_5B_update c x) l).
    rewrite IHHl by apply crc7_update_range.
    pose proof (crc7_update_parity c x Hc) as H1.
    change (ones_l (x :: l)) with (ones8 x + ones_l l).
    rewrite Z.add_mod, H1 by lia. rewrite <- Z.add_mod by lia. f_equal. lia.
Qed.

