(** The CRC of JeeLabs packets: algebra and what it detects. *)
From Coq Require Import Btauto.
From Verif Require Import Base OwModel OwProps.
From Verif Require DsProps.
From Verif Require Import JeeModel.
Local Notation filter := List.filter.

(** CRC of a whole message (initial value all ones), by bytes. *)
Definition crc16 (m : list Z) : Z := fold_left crc16_update m 65535.
(** CRC-16/MODBUS check value. *)
Example crc16_check : crc16 [49; 50; 51; 52; 53; 54; 55; 56; 57] = 19255. Proof. reflexivity. Qed.
(** ** One bit *)
Lemma crc_bit_lin s t : crc_bit (Z.lxor s t) = Z.lxor (crc_bit s) (crc_bit t).
Proof.
  unfold crc_bit. rewrite <- !Z.bit0_odd, Z.lxor_spec. rewrite <- !Z.div2_div, !Z.div2_spec, Z.shiftr_lxor.
  destruct (Z.testbit s 0), (Z.testbit t 0); cbn [xorb]; rewrite ?Z.lxor_assoc; f_equal.
  - rewrite <- Z.lxor_assoc, (Z.lxor_comm 40961), Z.lxor_assoc, Z.lxor_nilpotent, Z.lxor_0_r. reflexivity.
  - apply Z.lxor_comm.
Qed.
Lemma iter_lin n s t : crc_shift n (Z.lxor s t) = Z.lxor (crc_shift n s) (crc_shift n t).
Proof. induction n as [|n IH]; [reflexivity|]. cbn [crc_shift]. rewrite IH. apply crc_bit_lin. Qed.
Definition word (s : Z) : Prop := 0 <= s < 65536.
Lemma word_bits s : word s <-> (0 <= s /\ forall j, 16 <= j -> Z.testbit s j = false).
Proof.
  unfold word. split.
  - intros Hv. split; [lia|]. intros j Hj. destruct (Z.eq_dec s 0) as [-> | Hn]; [apply Z.testbit_0_l|].
    apply Z.bits_above_log2; [lia|]. apply Z.log2_lt_pow2; [lia|]. pose proof (Z.pow_le_mono_r 2 16 j). lia.
  - intros [H0 H]. split; [lia|]. destruct (Z.eq_dec s 0) as [-> | Hn]; [lia|].
    assert (Z.log2 s < 16). { destruct (Z.lt_ge_cases (Z.log2 s) 16); [assumption|]. specialize (H _ H1). rewrite Z.bit_log2 in H by lia. discriminate. }
    assert (s < 2 ^ 16) by (apply Z.log2_lt_pow2; lia). lia.
Qed.
Lemma lxor_word s t : word s -> word t -> word (Z.lxor s t).
Proof.
  intros Hs Ht. apply word_bits in Hs as [Hs0 Hs]. apply word_bits in Ht as [Ht0 Ht]. apply word_bits. split; [apply Z.lxor_nonneg; tauto|]. intros j Hj. rewrite Z.lxor_spec, Hs, Ht by exact Hj. reflexivity.
Qed.
Lemma crc_bit_word s : word s -> word (crc_bit s).
Proof. intros Hs. unfold crc_bit. assert (word (s / 2)) by (red in Hs |- *; Z.div_mod_to_equations; lia). destruct (Z.odd s); [|assumption]. apply lxor_word; [assumption|red; lia]. Qed.
Lemma iter_word n s : word s -> word (crc_shift n s).
Proof. intros Hs. induction n as [|n IH]; [exact Hs|]. cbn [crc_shift]. apply crc_bit_word. exact IH. Qed.
Lemma crc_bit_0 s : word s -> crc_bit s = 0 -> s = 0.
Proof.
  intros Hs H. unfold crc_bit in H. red in Hs. destruct (Z.odd s) eqn:E.
  - apply Z.lxor_eq in H. Z.div_mod_to_equations; lia.
  - pose proof (Zmod_odd s) as HM. rewrite E in HM. Z.div_mod_to_equations; lia.
Qed.
Lemma iter_0 n s : word s -> crc_shift n s = 0 -> s = 0.
Proof. intros Hs. induction n as [|n IH]; [auto|]. cbn [crc_shift]. intros H. apply IH. apply crc_bit_0; [apply iter_word; exact Hs|exact H]. Qed.
Lemma iter_add n m s : crc_shift (n + m) s = crc_shift n (crc_shift m s).
Proof. induction n as [|n IH]; [reflexivity|]. cbn [Nat.add crc_shift]. rewrite IH. reflexivity. Qed.

(** ** Bits of messages *)
Definition in_bit (s : Z) (b : bool) : Z := crc_bit (Z.lxor s (Z.b2z b)).
Definition crc_bits (s : Z) (l : list bool) : Z := fold_left in_bit l s.
Lemma crc_bits_app s l l' : crc_bits s (l ++ l') = crc_bits (crc_bits s l) l'.
Proof. apply fold_left_app. Qed.
Lemma crc_bits_cons s b l : crc_bits s (b :: l) = crc_bits (in_bit s b) l.
Proof. reflexivity. Qed.
(** Bits fed in one by one are bits put into the register to begin with. *)
Fixpoint val (l : list bool) : Z := match l with [] => 0 | b :: l => Z.b2z b + 2 * val l end.
Lemma crc_bit_2 x : crc_bit (2 * x) = x.
Proof. unfold crc_bit. rewrite Z.odd_mul. cbn [Z.odd andb]. rewrite Z.mul_comm, Z.div_mul by lia. reflexivity. Qed.
Lemma b2z_lxor b x : Z.b2z b + 2 * x = Z.lxor (Z.b2z b) (2 * x).
Proof.
  apply Z.add_nocarry_lxor. apply Z.bits_inj'. intros j Hj. rewrite Z.land_spec, Z.testbit_0_l. destruct (Z.eq_dec j 0) as [-> | Hn].
  - rewrite Z.testbit_even_0. apply andb_false_r.
  - replace (Z.testbit (Z.b2z b) j) with false; [reflexivity|]. symmetry. destruct b; [|apply Z.testbit_0_l]. change (Z.b2z true) with (2 ^ 0). rewrite Z.pow2_bits_false by lia. reflexivity.
Qed.
Lemma crc_bits_val l : forall s, crc_bits s l = crc_shift (length l) (Z.lxor s (val l)).
Proof.
  induction l as [|b l IH]; intros s; cbn [crc_bits fold_left length val].
  - rewrite Z.lxor_0_r. reflexivity.
  - change (fold_left in_bit l (in_bit s b)) with (crc_bits (in_bit s b) l). rewrite IH. replace (S (length l)) with (length l + 1)%nat by lia. rewrite iter_add. f_equal. cbn [crc_shift].
    rewrite b2z_lxor, <- Z.lxor_assoc, crc_bit_lin, crc_bit_2. reflexivity.
Qed.
Definition bits_of (n : nat) (v : Z) : list bool := map (fun k => Z.testbit v (Z.of_nat k)) (seq 0 n).
Lemma val_bits n : forall v, 0 <= v < 2 ^ Z.of_nat n -> val (bits_of n v) = v.
Proof.
  induction n as [|n IH]; intros v Hv; [cbn in Hv |- *; lia|]. unfold bits_of. cbn [seq map val]. rewrite <- seq_shift, map_map.
  rewrite (map_ext _ (fun k => Z.testbit (v / 2) (Z.of_nat k))). 2:{ intros k. rewrite <- Z.div2_div, Z.div2_spec, Z.shiftr_spec by lia. f_equal. lia. }
  fold (bits_of n (v / 2)). rewrite IH. 2:{ rewrite Nat2Z.inj_succ, Z.pow_succ_r in Hv by lia. Z.div_mod_to_equations; lia. }
  change (Z.of_nat 0) with 0. rewrite Z.bit0_odd. pose proof (Zmod_odd v). destruct (Z.odd v); cbn [Z.b2z]; Z.div_mod_to_equations; lia.
Qed.
(** All the bits of a message, in the order of [abit]. *)
Definition mbits (m : list Z) : list bool := map (abit m) (seq 0 (8 * length m)).
Lemma mbits_cons a m : byte a -> mbits (a :: m) = bits_of 8 a ++ mbits m.
Proof.
  intros Ha. unfold mbits. cbn [length]. replace (8 * S (length m))%nat with (8 + 8 * length m)%nat by lia. rewrite seq_app, map_app. apply f_equal2.
  - apply map_ext_in. intros k Hk. apply in_seq in Hk. unfold abit. replace (Z.of_nat k / 8) with 0 by (Z.div_mod_to_equations; lia). replace (Z.of_nat k mod 8) with (Z.of_nat k) by (Z.div_mod_to_equations; lia). reflexivity.
  - change (0 + 8)%nat with 8%nat. replace (seq 8 (8 * length m)) with (map (fun k => (8 + k)%nat) (seq 0 (8 * length m))).
    + rewrite map_map. apply map_ext. intros k. unfold abit. replace (Z.of_nat (8 + k) / 8) with (Z.of_nat k / 8 + 1) by (Z.div_mod_to_equations; lia). replace (Z.of_nat (8 + k) mod 8) with (Z.of_nat k mod 8) by (Z.div_mod_to_equations; lia). f_equal.
      rewrite znth_cons by (Z.div_mod_to_equations; lia). replace (Z.of_nat k / 8 + 1 =? 0) with false by (symmetry; apply Z.eqb_neq; Z.div_mod_to_equations; lia). f_equal. lia.
    + generalize (8 * length m)%nat. intros n. apply nth_ext with (d := 0%nat) (d' := 0%nat); [rewrite map_length, !seq_length; reflexivity|]. intros i Hi. rewrite map_length, seq_length in Hi.
      rewrite (nth_indep _ 0%nat (8 + 0)%nat) by (rewrite map_length, seq_length; exact Hi). rewrite (map_nth (fun k => (8 + k)%nat)). rewrite !seq_nth by exact Hi. lia.
Qed.
Lemma crc_bytes m : Forall byte m -> forall s, fold_left crc16_update m s = crc_bits s (mbits m).
Proof.
  induction 1 as [|a m Ha HF IH]; intros s; [reflexivity|]. cbn [fold_left]. rewrite mbits_cons by exact Ha. rewrite crc_bits_app.
  rewrite IH. f_equal. rewrite crc_bits_val, val_bits by (red in Ha; cbn; lia). reflexivity.
Qed.
(** The CRCs of two messages differ by that of the difference of their bits. *)
Definition diff (f g : list bool) : list bool := map (fun '(x, y) => xorb x y) (combine f g).
Lemma crc_bits_lin : forall f g s t, length f = length g -> Z.lxor (crc_bits s f) (crc_bits t g) = crc_bits (Z.lxor s t) (diff f g).
Proof.
  induction f as [|x f IH]; intros [|y g] s t HL; try discriminate; [reflexivity|]. cbn [crc_bits fold_left diff combine map].
  change (Z.lxor (crc_bits (in_bit s x) f) (crc_bits (in_bit t y) g) = crc_bits (in_bit (Z.lxor s t) (xorb x y)) (diff f g)). rewrite IH by (cbn [length] in HL; lia). f_equal.
  unfold in_bit. rewrite <- crc_bit_lin. f_equal. rewrite !Z.lxor_assoc. f_equal. rewrite (Z.lxor_comm (Z.b2z x)), Z.lxor_assoc. f_equal. destruct x, y; reflexivity.
Qed.
Lemma crc16_diff f g : Forall byte f -> Forall byte g -> length f = length g -> Z.lxor (crc16 f) (crc16 g) = crc_bits 0 (diff (mbits f) (mbits g)).
Proof.
  intros Hf Hg HL. unfold crc16. rewrite !crc_bytes by assumption. rewrite crc_bits_lin; [rewrite Z.lxor_nilpotent; reflexivity|]. unfold mbits. rewrite !map_length, !seq_length. lia.
Qed.
Lemma diff_nth f g k : length f = length g -> (k < length (mbits f))%nat -> nth k (diff (mbits f) (mbits g)) false = xorb (abit f k) (abit g k).
Proof.
  intros HL Hk. assert (HK : (k < 8 * length f)%nat) by (unfold mbits in Hk; rewrite map_length, seq_length in Hk; exact Hk).
  unfold diff. assert (HLc : length (mbits f) = length (mbits g)) by (unfold mbits; rewrite !map_length, !seq_length; lia).
  change false with ((fun '(x, y) => xorb x y) (false, false)). rewrite map_nth. rewrite combine_nth by exact HLc.
  assert (HM : forall m, (k < 8 * length m)%nat -> nth k (mbits m) false = abit m k).
  { intros m Hm. unfold mbits. rewrite (nth_indep _ false (abit m 0)) by (rewrite map_length, seq_length; exact Hm). rewrite map_nth, seq_nth by exact Hm. reflexivity. }
  rewrite !HM by lia. reflexivity.
Qed.
Lemma diff_len f g : length f = length g -> length (diff (mbits f) (mbits g)) = (8 * length f)%nat.
Proof. intros HL. unfold diff. rewrite map_length, combine_length. unfold mbits. rewrite !map_length, !seq_length. lia. Qed.

(** ** Bursts *)
Lemma crc_zeros n s : crc_bits s (repeat false n) = crc_shift n s.
Proof.
  rewrite crc_bits_val, repeat_length. f_equal. replace (val (repeat false n)) with 0; [apply Z.lxor_0_r|]. induction n as [|n IH]; [reflexivity|]. cbn [repeat val]. rewrite <- IH. reflexivity.
Qed.
Lemma shift_zero n : crc_shift n 0 = 0. Proof. induction n as [|n IH]; [reflexivity|]. cbn [crc_shift]. rewrite IH. reflexivity. Qed.
Lemma val_word l : (length l <= 16)%nat -> word (val l).
Proof.
  intros HL. assert (H : 0 <= val l < 2 ^ Z.of_nat (length l)).
  { clear HL. induction l as [|b l IH]; cbn [val length]; [lia|]. rewrite Nat2Z.inj_succ, Z.pow_succ_r by lia. destruct b; cbn [Z.b2z]; lia. }
  pose proof (Z.pow_le_mono_r 2 (Z.of_nat (length l)) 16). red. lia.
Qed.
Lemma val_0 l : val l = 0 -> forall k, nth k l false = false.
Proof.
  induction l as [|b l IH]; intros H k; [destruct k; reflexivity|]. cbn [val] in H. assert (Hv : 0 <= val l) by (clear; induction l as [|b l IH]; cbn [val]; [lia|destruct b; cbn [Z.b2z]; lia]).
  destruct b; cbn [Z.b2z] in H; [lia|]. destruct k as [|k]; cbn [nth]; [reflexivity|]. apply IH. lia.
Qed.
Lemma all_false l : (forall k, nth k l false = false) -> l = repeat false (length l).
Proof. induction l as [|b l IH]; intros H; [reflexivity|]. cbn [length repeat]. rewrite <- IH; [f_equal; exact (H 0%nat)|]. intros k. exact (H (S k)). Qed.
Lemma nth_skipn {A} n : forall (l : list A) k d, nth k (skipn n l) d = nth (n + k) l d.
Proof. induction n as [|n IH]; intros l k d; [reflexivity|]. destruct l as [|x l]; [destruct k; reflexivity|]. cbn [skipn Nat.add nth]. apply IH. Qed.
Lemma nth_firstn {A} n : forall (l : list A) k d, nth k (firstn n l) d = if (k <? n)%nat then nth k l d else d.
Proof.
  induction n as [|n IH]; intros l k d; [destruct k; reflexivity|]. destruct l as [|x l]; [cbn [firstn]; destruct k; destruct (_ <? _)%nat; reflexivity|]. destruct k as [|k]; [reflexivity|]. cbn [firstn nth]. rewrite IH. reflexivity.
Qed.
Lemma burst l k0 : (forall k, nth k l false = true -> (k0 <= k < k0 + 16)%nat) -> crc_bits 0 l = 0 -> forall k, nth k l false = false.
Proof.
  intros HB H0. rewrite <- (firstn_skipn k0 l) in H0. rewrite <- (firstn_skipn 16 (skipn k0 l)) in H0.
  assert (E1 : firstn k0 l = repeat false (length (firstn k0 l))).
  { apply all_false. intros k. rewrite nth_firstn. destruct (k <? k0)%nat eqn:E; [|reflexivity]. apply Nat.ltb_lt in E. destruct (nth k l false) eqn:E2; [|reflexivity]. apply HB in E2. lia. }
  assert (E3 : skipn 16 (skipn k0 l) = repeat false (length (skipn 16 (skipn k0 l)))).
  { apply all_false. intros k. rewrite !nth_skipn. destruct (nth (k0 + (16 + k)) l false) eqn:E2; [|reflexivity]. apply HB in E2. lia. }
  rewrite E1, E3 in H0. rewrite !crc_bits_app in H0. rewrite !crc_zeros, shift_zero in H0.
  rewrite crc_bits_val, Z.lxor_0_l, <- iter_add in H0.
  apply iter_0 in H0; [|apply val_word; rewrite firstn_length; lia]. intros k. destruct (nth k l false) eqn:E; [|reflexivity]. pose proof (HB k E) as HK. pose proof (val_0 _ H0 (k - k0)%nat) as HV. rewrite nth_firstn, nth_skipn in HV.
  replace (k - k0 <? 16)%nat with true in HV by (symmetry; apply Nat.ltb_lt; lia). replace (k0 + (k - k0))%nat with k in HV by lia. congruence.
Qed.
(** Any change confined to 16 consecutive bits is detected. *)
Theorem crc16_burst : forall f g k0, Forall byte f -> Forall byte g -> length f = length g -> f <> g ->
  (forall k, (k < 8 * length f)%nat -> abit f k <> abit g k -> (k0 <= k < k0 + 16)%nat) -> crc16 f <> crc16 g.
Proof.
  intros f g k0 Hf Hg HL Hn HB HE. apply Hn. pose proof (crc16_diff f g Hf Hg HL) as HD. rewrite HE, Z.lxor_nilpotent in HD. symmetry in HD.
  assert (HK : forall k, (k < 8 * length f)%nat -> (k < length (mbits f))%nat) by (intros k Hk; unfold mbits; rewrite map_length, seq_length; exact Hk).
  assert (HA : forall k, nth k (diff (mbits f) (mbits g)) false = false).
  { apply (burst _ k0); [|exact HD]. intros k Hk. destruct (Nat.lt_ge_cases k (8 * length f)) as [Hl | Hl].
    - rewrite diff_nth in Hk by auto. apply HB; [exact Hl|]. intros E. rewrite E, xorb_nilpotent in Hk. discriminate.
    - rewrite nth_overflow in Hk by (rewrite diff_len by exact HL; exact Hl). discriminate. }
  apply (DsProps.abit_extn (Zlen f)); [reflexivity|unfold Zlen; lia|exact Hf|exact Hg|]. unfold Zlen. rewrite Nat2Z.id. intros k Hk. specialize (HA k). rewrite diff_nth in HA by auto. destruct (abit f k), (abit g k); try reflexivity; discriminate.
Qed.
(** ** Two bits *)
Lemma period : forall d, (1 <= d < 2048)%nat -> crc_shift d 1 <> 1.
Proof.
  assert (H : forall n s, (fix go n s := match n with O => true | S n => negb (s =? 1) && go n (crc_bit s) end) n s = true -> forall d, (d < n)%nat -> crc_shift d s <> 1).
  { induction n as [|n IH]; intros s Hg d Hd; [lia|]. apply andb_true_iff in Hg as [H1 H2]. destruct d as [|d].
    - cbn [crc_shift]. apply negb_true_iff in H1. lia.
    - replace (S d) with (d + 1)%nat by lia. rewrite iter_add. cbn [crc_shift]. apply (IH _ H2). lia. }
  intros d Hd. replace d with (d - 1 + 1)%nat by lia. rewrite iter_add. cbn [crc_shift]. apply (H 2047%nat); [vm_compute; reflexivity|lia].
Qed.
Lemma shift_inj n s t : word s -> word t -> crc_shift n s = crc_shift n t -> s = t.
Proof. intros Hs Ht H. apply Z.lxor_eq. apply (iter_0 n); [apply lxor_word; assumption|]. rewrite iter_lin, H. apply Z.lxor_nilpotent. Qed.
(** Any two changed bits in a message of up to 255 bytes are detected. *)
Theorem crc16_two_bits : forall f g i j, Forall byte f -> Forall byte g -> length f = length g -> (length f <= 255)%nat -> (i < j < 8 * length f)%nat ->
  (forall k, (k < 8 * length f)%nat -> (abit f k <> abit g k <-> k = i \/ k = j)) -> crc16 f <> crc16 g.
Proof.
  intros f g i j Hf Hg HL H255 Hij HB HE. pose proof (crc16_diff f g Hf Hg HL) as HD. rewrite HE, Z.lxor_nilpotent in HD. symmetry in HD.
  assert (EL : diff (mbits f) (mbits g) = repeat false i ++ true :: repeat false (j - i - 1) ++ true :: repeat false (8 * length f - j - 1)).
  { apply nth_ext with (d := false) (d' := false).
    - rewrite diff_len by exact HL. rewrite app_length. cbn [length]. rewrite app_length. cbn [length]. rewrite !repeat_length. lia.
    - intros k Hk. rewrite diff_len in Hk by exact HL. rewrite diff_nth; [|exact HL|unfold mbits; rewrite map_length, seq_length; exact Hk].
      assert (HX : xorb (abit f k) (abit g k) = (k =? i)%nat || (k =? j)%nat).
      { specialize (HB k Hk). destruct (k =? i)%nat eqn:E1; [apply Nat.eqb_eq in E1|apply Nat.eqb_neq in E1]; (destruct (k =? j)%nat eqn:E2; [apply Nat.eqb_eq in E2|apply Nat.eqb_neq in E2]); destruct (abit f k), (abit g k); cbn [xorb orb]; try reflexivity; exfalso;
          try (apply (proj2 HB); [tauto|reflexivity]); (assert (k = i \/ k = j) as [? | ?] by (apply HB; discriminate); congruence). }
      rewrite HX. assert (HN : forall n m, nth m (repeat false n) false = false) by (induction n as [|n IH]; intros [|m]; cbn [repeat nth]; auto).
      destruct (Nat.lt_trichotomy k i) as [H | [-> | H]].
      + rewrite app_nth1 by (rewrite repeat_length; exact H). rewrite HN. replace (k =? i)%nat with false by (symmetry; apply Nat.eqb_neq; lia). replace (k =? j)%nat with false by (symmetry; apply Nat.eqb_neq; lia). reflexivity.
      + rewrite app_nth2 by (rewrite repeat_length; lia). rewrite repeat_length, Nat.sub_diag. cbn [nth]. rewrite Nat.eqb_refl. reflexivity.
      + rewrite app_nth2 by (rewrite repeat_length; lia). rewrite repeat_length. replace (k - i)%nat with (S (k - i - 1)) by lia. cbn [nth]. replace (k =? i)%nat with false by (symmetry; apply Nat.eqb_neq; lia). cbn [orb].
        destruct (Nat.lt_trichotomy k j) as [H1 | [-> | H1]].
        * rewrite app_nth1 by (rewrite repeat_length; lia). rewrite HN. apply Nat.eqb_neq. lia.
        * rewrite app_nth2 by (rewrite repeat_length; lia). rewrite repeat_length, Nat.sub_diag. cbn [nth]. apply Nat.eqb_refl.
        * rewrite app_nth2 by (rewrite repeat_length; lia). rewrite repeat_length. replace (k - i - 1 - (j - i - 1))%nat with (S (k - j - 1)) by lia. cbn [nth]. rewrite HN. apply Nat.eqb_neq. lia. }
  rewrite EL in HD. rewrite crc_bits_app, crc_zeros, shift_zero, crc_bits_cons, crc_bits_app, crc_zeros, crc_bits_cons, crc_zeros in HD. unfold in_bit in HD. change (Z.b2z true) with 1 in HD. rewrite Z.lxor_0_l in HD.
  change (crc_bit 1) with (crc_shift 1 1) in HD. rewrite <- iter_add in HD.
  assert (W1 : word 1) by (red; lia). assert (W2 : word (crc_shift (j - i - 1 + 1) 1)) by (apply iter_word; exact W1).
  apply iter_0 in HD; [|apply crc_bit_word; apply lxor_word; assumption]. apply crc_bit_0 in HD; [|apply lxor_word; assumption]. apply Z.lxor_eq in HD. revert HD. apply period. lia.
Qed.
(** ** Odd numbers of bits *)
Definition par (s : Z) : bool := fold_right xorb false (map (fun k => Z.testbit s (Z.of_nat k)) (seq 0 16)).
Lemma par_bit s : word s -> par (crc_bit s) = par s.
Proof.
  intros Hs. apply word_bits in Hs as [_ Hs]. unfold par.
  assert (E : forall k, 0 <= k -> Z.testbit (crc_bit s) k = xorb (Z.testbit s (k + 1)) (Z.testbit s 0 && Z.testbit 40961 k)).
  { intros k Hk. unfold crc_bit. rewrite <- Z.bit0_odd, <- Z.div2_div, Z.div2_spec. destruct (Z.testbit s 0); cbn [andb]; [rewrite Z.lxor_spec|]; rewrite Z.shiftr_spec by lia; [reflexivity|rewrite xorb_false_r; reflexivity]. }
  cbn [seq map fold_right]. rewrite !E by lia.
  repeat match goal with |- context [Z.testbit 40961 ?k] => let v := eval vm_compute in (Z.testbit 40961 k) in change (Z.testbit 40961 k) with v end.
  rewrite !andb_false_r, !andb_true_r, !xorb_false_r.
  repeat match goal with |- context [Z.of_nat ?n + 1] => let v := eval vm_compute in (Z.of_nat n + 1) in change (Z.of_nat n + 1) with v end.
  rewrite (Hs 16) by lia.
  repeat match goal with |- context [Z.of_nat ?n] => let v := eval vm_compute in (Z.of_nat n) in change (Z.of_nat n) with v end.
  btauto.
Qed.
Lemma par_lxor s t : par (Z.lxor s t) = xorb (par s) (par t).
Proof.
  unfold par. induction (seq 0 16) as [|k l IH]; [reflexivity|]. cbn [map fold_right]. rewrite IH, Z.lxor_spec. destruct (Z.testbit s (Z.of_nat k)), (Z.testbit t (Z.of_nat k)), (fold_right xorb false (map (fun k => Z.testbit s (Z.of_nat k)) l)), (fold_right xorb false (map (fun k => Z.testbit t (Z.of_nat k)) l)); reflexivity.
Qed.
Lemma par_bits : forall l s, word s -> par (crc_bits s l) = xorb (par s) (Nat.odd (length (filter (fun b => b) l))).
Proof.
  induction l as [|b l IH]; intros s Hs; [cbn [crc_bits fold_left filter length]; change (Nat.odd 0) with false; rewrite xorb_false_r; reflexivity|]. change (crc_bits s (b :: l)) with (crc_bits (in_bit s b) l).
  assert (Hb : word (Z.lxor s (Z.b2z b))) by (apply lxor_word; [exact Hs|destruct b; red; cbn [Z.b2z]; lia]).
  rewrite IH by (apply crc_bit_word; exact Hb). unfold in_bit. rewrite par_bit by exact Hb. rewrite par_lxor. replace (par (Z.b2z b)) with b by (destruct b; reflexivity).
  cbn [filter]. destruct b; cbn [length]; [|rewrite xorb_false_r; reflexivity]. rewrite Nat.odd_succ, <- Nat.negb_odd. destruct (par s), (Nat.odd (length (filter (fun b => b) l))); reflexivity.
Qed.
(** Any odd number of changed bits is detected. *)
Theorem crc16_odd : forall f g, Forall byte f -> Forall byte g -> length f = length g ->
  Nat.odd (length (filter (fun k => xorb (abit f k) (abit g k)) (seq 0 (8 * length f)))) = true -> crc16 f <> crc16 g.
Proof.
  intros f g Hf Hg HL HO HE. pose proof (crc16_diff f g Hf Hg HL) as HD. rewrite HE, Z.lxor_nilpotent in HD.
  pose proof (par_bits (diff (mbits f) (mbits g)) 0 ltac:(red; lia)) as HP. rewrite <- HD in HP. change (par 0) with false in HP. rewrite xorb_false_l in HP.
  assert (EQ : length (filter (fun b => b) (diff (mbits f) (mbits g))) = length (filter (fun k => xorb (abit f k) (abit g k)) (seq 0 (8 * length f)))); [|rewrite EQ, HO in HP; discriminate].
  unfold diff, mbits. rewrite <- HL. generalize (seq 0 (8 * length f)). intros l. induction l as [|k l IH]; [reflexivity|]. cbn [map combine filter]. destruct (xorb (abit f k) (abit g k)); cbn [length]; rewrite IH; reflexivity.
Qed.
