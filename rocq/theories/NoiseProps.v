(** C177: the noise read from the analogue inputs reaches the result. *)
From Verif Require Import Base CrcLin PrngModel PrngProps EntropyProps NoiseModel.

(** What a conversion of the hardware gives: a 10-bit value. *)
Definition conv_ok (c : Conv) : Prop := 0 <= cv_polls c /\ byte (cv_lo c) /\ 0 <= cv_hi c < 4.

Definition crc1_ok (a : Z) : bool := (0 <=? crc1 a) && (crc1 a <? 256) && ((negb (crc1 a =? 0)) || (a =? 0)).
Lemma crc1_sweep a : byte a -> byte (crc1 a) /\ (crc1 a = 0 -> a = 0).
Proof.
  intros Ha. assert (B : below 256 crc1_ok = true) by (vm_compute; reflexivity).
  pose proof (below_spec _ _ B a Ha) as P. unfold crc1_ok in P. split; [red; lia|intros E; rewrite E in P; lia].
Qed.
Lemma lxor_eq0 a b : Z.lxor a b = 0 -> a = b.
Proof. intros H. apply (lxor_inj_l b). rewrite Z.lxor_nilpotent, Z.lxor_comm. exact H. Qed.
Lemma crc1_inj a b : byte a -> byte b -> crc1 a = crc1 b -> a = b.
Proof.
  intros Ha Hb H. apply lxor_eq0. apply (crc1_sweep (Z.lxor a b)); [apply lxor8; assumption|].
  rewrite crc1_lin, H. apply Z.lxor_nilpotent.
Qed.
Lemma turn_result c st : noise_turn st c = (u8 (fst st + cv_polls c), crc1 (Z.lxor (Z.lxor (snd st) (cv_hi c)) (Z.lxor (cv_lo c) (u8 (fst st + cv_polls c))))).
Proof. destruct st as [n r]. unfold noise_turn. rewrite crc_ibutton_xor. reflexivity. Qed.
Lemma turn_byte c st : conv_ok c -> byte (snd st) -> byte (snd (noise_turn st c)).
Proof.
  intros (_ & HL & HH) Hr. rewrite turn_result. cbn [snd].
  refine (proj1 (crc1_sweep _ _)). apply lxor8; apply lxor8; try assumption; [red; lia|apply u8_byte].
Qed.
Lemma turns_byte l : forall st, Forall conv_ok l -> byte (snd st) -> byte (snd (fold_left noise_turn l st)).
Proof. induction l; intros st Hl Hs; cbn [fold_left]; [exact Hs|]. inversion Hl; subst. apply IHl; [assumption|]. apply turn_byte; assumption. Qed.
Lemma turns_count l : forall n r r', fst (fold_left noise_turn l (n, r)) = fst (fold_left noise_turn l (n, r')).
Proof. induction l; intros n r r'; [reflexivity|]. cbn [fold_left]. rewrite !turn_result. cbn [fst snd]. apply IHl. Qed.
Lemma lxor_c4 r r' h x : Z.lxor (Z.lxor r h) x = Z.lxor (Z.lxor r' h) x -> r = r'.
Proof. rewrite !Z.lxor_assoc, !(Z.lxor_comm _ (Z.lxor h x)). apply lxor_inj_l. Qed.
(** Different intermediate results with the same count stay different. *)
Lemma turns_inj l : forall n r r', Forall conv_ok l -> byte r -> byte r' ->
  snd (fold_left noise_turn l (n, r)) = snd (fold_left noise_turn l (n, r')) -> r = r'.
Proof.
  induction l as [|c l IH]; intros n r r' Hl Hr Hr' H; cbn [fold_left] in H; [exact H|]. inversion Hl; subst.
  rewrite !turn_result in H. cbn [fst snd] in H. destruct H2 as (_ & HL & HH).
  assert (HX : forall x, byte x -> byte (Z.lxor (Z.lxor x (cv_hi c)) (Z.lxor (cv_lo c) (u8 (n + cv_polls c))))).
  { intros x Hx. apply lxor8; apply lxor8; try assumption; [red; lia|apply u8_byte]. }
  apply IH in H; [|assumption|apply crc1_sweep, HX; assumption|apply crc1_sweep, HX; assumption].
  apply crc1_inj in H; [|apply HX; assumption|apply HX; assumption]. exact (lxor_c4 _ _ _ _ H).
Qed.
Definition start_of v t := (u8 (u8 (cv_polls v) + cv_polls t),
  u8 (Z.lxor (Z.lxor (Z.lxor (Z.shiftl (cv_hi v) 5) (cv_lo t)) (Z.shiftl (cv_hi t) 3)) (u8 (u8 (cv_polls v) + cv_polls t)))).
Lemma noisy_start v t ins : noisy_read v t ins = Z.lxor (snd (fold_left noise_turn ins (start_of v t))) (cv_lo v).
Proof. reflexivity. Qed.

(** Two readings of any one input that differ give different results, all else alike. *)
Theorem noise_input_kept_partial v t a b n lo hi lo' hi' : conv_ok v -> conv_ok t -> Forall conv_ok a -> Forall conv_ok b ->
  conv_ok (mkConv n lo hi) -> conv_ok (mkConv n lo' hi') -> Z.lxor lo hi <> Z.lxor lo' hi' ->
  noisy_read v t (a ++ mkConv n lo hi :: b) <> noisy_read v t (a ++ mkConv n lo' hi' :: b).
Proof.
  intros Hv Ht Ha Hb Hc Hc' Hne H. apply Hne. rewrite !noisy_start, !fold_left_app in H. cbn [fold_left] in H.
  assert (HS : byte (snd (start_of v t))) by apply u8_byte.
  pose proof (turns_byte a _ Ha HS) as HR. set (st := fold_left noise_turn a (start_of v t)) in *.
  rewrite !turn_result in H. cbn [fst snd cv_polls cv_lo cv_hi] in H.
  destruct Hc as (_ & L1 & L2), Hc' as (_ & L3 & L4). cbn [cv_lo cv_hi] in *.
  assert (HX : forall l h, byte l -> 0 <= h < 4 -> byte (Z.lxor (Z.lxor (snd st) h) (Z.lxor l (u8 (fst st + n))))).
  { intros l h Hl Hh. apply lxor8; apply lxor8; try assumption; [red; lia|apply u8_byte]. }
  rewrite !(Z.lxor_comm _ (cv_lo v)) in H. apply lxor_inj_l in H.
  apply turns_inj in H; [|assumption|apply crc1_sweep, HX; assumption|apply crc1_sweep, HX; assumption].
  apply crc1_inj in H; [|apply HX; assumption|apply HX; assumption].
  apply (lxor_inj_l (Z.lxor (snd st) (u8 (fst st + n)))).
  transitivity (Z.lxor (Z.lxor (snd st) hi) (Z.lxor lo (u8 (fst st + n)))); [|rewrite H].
  all: apply Z.bits_inj'; intros k Hk; rewrite !Z.lxor_spec; destruct (Z.testbit (snd st) k), (Z.testbit (u8 (fst st + n)) k), (Z.testbit lo k), (Z.testbit hi k), (Z.testbit lo' k), (Z.testbit hi' k); reflexivity.
Qed.
(** So does the low byte of the supply voltage, and of the temperature. *)
Theorem noise_supply_kept v t ins x : cv_lo v <> x -> noisy_read v t ins <> noisy_read (mkConv (cv_polls v) x (cv_hi v)) t ins.
Proof. intros Hne H. apply Hne. rewrite !noisy_start in H. unfold start_of in H. cbn [cv_polls cv_lo cv_hi] in H. exact (lxor_inj_l _ _ _ H). Qed.
Theorem noise_temperature_kept v t ins x : conv_ok v -> conv_ok t -> Forall conv_ok ins -> byte x -> cv_lo t <> x ->
  noisy_read v t ins <> noisy_read v (mkConv (cv_polls t) x (cv_hi t)) ins.
Proof.
  intros Hv Ht Hi Hx Hne H. apply Hne. rewrite !noisy_start in H. unfold start_of in H. cbn [cv_polls cv_lo cv_hi] in H.
  rewrite !(Z.lxor_comm _ (cv_lo v)) in H. apply lxor_inj_l in H.
  apply turns_inj in H; [|assumption|apply u8_byte|apply u8_byte].
  rewrite !u8_lxor in H. apply lxor_c4 in H. rewrite !(Z.lxor_comm (u8 (Z.shiftl (cv_hi v) 5))) in H.
  rewrite !(Z.lxor_comm _ (u8 (Z.shiftl (cv_hi v) 5))) in H. apply lxor_inj_l in H. destruct Ht as (_ & HL & _).
  rewrite !u8_id in H by assumption. exact H.
Qed.
(** And the time taken by the last conversion, modulo 256. *)
Theorem noise_last_time_kept_partial v t a n n' lo hi : conv_ok v -> conv_ok t -> Forall conv_ok a ->
  conv_ok (mkConv n lo hi) -> n mod 256 <> n' mod 256 ->
  noisy_read v t (a ++ [mkConv n lo hi]) <> noisy_read v t (a ++ [mkConv n' lo hi]).
Proof.
  intros Hv Ht Ha Hc Hne H. apply Hne. rewrite !noisy_start, !fold_left_app in H. cbn [fold_left] in H.
  assert (HS : byte (snd (start_of v t))) by apply u8_byte.
  pose proof (turns_byte a _ Ha HS) as HR. set (st := fold_left noise_turn a (start_of v t)) in *.
  rewrite !turn_result in H. cbn [fst snd cv_polls cv_lo cv_hi] in H. destruct Hc as (_ & L1 & L2). cbn [cv_lo cv_hi] in *.
  rewrite !(Z.lxor_comm _ (cv_lo v)) in H. apply lxor_inj_l in H.
  apply crc1_inj in H; [|apply lxor8; apply lxor8; try assumption; [red; lia|apply u8_byte]|apply lxor8; apply lxor8; try assumption; [red; lia|apply u8_byte]].
  apply lxor_inj_l, lxor_inj_l in H. unfold u8 in H.
  replace n with ((fst st + n) - fst st) by lia. replace n' with ((fst st + n') - fst st) by lia.
  rewrite (Zminus_mod (fst st + n)), (Zminus_mod (fst st + n')), H. reflexivity.
Qed.
(** The times of the others can cancel: one tick more in the first conversion, and the same result. *)
Definition quiet (n : Z) := mkConv n 0 0.
Theorem noise_time_refuted : conv_ok (quiet 1) /\ conv_ok (quiet 2) /\
  noisy_read (quiet 1) (quiet 1) (repeat (quiet 1) 8) = noisy_read (quiet 2) (quiet 1) (repeat (quiet 1) 8).
Proof. unfold conv_ok, quiet, byte. cbn [cv_polls cv_lo cv_hi]. repeat split; try lia. Qed.
(** The bits of the high and low byte of one reading can cancel too: 0x000 and 0x101. *)
Theorem noise_reading_refuted v t a b n : noisy_read v t (a ++ mkConv n 0 0 :: b) = noisy_read v t (a ++ mkConv n 1 1 :: b).
Proof.
  rewrite !noisy_start, !fold_left_app. cbn [fold_left]. rewrite !turn_result. cbn [fst snd cv_polls cv_lo cv_hi].
  replace (Z.lxor (Z.lxor (snd (fold_left noise_turn a (start_of v t))) 1) (Z.lxor 1 (u8 (fst (fold_left noise_turn a (start_of v t)) + n))))
    with (Z.lxor (Z.lxor (snd (fold_left noise_turn a (start_of v t))) 0) (Z.lxor 0 (u8 (fst (fold_left noise_turn a (start_of v t)) + n)))); [reflexivity|].
  apply Z.bits_inj'. intros k Hk. rewrite !Z.lxor_spec, !Z.bits_0. destruct (Z.testbit 1 k), (Z.testbit (snd (fold_left noise_turn a (start_of v t))) k), (Z.testbit (u8 (fst (fold_left noise_turn a (start_of v t)) + n)) k); reflexivity.
Qed.
Theorem noise_byte v t ins : conv_ok v -> Forall conv_ok ins -> byte (noisy_read v t ins).
Proof. intros (_ & HL & _) Hi. rewrite noisy_start. apply lxor8; [|exact HL]. apply turns_byte; [exact Hi|apply u8_byte]. Qed.
Example noise_ex : noisy_read (mkConv 9 200 1) (mkConv 9 90 1) (map (fun i => mkConv 9 (Z.of_nat i) 2) (seq 0 8)) <>
  noisy_read (mkConv 9 200 1) (mkConv 9 90 1) (map (fun i => mkConv 9 (Z.of_nat i) 2) (seq 0 7) ++ [mkConv 9 8 2]).
Proof. vm_compute. discriminate. Qed.
