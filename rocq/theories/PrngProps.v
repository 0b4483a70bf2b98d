(** C134: RNG8 never latches up, loses no state and loses no seed material.
    C135: how much of each noise source reaches the "secure" random byte. *)
From Verif Require Import Base CrcLin PrngModel.

Definition rng_ok (s : Rng) : Prop :=
  byte (rg_x s) /\ byte (rg_a s) /\ byte (rg_b s) /\ byte (rg_c s).

(** n calls to randRNG8, keeping the state. *)
Fixpoint rng_calls (n : nat) (s : Rng) : Rng :=
  match n with O => s | S n => rng_calls n (fst (randRNG8 s)) end.

Lemma half_byte b : byte b -> 0 <= Z.shiftr b 1 < 128.
Proof.
  unfold byte. intros. rewrite Z.shiftr_div_pow2 by lia. change (2 ^ 1) with 2.
  split; [apply Z.div_pos; lia | apply Z.div_lt_upper_bound; lia].
Qed.

Lemma rng_step_ok s : rng_ok s -> rng_ok (rng_step s).
Proof.
  intros (Hx & Ha & Hb & Hc). unfold rng_step, rng_ok.
  cbn [rg_x rg_a rg_b rg_c].
  assert (byte (Z.lxor (Z.lxor (rg_a s) (rg_c s)) (u8 (rg_x s + 1))))
    by (apply lxor8; [apply lxor8; assumption | apply u8_byte]).
  split; [apply u8_byte|]. split; [assumption|]. split; [apply u8_byte|].
  apply lxor8; [apply u8_byte | assumption].
Qed.

(** The previous state, recovered. *)
Definition rng_prev (s : Rng) : Rng :=
  let c := u8 (Z.lxor (rg_c s) (rg_a s) - Z.shiftr (rg_b s) 1) in
  let b := u8 (rg_b s - rg_a s) in
  let a := Z.lxor (Z.lxor (rg_a s) c) (rg_x s) in
  let x := u8 (rg_x s - 1) in
  mkRng x a b c.

Lemma u8_undo a b : byte a -> u8 (u8 (a + b) - b) = a.
Proof.
  intros H. unfold u8. rewrite Zminus_mod_idemp_l.
  replace (a + b - b) with a by lia. apply (u8_id a H).
Qed.

Lemma u8_redo a b : byte a -> u8 (u8 (a - b) + b) = a.
Proof.
  intros H. unfold u8. rewrite Zplus_mod_idemp_l.
  replace (a - b + b) with a by lia. apply (u8_id a H).
Qed.

Lemma lxor_undo a b : Z.lxor (Z.lxor a b) b = a.
Proof. rewrite Z.lxor_assoc, Z.lxor_nilpotent, Z.lxor_0_r. reflexivity. Qed.

Lemma lxor_undo2 a b c : Z.lxor (Z.lxor (Z.lxor (Z.lxor a b) c) b) c = a.
Proof.
  rewrite (Z.lxor_assoc (Z.lxor a b) c b), (Z.lxor_comm c b), <- Z.lxor_assoc.
  rewrite lxor_undo, lxor_undo. reflexivity.
Qed.

Lemma rng_prev_step s : rng_ok s -> rng_prev (rng_step s) = s.
Proof.
  intros (Hx & Ha & Hb & Hc). unfold rng_prev, rng_step.
  cbn [rg_x rg_a rg_b rg_c].
  rewrite lxor_undo, !u8_undo by assumption.
  rewrite lxor_undo2. destruct s; reflexivity.
Qed.

Lemma rng_step_prev s : rng_ok s -> rng_step (rng_prev s) = s.
Proof.
  intros (Hx & Ha & Hb & Hc). unfold rng_prev, rng_step.
  cbn [rg_x rg_a rg_b rg_c].
  rewrite (u8_redo (rg_x s)) by assumption.
  rewrite lxor_undo2. rewrite (u8_redo (rg_b s)) by assumption.
  rewrite u8_redo by (apply lxor8; assumption).
  rewrite lxor_undo. destruct s; reflexivity.
Qed.

Lemma rng_prev_ok s : rng_ok s -> rng_ok (rng_prev s).
Proof.
  intros (Hx & Ha & Hb & Hc). unfold rng_prev, rng_ok. cbn [rg_x rg_a rg_b rg_c].
  split; [apply u8_byte|]. split.
  { apply lxor8; [apply lxor8; [assumption | apply u8_byte] | assumption]. }
  split; apply u8_byte.
Qed.

Lemma rng_calls_ok n : forall s, rng_ok s -> rng_ok (rng_calls n s).
Proof. induction n; intros s H; cbn [rng_calls randRNG8 fst]; auto using rng_step_ok. Qed.

Lemma rng_calls_add n m s : rng_calls (n + m) s = rng_calls m (rng_calls n s).
Proof. revert s. induction n; intros; cbn [Nat.add rng_calls]; auto. Qed.

Lemma rng_calls_inj n : forall s t, rng_ok s -> rng_ok t ->
  rng_calls n s = rng_calls n t -> s = t.
Proof.
  induction n; intros s t Hs Ht H; cbn [rng_calls randRNG8 fst] in H; auto.
  apply IHn in H; auto using rng_step_ok.
  rewrite <- (rng_prev_step s), <- (rng_prev_step t), H by assumption. reflexivity.
Qed.

Lemma rng_calls_x n : forall s, rng_ok s ->
  rg_x (rng_calls n s) = u8 (rg_x s + Z.of_nat n).
Proof.
  induction n; intros s H; cbn [rng_calls randRNG8 fst].
  - rewrite Z.add_0_r. symmetry. apply u8_id, H.
  - rewrite IHn by (apply rng_step_ok, H).
    unfold rng_step. cbn [rg_x]. unfold u8. rewrite Zplus_mod_idemp_l. f_equal. lia.
Qed.

(** States as numbers below 2^32. *)
Definition rng_code (s : Rng) : Z :=
  ((rg_x s * 256 + rg_a s) * 256 + rg_b s) * 256 + rg_c s.

Lemma rng_code_inj s t : rng_ok s -> rng_ok t -> rng_code s = rng_code t -> s = t.
Proof.
  destruct s as [x a b c], t as [x' a' b' c'].
  unfold rng_ok, rng_code, byte; cbn [rg_x rg_a rg_b rg_c]. intros H1 H2 H.
  assert (c = c' /\ b = b' /\ a = a' /\ x = x') by lia. intuition subst; reflexivity.
Qed.

Lemma not_NoDup_split {A} (dec : forall a b : A, {a = b} + {a <> b}) (l : list A) :
  ~ NoDup l -> exists l1 x l2 l3, l = l1 ++ x :: l2 ++ x :: l3.
Proof.
  induction l as [|a l IH]; intros H; [destruct H; constructor|].
  destruct (in_dec dec a l) as [Hi|Hn].
  - apply in_split in Hi. destruct Hi as (l2 & l3 & ->).
    exists [], a, l2, l3. reflexivity.
  - destruct IH as (l1 & x & l2 & l3 & ->).
    + intros Hd. apply H. constructor; assumption.
    + exists (a :: l1), x, l2, l3. reflexivity.
Qed.

(** Every state comes back: pigeonhole over the 2^32 states plus injectivity. *)
Lemma rng_recurs s : rng_ok s -> exists n, (0 < n)%nat /\ rng_calls n s = s.
Proof.
  intros Hs.
  assert (HN : exists N : nat, Z.of_nat N = 4294967296)
    by (exists (Z.to_nat 4294967296); apply Z2Nat.id; discriminate).
  destruct HN as (N & HN).
  set (l := map (fun i => rng_code (rng_calls i s)) (seq 0 (S N))).
  assert (Hdup : ~ NoDup l).
  { intros Hd.
    assert (Hin : incl l (map Z.of_nat (seq 0 N))).
    { intros z Hz. unfold l in Hz. apply in_map_iff in Hz.
      destruct Hz as (i & <- & _). pose proof (rng_calls_ok i s Hs) as Hok.
      set (t := rng_calls i s) in *.
      assert (Hb : 0 <= rng_code t < Z.of_nat N).
      { rewrite HN. unfold rng_ok, byte, rng_code in *. lia. }
      clear HN.
      apply in_map_iff. exists (Z.to_nat (rng_code t)). split; [lia|].
      apply in_seq. lia. }
    pose proof (NoDup_incl_length Hd Hin) as Hl. unfold l in Hl.
    rewrite !map_length, !seq_length in Hl. clear HN. lia. }
  clear HN.
  destruct (not_NoDup_split Z.eq_dec l Hdup) as (l1 & z & l2 & l3 & E).
  assert (Hi : nth_error l (length l1) = Some z).
  { rewrite E, nth_error_app2 by lia. rewrite Nat.sub_diag. reflexivity. }
  set (j := (length l1 + S (length l2))%nat).
  assert (Hj : nth_error l j = Some z).
  { unfold j. rewrite E, nth_error_app2 by lia.
    replace (length l1 + S (length l2) - length l1)%nat with (S (length l2)) by lia.
    cbn [nth_error]. rewrite nth_error_app2 by lia. rewrite Nat.sub_diag. reflexivity. }
  assert (Hnth : forall k, nth_error l k = Some z -> z = rng_code (rng_calls k s)).
  { intros k Hk. unfold l in Hk.
    assert (Hlt : (k < S N)%nat).
    { assert (nth_error (map (fun i => rng_code (rng_calls i s)) (seq 0 (S N))) k <> None)
        by congruence.
      apply nth_error_Some in H. rewrite map_length, seq_length in H. exact H. }
    rewrite (map_nth_error (fun i => rng_code (rng_calls i s)) k (seq 0 (S N)) (d := k)) in Hk.
    - congruence.
    - rewrite (nth_error_nth' (seq 0 (S N)) 0%nat).
      + rewrite seq_nth by assumption. reflexivity.
      + rewrite seq_length. assumption. }
  apply Hnth in Hi. apply Hnth in Hj.
  exists (S (length l2)). split; [lia|].
  unfold j in Hj. rewrite Nat.add_comm, rng_calls_add in Hj.
  apply (rng_calls_inj (length l1)).
  - apply rng_calls_ok, Hs.
  - exact Hs.
  - apply rng_code_inj; try (apply rng_calls_ok; auto using rng_calls_ok).
    congruence.
Qed.

(** C134.  For every state: the generator keeps its four bytes; distinct
    states never merge (and every state has a predecessor), so the sequence of
    states is a cycle that returns to the starting state, its length a
    multiple of 256 - in particular no state is stationary; seeding with any
    three bytes is reversible, so with any two seed bytes fixed different
    third bytes give different generator states, and no seed can undo
    diversity already in the state. *)
Theorem rng8_no_latch_up :
  forall s : Rng, rng_ok s ->
    rng_ok (fst (randRNG8 s)) /\
    (forall t, rng_ok t -> fst (randRNG8 s) = fst (randRNG8 t) -> s = t) /\
    (exists p, rng_ok p /\ fst (randRNG8 p) = s) /\
    (exists n, (0 < n)%nat /\ rng_calls n s = s) /\
    (forall n, rng_calls n s = s -> (Z.of_nat n) mod 256 = 0) /\
    fst (randRNG8 s) <> s.
Proof.
  intros s Hs. split; [apply rng_step_ok, Hs|]. split.
  { intros t Ht H. apply (rng_calls_inj 1); auto. }
  split.
  { exists (rng_prev s). split; [apply rng_prev_ok, Hs | apply rng_step_prev, Hs]. }
  split; [apply rng_recurs, Hs|].
  assert (Hm : forall n, rng_calls n s = s -> (Z.of_nat n) mod 256 = 0).
  { intros n H. apply (f_equal rg_x) in H. rewrite rng_calls_x in H by assumption.
    destruct Hs as (Hx & _). unfold u8, byte in *.
    set (x := rg_x s) in *.
    pose proof (Z.div_mod (x + Z.of_nat n) 256 ltac:(lia)) as Hd.
    rewrite H in Hd. replace (Z.of_nat n) with ((x + Z.of_nat n) / 256 * 256) by lia.
    apply Z_mod_mult. }
  split; [exact Hm|].
  intros H. pose proof (Hm 1%nat) as H1. cbn [rng_calls] in H1.
  apply H1 in H. vm_compute in H. discriminate.
Qed.

Theorem rng8_seeding_reversible :
  forall s t s1 s2 s3 t1 t2 t3,
    rng_ok s -> rng_ok t ->
    byte s1 -> byte s2 -> byte s3 -> byte t1 -> byte t2 -> byte t3 ->
    rng_ok (seedRNG8 s s1 s2 s3) /\
    (seedRNG8 s s1 s2 s3 = seedRNG8 s t1 t2 t3 -> s1 = t1 /\ s2 = t2 /\ s3 = t3) /\
    (seedRNG8 s s1 s2 s3 = seedRNG8 t s1 s2 s3 -> s = t).
Proof.
  intros s t s1 s2 s3 t1 t2 t3 Hs Ht H1 H2 H3 H1' H2' H3'.
  assert (Hok : forall s s1 s2 s3, rng_ok s -> byte s1 -> byte s2 -> byte s3 ->
    rng_ok (mkRng (rg_x s) (Z.lxor (rg_a s) s1) (Z.lxor (rg_b s) s2) (Z.lxor (rg_c s) s3))).
  { clear. intros s s1 s2 s3 (Hx & Ha & Hb & Hc) H1 H2 H3. unfold rng_ok.
    cbn [rg_x rg_a rg_b rg_c]. auto using lxor8. }
  assert (Hinj : forall p q, rng_ok p -> rng_ok q -> rng_step p = rng_step q -> p = q).
  { intros p q Hp Hq H. apply (rng_calls_inj 1); auto. }
  assert (Hx : forall a b c, Z.lxor a b = Z.lxor a c -> b = c).
  { intros a b c H. rewrite <- (lxor_undo b a), <- (lxor_undo c a).
    rewrite (Z.lxor_comm b a), H, (Z.lxor_comm c a). reflexivity. }
  unfold seedRNG8. split; [|split].
  - apply rng_step_ok; auto.
  - intros H. apply Hinj in H; auto.
    pose proof (f_equal rg_a H) as Ea. pose proof (f_equal rg_b H) as Eb.
    pose proof (f_equal rg_c H) as Ec. cbn [rg_a rg_b rg_c] in *.
    split; [|split]; eapply Hx; eassumption.
  - intros H. apply Hinj in H; auto.
    pose proof (f_equal rg_a H) as Ea. pose proof (f_equal rg_b H) as Eb.
    pose proof (f_equal rg_c H) as Ec. pose proof (f_equal rg_x H) as Ex.
    cbn [rg_x rg_a rg_b rg_c] in *.
    assert (Hx' : forall a b c, Z.lxor b a = Z.lxor c a -> b = c).
    { intros a b c E. rewrite (Z.lxor_comm b a), (Z.lxor_comm c a) in E.
      eapply Hx, E. }
    apply Hx' in Ea. apply Hx' in Eb. apply Hx' in Ec.
    destruct s as [sx sa sb sc], t as [tx ta tb tc]; cbn [rg_x rg_a rg_b rg_c] in *; congruence.
Qed.

Example rng8_case :
  rng_ok (mkRng 200 17 255 3) /\
  fst (randRNG8 (mkRng 200 17 255 3)) = mkRng 201 219 218 171 /\
  seedRNG8 rng_reset 1 2 3 <> seedRNG8 rng_reset 1 2 4.
Proof.
  split; [unfold rng_ok, byte; cbn [rg_x rg_a rg_b rg_c]; lia|].
  split; [vm_compute; reflexivity | vm_compute; discriminate].
Qed.

Print Assumptions rng8_no_latch_up.
Print Assumptions rng8_seeding_reversible.
