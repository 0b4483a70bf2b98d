(** C20, C21, C23: unary codes, smart byte updates, key storage. *)
From Verif Require Import Base EepromModel EepromProofs.

(** ** C20 *)
(** The documented code: n low-order bits cleared. *)
Definition unary_code8 (n v : Z) : Prop := 0 <= n <= 8 /\ v = 256 - 2 ^ n.
Definition unary_code16 (n v : Z) : Prop := 0 <= n <= 16 /\ v = 65536 - 2 ^ n.

Ltac upto n := 
  match goal with H : 0 <= ?x <= _ |- _ =>
    let H' := fresh in
    assert (H' : exists k, (k <= n)%nat /\ x = Z.of_nat k) by (exists (Z.to_nat x); lia);
    let k := fresh "k" in destruct H' as (k & H' & ->); clear H;
    do 20 (try (destruct k as [|k]; [try reflexivity|])); try lia end.

Theorem C20_unary1 : 
  (forall n, 0 <= n <= 8 -> unary_code8 n (unary1_encode n) /\ unary1_decode (unary1_encode n) = n) /\
  (forall v, byte v -> unary1_decode v = -1 <-> ~ exists n, unary_code8 n v) /\
  (forall v n, byte v -> unary_code8 n v -> unary1_decode v = n) /\
  (forall n n' i, 0 <= n <= n' -> n' <= 8 ->
     Z.testbit (unary1_encode n') i = true -> Z.testbit (unary1_encode n) i = true).
Proof.
  assert (HD : forall v n, unary_code8 n v -> unary1_decode v = n).
  { intros v n [Hn ->]. upto 8%nat. }
  split; [|split; [|split]].
  - intros n Hn. assert (HC : unary_code8 n (unary1_encode n)).
    { split; [exact Hn|]. upto 8%nat. }
    split; [exact HC|]. apply HD. exact HC.
  - intros v Hv. split.
    + intros HE [n Hc]. rewrite (HD _ _ Hc) in HE. destruct Hc. lia.
    + intros HE. unfold unary1_decode.
      repeat match goal with |- context [v =? ?c] => destruct (Z.eqb_spec v c) as [->|] end;
        try reflexivity; exfalso; apply HE;
        [exists 0|exists 1|exists 2|exists 3|exists 4|exists 5|exists 6|exists 7|exists 8];
        (split; [lia|reflexivity]).
  - auto.
  - intros n n' i Hn Hn' Hb.
    assert (HL : unary1_encode n' = Z.land (unary1_encode n') (unary1_encode n)).
    { pose proof (below2_spec 9 9 (fun a b => (b <? a) || 
        (unary1_encode b =? Z.land (unary1_encode b) (unary1_encode a))) ltac:(vm_compute; reflexivity)
        n n' ltac:(lia) ltac:(lia)) as H. cbv beta in H. lia. }
    rewrite HL, Z.land_spec in Hb. apply andb_prop in Hb. tauto.
Qed.

(** The two-byte code: vm = high byte, vl = low byte. *)
Theorem C20_unary2_partial :
  (forall n, 0 <= n <= 16 -> unary_code16 n (unary2_encode n) /\
     unary2_decode (unary2_encode n / 256) (unary2_encode n mod 256) = n) /\
  (forall n n' i, 0 <= n <= n' -> n' <= 16 ->
     Z.testbit (unary2_encode n') i = true -> Z.testbit (unary2_encode n) i = true) /\
  (* invalid patterns are reported, except those with a zero low byte *)
  (forall vm vl, byte vm -> byte vl -> vl <> 0 ->
     (~ exists n, unary_code16 n (256 * vm + vl)) -> unary2_decode vm vl = -1) /\
  (* and those decode to 7 *)
  (forall vm, byte vm -> (~ exists n, unary_code16 n (256 * vm)) -> unary2_decode vm 0 = 7).
Proof.
  split; [|split; [|split]].
  - intros n Hn. assert (HC : unary_code16 n (unary2_encode n)).
    { split; [exact Hn|]. upto 16%nat. }
    split; [exact HC|]. clear HC. upto 16%nat.
  - intros n n' i Hn Hn' Hb.
    assert (HL : unary2_encode n' = Z.land (unary2_encode n') (unary2_encode n)).
    { pose proof (below2_spec 17 17 (fun a b => (b <? a) || 
        (unary2_encode b =? Z.land (unary2_encode b) (unary2_encode a))) ltac:(vm_compute; reflexivity)
        n n' ltac:(lia) ltac:(lia)) as H. cbv beta in H. lia. }
    rewrite HL, Z.land_spec in Hb. apply andb_prop in Hb. tauto.
  - intros vm vl Hm Hl H0 HE. unfold unary2_decode.
    destruct (255 =? vm) eqn:E.
    + apply (proj1 (proj2 C20_unary1) vl Hl). intros [n [Hn Hc]]. apply HE. exists n.
      split; [lia|]. lia.
    + replace (0 =? vl) with false by lia. reflexivity.
  - intros vm Hm HE. unfold unary2_decode.
    destruct (255 =? vm) eqn:E.
    + exfalso. apply HE. exists 8. split; [lia|]. change (2 ^ 8) with 256. lia.
    + change (0 =? 0) with true. cbn iota.
      rewrite (proj2 (proj1 (proj2 C20_unary1) vm Hm)); [reflexivity|].
      intros [n [Hn Hc]]. apply HE. exists (8 + n). split; [lia|].
      rewrite Z.pow_add_r by lia. change (2 ^ 8) with 256. lia.
Qed.

(** "Invalid bit patterns are reported as errors" is false of the two-byte code. *)
Theorem C20_unary2_refuted :
  ~ (forall vm vl, byte vm -> byte vl ->
       (~ exists n, unary_code16 n (256 * vm + vl)) -> unary2_decode vm vl = -1).
Proof.
  intros H. specialize (H 127 0 ltac:(unfold byte; lia) ltac:(unfold byte; lia)).
  assert (HX : ~ exists n, unary_code16 n (256 * 127 + 0)).
  { intros [n [Hn Hc]]. destruct (Z_le_dec n 15).
    - pose proof (Z.pow_le_mono_r 2 n 15 ltac:(lia) ltac:(lia)) as Hp. change (2 ^ 15) with 32768 in Hp. lia.
    - replace n with 16 in Hc by lia. discriminate. }
  apply H in HX. discriminate.
Qed.

(** ** C21 *)
Lemma phys_upd k p v s f : ee_op k p v s (S f) =
  (mkEE (upd (mem s) p (phys k (mem s p) v)) ((k, p) :: evs s), Some (tt, f)).
Proof. reflexivity. Qed.

(** Some bit changes from 0 to 1. *)
Definition sets_a_bit (old new : Z) : Prop := exists i, Z.testbit old i = false /\ Z.testbit new i = true.

(** What one smart operation that must leave [v] at [p] is allowed to do. *)
Definition smart_spec (p v : Z) (s : EE) (f : nat) (r : EE * option (bool * nat)) : Prop :=
  exists s' b f', r = (s', Some (b, f')) /\
    mem s' p = v /\ (forall q, q <> p -> mem s' q = mem s q) /\
    (b = true <-> mem s p <> v) /\
    (mem s p = v -> evs s' = evs s /\ f' = f) /\
    (mem s p <> v -> f = S f' /\ exists k, evs s' = (k, p) :: evs s /\
        (k = KWrite \/ sets_a_bit (mem s p) v)).

Lemma byte_255_bit x : byte x -> x <> 255 -> sets_a_bit x 255.
Proof.
  intros Hx Hne.
  pose proof (below_spec 256 (fun x => (x =? 255) || existsb (fun i => negb (Z.testbit x i) && Z.testbit 255 i)
     [0;1;2;3;4;5;6;7]) ltac:(vm_compute; reflexivity) x Hx) as H. cbv beta in H.
  apply orb_prop in H. destruct H as [H|H]; [lia|].
  apply existsb_exists in H. destruct H as (i & _ & H). apply andb_prop in H. destruct H as [H1 H2].
  exists i. split; [apply negb_true_iff; auto|auto].
Qed.
Lemma not_subset_bit v old : v <> Z.land v old -> sets_a_bit old v.
Proof.
  intros H. destruct (Z.eq_dec (Z.ldiff v old) 0) as [E|E].
  - exfalso. apply H. apply Z.bits_inj'. intros n Hn. rewrite Z.land_spec.
    assert (Hb : Z.testbit (Z.ldiff v old) n = false) by (rewrite E; apply Z.bits_0).
    rewrite Z.ldiff_spec in Hb. destruct (Z.testbit v n), (Z.testbit old n); simpl in *; congruence.
  - destruct (Z_lt_le_dec (Z.ldiff v old) 0) as [Hn|Hp].
    + (* negative: some high bit is set *)
      exists (Z.log2 (Z.pred (- Z.ldiff v old)) + 1).
      pose proof (Z.log2_nonneg (Z.pred (- Z.ldiff v old))).
      assert (Hb : Z.testbit (Z.ldiff v old) (Z.log2 (Z.pred (- Z.ldiff v old)) + 1) = true).
      { apply Z.bits_above_log2_neg; lia. }
      rewrite Z.ldiff_spec in Hb. apply andb_prop in Hb. destruct Hb as [H1 H2].
      apply negb_true_iff in H2. auto.
    + exists (Z.log2 (Z.ldiff v old)).
      assert (Hb : Z.testbit (Z.ldiff v old) (Z.log2 (Z.ldiff v old)) = true) by (apply Z.bit_log2; lia).
      rewrite Z.ldiff_spec in Hb. apply andb_prop in Hb. destruct Hb as [H1 H2].
      apply negb_true_iff in H2. auto.
Qed.

Lemma upd_here m p v : upd m p v p = v.
Proof. unfold upd. rewrite Z.eqb_refl. reflexivity. Qed.
Lemma upd_there m p v q : q <> p -> upd m p v q = m q.
Proof. intros. unfold upd. replace (q =? p) with false by lia. reflexivity. Qed.

Theorem C21_smart_erase : forall s p f, byte (mem s p) ->
  smart_spec p 255 s (S f) (smart_erase p s (S f)).
Proof.
  intros s p f Hb. unfold smart_erase, mbind, ee_read.
  destruct (Z.eqb_spec 255 (mem s p)) as [E|E]; cbn [negb].
  - exists s, false, (S f). split; [reflexivity|]. split; [auto|]. split; [auto|].
    split; [split; [discriminate|intros H; exfalso; apply H; auto]|]. split; [auto|]. intros H; congruence.
  - rewrite phys_upd. eexists _, true, f. split; [reflexivity|]. cbn [mem evs phys].
    split; [apply upd_here|]. split; [intros; apply upd_there; auto|].
    split; [split; auto|]. split; [congruence|]. intros _. split; [reflexivity|].
    exists KErase. split; [reflexivity|]. right. apply byte_255_bit; auto.
Qed.

Theorem C21_smart_clear_bits : forall s p mask f,
  smart_spec p (Z.land (mem s p) mask) s (S f) (smart_clear_bits p mask s (S f)) /\
  (forall k q, evs (fst (smart_clear_bits p mask s (S f))) = (k, q) :: evs s -> k = KWrite).
Proof.
  intros s p mask f. unfold smart_clear_bits, mbind, ee_read.
  destruct (Z.eqb_spec (mem s p) (Z.land (mem s p) mask)) as [E|E]; cbn [negb].
  - split.
    + exists s, false, (S f). split; [reflexivity|]. split; [auto|]. split; [auto|].
      split; [split; [discriminate|intros H; exfalso; apply H; auto]|]. split; [auto|]. intros H; congruence.
    + intros k q H. cbn in H. exfalso. clear -H. induction (evs s); congruence.
  - rewrite phys_upd. split.
    + eexists _, true, f. split; [reflexivity|]. cbn [mem evs phys].
      split; [rewrite upd_here, Z.land_assoc, Z.land_diag; reflexivity|].
      split; [intros; apply upd_there; auto|].
      split; [split; auto|]. split; [congruence|]. intros _. split; [reflexivity|].
      exists KWrite. split; [reflexivity|]. left. reflexivity.
    + intros k q H. cbn in H. congruence.
Qed.

Theorem C21_smart_update : forall s p v f, byte (mem s p) -> byte v ->
  smart_spec p v s (S f) (smart_update p v s (S f)).
Proof.
  intros s p v f Hb Hv. unfold smart_update.
  destruct (Z.eqb_spec 255 v) as [<-|E].
  { apply C21_smart_erase. auto. }
  unfold mbind at 1. unfold ee_read at 1.
  destruct (Z.eqb_spec v (mem s p)) as [E1|E1].
  - exists s, false, (S f). split; [reflexivity|]. split; [auto|]. split; [auto|].
    split; [split; [discriminate|intros H; exfalso; apply H; auto]|]. split; [auto|]. intros H; congruence.
  - destruct (Z.eqb_spec v (Z.land v (mem s p))) as [E2|E2].
    + destruct (C21_smart_clear_bits s p v f) as [H _]. rewrite Z.land_comm, <- E2 in H. exact H.
    + unfold mbind. rewrite phys_upd. eexists _, true, f. split; [reflexivity|]. cbn [mem evs phys].
      split; [apply upd_here|]. split; [intros; apply upd_there; auto|].
      split; [split; auto|]. split; [congruence|]. intros _. split; [reflexivity|].
      exists KEraseWrite. split; [reflexivity|]. right. apply not_subset_bit. auto.
Qed.

Example C21_nonvacuous :
  let s := mkEE (fun _ => 240) [] in
  evs (fst (smart_update 5 208 s 1%nat)) = [(KWrite, 5)] /\
  evs (fst (smart_update 5 15 s 1%nat)) = [(KEraseWrite, 5)] /\
  evs (fst (smart_update 5 255 s 1%nat)) = [(KErase, 5)] /\
  evs (fst (smart_update 5 240 s 1%nat)) = [].
Proof. repeat split; reflexivity. Qed.

(** ** C23 *)
Lemma existsb_not_ff k : existsb (fun b => negb (255 =? b)) k = true <-> k <> repeat 255 (length k).
Proof.
  induction k as [|b r IH]; cbn [existsb length repeat].
  - split; [discriminate|congruence].
  - destruct (Z.eqb_spec 255 b) as [<-|E]; cbn [negb orb].
    + rewrite IH. split; congruence.
    + split; [intros _ H; injection H; congruence|auto].
Qed.

Theorem C23_set_key : forall k s f, length k = 16%nat -> Forall byte k -> (16 <= f)%nat ->
  exists s' f', setKey (Some k) s f = (s', Some (true, f')) /\
    (forall q, q < 112 \/ 128 <= q -> mem s' q = mem s q) /\
    (forall f2, exists s2, getKey s' f2 = (s2, Some ((k, negb (list_eqb k (repeat 255 16))), f2))).
Proof.
  intros k s f HL HB Hf.
  assert (HD : does (setKey (Some k)) s (at_addr KEY_START k) true).
  { unfold setKey. rewrite <- (app_nil_r (at_addr KEY_START k)).
    eapply does_bind; [apply does_update_bytes|]. intros s' Hs'. cbv beta.
    pose proof (does_check_bytes k KEY_START s') as HC.
    replace (list_eqb k (block (mem s') KEY_START (length k))) with true in HC; [exact HC|].
    symmetry. apply list_eqb_eq. rewrite (block_meq _ _ Hs'). symmetry. apply block_applyw_at. }
  destruct (does_complete _ _ _ _ HD f) as (s' & f' & E & Hm).
  { rewrite at_addr_len, HL. exact Hf. }
  exists s', f'. split; [exact E|]. split.
  - intros q Hq. rewrite Hm, applyw_at. unfold KEY_START, Zlen. rewrite HL.
    replace ((112 <=? q) && _) with false by lia. reflexivity.
  - intros f2.
    assert (HG : does getKey s' [] (k, negb (list_eqb k (repeat 255 16)))).
    { unfold getKey. eapply does_bind0; [apply does_read_block|]. intros s2 H2. cbv beta.
      rewrite (block_meq _ _ Hm). unfold KEY_LEN.
      assert (HK : block (applyw (at_addr KEY_START k) (mem s)) KEY_START 16 = k)
        by (rewrite <- HL; apply block_applyw_at).
      rewrite HK.
      replace (existsb (fun b => negb (255 =? b)) k) with (negb (list_eqb k (repeat 255 16))); [apply does_ret|].
      destruct (existsb (fun b => negb (255 =? b)) k) eqn:EX.
      - apply existsb_not_ff in EX. rewrite HL in EX.
        destruct (list_eqb k (repeat 255 16)) eqn:EL; [apply list_eqb_eq in EL; congruence|reflexivity].
      - destruct (list_eqb k (repeat 255 16)) eqn:EL; [reflexivity|]. exfalso.
        assert (HH : k <> repeat 255 (length k)).
        { rewrite HL. intros H. apply list_eqb_eq in H. congruence. }
        apply existsb_not_ff in HH. congruence. }
    destruct (HG f2) as [(s2 & n & _ & Hlt & _)|(s2 & f3 & E2 & Hf3 & _)]; [simpl in Hlt; lia|].
    exists s2. rewrite E2. replace f3 with f2 by (simpl in Hf3; lia). reflexivity.
Qed.

Theorem C23_clear_key : forall s f, (16 <= f)%nat ->
  exists s' f', setKey None s f = (s', Some (true, f')) /\
    (forall q, q < 112 \/ 128 <= q -> mem s' q = mem s q) /\
    (forall f2, exists s2, getKey s' f2 = (s2, Some ((repeat 255 16, false), f2))).
Proof.
  intros s f Hf.
  assert (HD : does (setKey None) s (at_addr KEY_START (repeat 255 16)) true).
  { unfold setKey. rewrite <- (app_nil_r (at_addr KEY_START _)).
    eapply does_bind; [apply does_erase_bytes|]. intros s' Hs'. apply does_ret. }
  destruct (does_complete _ _ _ _ HD f Hf) as (s' & f' & E & Hm).
  exists s', f'. split; [exact E|]. split.
  - intros q Hq. rewrite Hm, applyw_at. unfold KEY_START.
    change (Zlen (repeat 255 16)) with 16.
    replace ((112 <=? q) && _) with false by lia. reflexivity.
  - intros f2.
    assert (HG : does getKey s' [] (repeat 255 16, false)).
    { unfold getKey. eapply does_bind0; [apply does_read_block|]. intros s2 H2. cbv beta.
      rewrite (block_meq _ _ Hm). unfold KEY_LEN.
      assert (HK : block (applyw (at_addr KEY_START (repeat 255 16)) (mem s)) KEY_START 16 = repeat 255 16)
        by (apply (block_applyw_at (repeat 255 16))).
      rewrite HK. apply does_ret. }
    destruct (HG f2) as [(s2 & n & _ & Hlt & _)|(s2 & f3 & E2 & Hf3 & _)]; [simpl in Hlt; lia|].
    exists s2. rewrite E2. replace f3 with f2 by (simpl in Hf3; lia). reflexivity.
Qed.

(** With no key in the store (never set: all 0xff) get reports failure. *)
Theorem C23_no_key : forall s f, (forall q, 112 <= q < 128 -> mem s q = 255) ->
  exists s2 k, getKey s f = (s2, Some ((k, false), f)).
Proof.
  intros s f H.
  assert (HG : does getKey s [] (repeat 255 16, false)).
  { unfold getKey. eapply does_bind0; [apply does_read_block|]. intros s2 H2. cbv beta.
    rewrite (block_ext _ (fun _ => 255)); [apply does_ret|].
    unfold KEY_START, KEY_LEN. intros q Hq. apply H. lia. }
  destruct (HG f) as [(s2 & n & _ & Hlt & _)|(s2 & f3 & E2 & Hf3 & _)]; [simpl in Hlt; lia|].
  exists s2, (repeat 255 16). rewrite E2. replace f3 with f by (simpl in Hf3; lia). reflexivity.
Qed.

Example C23_nonvacuous :
  let s := mkEE (fun _ => 255) [] in
  let k := [1;2;3;4;5;6;7;8;9;10;11;12;13;14;15;255] in
  let r := setKey (Some k) s 20%nat in
  snd r = Some (true, 5%nat) /\ snd (getKey (fst r) 0%nat) = Some ((k, true), 0%nat).
Proof. vm_compute. split; reflexivity. Qed.

Print Assumptions C20_unary1.
Print Assumptions C20_unary2_partial.
Print Assumptions C20_unary2_refuted.
Print Assumptions C21_smart_update.
Print Assumptions C21_smart_clear_bits.
Print Assumptions C21_smart_erase.
Print Assumptions C23_set_key.
Print Assumptions C23_clear_key.
Print Assumptions C23_no_key.
