(** C174: gathering entropy from clock jitter, and the hashes of the memories. *)
From Verif Require Import Base CrcLin JitterModel.

(** ** Specification: clock counts and the ones used. *)
(** Counts completed: of the watchdog ([true]), polls between firings; of the timer, minus the polls it stood
    still, each modulo 256. *)
Fixpoint counts (w r t1 : Z) (ps : list Poll) : list (bool * Z) :=
  match ps with
  | [] => []
  | p :: ps =>
    let (ew, w) := if p_fired p then ([(true, w mod 256)], 0) else ([], w + 1) in
    if t1 =? p_cmp p then ew ++ counts w (r + 1) t1 ps
    else ew ++ [(false, - r mod 256)] ++ counts w 0 (p_next p) ps
  end.
(** The counts differing from the last one of the same source so kept. *)
Fixpoint fresh_counts (lw lr : Z) (l : list (bool * Z)) : list Z :=
  match l with
  | [] => []
  | (true, c) :: l => if c =? lw then fresh_counts lw lr l else c :: fresh_counts c lr l
  | (false, c) :: l => if c =? lr then fresh_counts lw lr l else c :: fresh_counts lw c l
  end.
(** The byte made of the counts used: each is hashed and the hash folded in. *)
Fixpoint folded (hash result : Z) (l : list Z) : Z :=
  match l with
  | [] => result
  | c :: l => let h := crc_ccitt hash c in folded h (Z.lxor ((2 * result) mod 256) (h mod 256)) l
  end.

Lemma harvest_result s c : j_result (harvest s c) = Z.lxor ((2 * j_result s) mod 256) (crc_ccitt (j_hash s) c mod 256).
Proof.
  unfold harvest. cbn [j_result]. rewrite Z.shiftl_mul_pow2 by lia. change (2 ^ 1) with 2.
  replace (j_result s * 2) with (2 * j_result s) by lia. rewrite u8_id; [reflexivity|].
  apply lxor8; apply u8_byte.
Qed.
Lemma harvest_folded s c l : folded (j_hash (harvest s c)) (j_result (harvest s c)) l = folded (j_hash s) (j_result s) (c :: l).
Proof. rewrite harvest_result. reflexivity. Qed.

Lemma jit_loop_spec ps : forall s w r, 0 < j_left s -> j_cW s = w mod 256 -> j_cR s = - r mod 256 ->
  jit_loop s ps =
  (let u := fresh_counts (j_lW s) (j_lR s) (counts w r (j_t1 s) ps) in
   if Zlen u <? j_left s then None else Some (folded (j_hash s) (j_result s) (firstn (Z.to_nat (j_left s)) u))).
Proof.
  induction ps as [|p ps IH]; intros s w r HL HW HR; cbv zeta.
  { cbn [jit_loop counts fresh_counts]. change (Zlen []) with 0. replace (0 <? j_left s) with true by lia. reflexivity. }
  cbn [jit_loop counts].
  (* the timer half, from any state *)
  assert (HT : forall s w, 0 < j_left s -> j_cW s = w mod 256 -> j_cR s = - r mod 256 ->
    match turn_R s p with inr v => Some v | inl s => jit_loop s ps end =
    (let u := fresh_counts (j_lW s) (j_lR s)
       (if j_t1 s =? p_cmp p then counts w (r + 1) (j_t1 s) ps else [(false, - r mod 256)] ++ counts w 0 (p_next p) ps) in
     if Zlen u <? j_left s then None else Some (folded (j_hash s) (j_result s) (firstn (Z.to_nat (j_left s)) u)))).
  { clear s w HL HW HR. intros s w HL HW HR. unfold turn_R. destruct (j_t1 s =? p_cmp p).
    - rewrite (IH _ w (r + 1)); cbn [set_R j_left j_cW j_cR j_lW j_lR j_t1 j_hash j_result]; [reflexivity|exact HL|exact HW|].
      rewrite HR. unfold u8. rewrite Zminus_mod_idemp_l. f_equal. lia.
    - rewrite <- HR. cbn [app fresh_counts]. destruct (j_cR s =? j_lR s) eqn:E; cbn [negb].
      + rewrite (IH _ w 0); cbn [set_R j_left j_cW j_cR j_lW j_lR j_t1 j_hash j_result]; [reflexivity|exact HL|exact HW|reflexivity].
      + cbv zeta. rewrite Zlen_cons. change (j_left (harvest s (j_cR s))) with (j_left s - 1).
        destruct (j_left s - 1 <=? 0) eqn:E1.
        * replace (j_left s) with 1 by lia. pose proof (Zlen_nonneg (fresh_counts (j_lW s) (j_cR s) (counts w 0 (p_next p) ps))).
          replace (1 + _ <? 1) with false by lia. change (Z.to_nat 1) with 1%nat. cbn [firstn].
          rewrite <- harvest_folded. reflexivity.
        * rewrite (IH _ w 0); cbn [set_R j_left j_cW j_cR j_lW j_lR j_t1 j_hash j_result];
            [|change (j_left (harvest s (j_cR s))) with (j_left s - 1); lia|exact HW|reflexivity].
          change (j_left (harvest s (j_cR s))) with (j_left s - 1). cbv zeta.
          change (j_lW (harvest s (j_cR s))) with (j_lW s).
          set (u := fresh_counts _ _ _). replace (1 + Zlen u <? j_left s) with (Zlen u <? j_left s - 1) by lia.
          destruct (Zlen u <? j_left s - 1); [reflexivity|].
          replace (Z.to_nat (j_left s)) with (S (Z.to_nat (j_left s - 1))) by lia. cbn [firstn].
          rewrite <- harvest_folded. reflexivity. }
  unfold turn_W. destruct (p_fired p); cbn [negb].
  - rewrite <- HW. assert (HC : forall (b : bool) (x y : list (bool * Z)), (if b then [(true, j_cW s)] ++ x else [(true, j_cW s)] ++ y)
      = (true, j_cW s) :: (if b then x else y)) by (intros [|] ? ?; reflexivity).
    rewrite HC. clear HC. cbn [fresh_counts]. destruct (j_cW s =? j_lW s) eqn:E; cbn [negb].
    + rewrite (HT _ 0); cbn [set_W j_left j_cW j_cR j_lW j_lR j_t1 j_hash j_result]; [reflexivity|exact HL|reflexivity|exact HR].
    + cbv zeta. rewrite Zlen_cons. change (j_left (harvest s (j_cW s))) with (j_left s - 1).
      destruct (j_left s - 1 <=? 0) eqn:E1.
      * replace (j_left s) with 1 by lia. match goal with |- context [1 + Zlen ?x] => pose proof (Zlen_nonneg x) end.
        replace (1 + _ <? 1) with false by lia. change (Z.to_nat 1) with 1%nat. cbn [firstn].
        rewrite <- harvest_folded. reflexivity.
      * rewrite (HT _ 0); cbn [set_W j_left j_cW j_cR j_lW j_lR j_t1 j_hash j_result];
          [|change (j_left (harvest s (j_cW s))) with (j_left s - 1); lia|reflexivity|exact HR].
        change (j_left (harvest s (j_cW s))) with (j_left s - 1). cbv zeta.
        change (j_lR (harvest s (j_cW s))) with (j_lR s). change (j_t1 (harvest s (j_cW s))) with (j_t1 s).
        set (u := fresh_counts _ _ _). replace (1 + Zlen u <? j_left s) with (Zlen u <? j_left s - 1) by lia.
        destruct (Zlen u <? j_left s - 1); [reflexivity|].
        replace (Z.to_nat (j_left s)) with (S (Z.to_nat (j_left s - 1))) by lia. cbn [firstn].
        rewrite <- harvest_folded. reflexivity.
  - rewrite (HT _ (w + 1)); cbn [set_W j_left j_cW j_cR j_lW j_lR j_t1 j_hash j_result]; [|exact HL| |exact HR].
    + assert (HC : forall (b : bool) (x y : list (bool * Z)), (if b then [] ++ x else [] ++ y) = (if b then x else y)) by (intros [|] ? ?; reflexivity).
      rewrite HC. reflexivity.
    + rewrite HW. unfold u8. rewrite Zplus_mod_idemp_l. reflexivity.
Qed.

(** The byte is made of the first eight counts that changed, and returned only then; before them the hash counts
    the polls up to the first roll of the timer. *)
Theorem jitter_byte_spec_partial t0 pre p ps : (forall q, In q pre -> p_cmp q = t0) -> p_cmp p <> t0 ->
  jitter_byte t0 (pre ++ p :: ps) =
  (let used := fresh_counts 0 0 (counts 0 0 (p_next p) ps) in
   if Zlen used <? 8 then None else Some (folded (Zlen pre mod 65536) 0 (firstn 8 used))).
Proof.
  intros HP Hp. unfold jitter_byte.
  assert (HS : forall h, jit_start t0 (h mod 65536) (pre ++ p :: ps) = Some ((h + Zlen pre) mod 65536, p_next p, ps)).
  { induction pre as [|q pre IH]; intros h; cbn [app jit_start].
    - replace (t0 =? p_cmp p) with false by lia. change (Zlen []) with 0. rewrite Z.add_0_r. reflexivity.
    - rewrite (HP q) by (left; reflexivity). rewrite Z.eqb_refl, Zplus_mod_idemp_l.
      rewrite IH by (intros; apply HP; right; assumption). rewrite Zlen_cons.
      replace (h + 1 + Zlen pre) with (h + (1 + Zlen pre)) by lia. reflexivity. }
  change 0 with (0 mod 65536) at 1. rewrite HS, Z.add_0_l.
  rewrite (jit_loop_spec ps _ 0 0); cbn [j_left j_cW j_cR j_lW j_lR j_t1 j_hash j_result]; [reflexivity|lia|reflexivity|reflexivity].
Qed.
(** While the timer stands still nothing is returned. *)
Theorem jitter_byte_stopped t0 pre : (forall q, In q pre -> p_cmp q = t0) -> jitter_byte t0 pre = None.
Proof.
  intros HP. unfold jitter_byte. replace (jit_start t0 0 pre) with (@None (Z * Z * list Poll)); [reflexivity|].
  generalize 0. induction pre as [|q pre IH]; intros h; cbn [jit_start]; [reflexivity|].
  rewrite (HP q) by (left; reflexivity). rewrite Z.eqb_refl. apply IH. intros. apply HP. right. assumption.
Qed.

(** Clocks without jitter, both running: the byte is never delivered. *)
Definition cycle := [mkPoll false 0 0; mkPoll false 1 1; mkPoll false 1 1; mkPoll true 0 0].
Theorem jitter_stable_refuted : forall n, exists ps, length ps = (4 * n)%nat /\
  (forall k, (k < n)%nat -> firstn 4 (skipn (4 * k) ps) = cycle) /\
  forall t0 pre p, (forall q, In q pre -> p_cmp q = t0) -> p_cmp p <> t0 -> p_next p = 0 ->
    jitter_byte t0 (pre ++ p :: ps) = None.
Proof.
  intros n. exists (concat (repeat cycle n)). split; [|split].
  - induction n; cbn [repeat concat]; [reflexivity|]. rewrite app_length, IHn. cbn [cycle length]. lia.
  - induction n; intros k Hk; [lia|]. cbn [repeat concat]. destruct k.
    + reflexivity.
    + replace (4 * S k)%nat with (4 + 4 * k)%nat by lia. cbn [cycle app skipn Nat.add].
      apply IHn. lia.
  - intros t0 pre p HP Hp H0. rewrite jitter_byte_spec_partial by assumption. rewrite H0. cbv zeta.
    assert (HB : Zlen (fresh_counts 3 255 (counts 0 0 0 (concat (repeat cycle n)))) <= 0).
    { induction n; [vm_compute; discriminate|]. exact IHn. }
    assert (HA : Zlen (fresh_counts 0 0 (counts 0 0 0 (concat (repeat cycle n)))) <= 2).
    { destruct n; [vm_compute; discriminate|].
      change (fresh_counts 0 0 (counts 0 0 0 (concat (repeat cycle (S n)))))
        with (255 :: 3 :: fresh_counts 3 255 (counts 0 0 0 (concat (repeat cycle n)))).
      rewrite !Zlen_cons. change (fresh_counts 3 255 (counts 0 0 0 (concat (repeat cycle (S n)))))
        with (fresh_counts 3 255 (counts 0 0 0 (concat (repeat cycle n)))) in HB. lia. }
    replace (_ <? 8) with true by lia. reflexivity.
Qed.

(** ** The hash step loses nothing. *)
Definition hi_ok (d e : Z) : bool := negb (Z.lxor d (Z.shiftr d 5) =? Z.lxor e (Z.shiftr e 5)) || (d =? e).
Definition dat_ok (d e : Z) : bool := negb (ccitt_data d =? ccitt_data e) || (d =? e).
Definition datr_ok (d : Z) : bool := (0 <=? ccitt_data d) && (ccitt_data d <? 256).
Lemma hi_inj d e : byte d -> byte e -> Z.lxor d (Z.shiftr d 5) = Z.lxor e (Z.shiftr e 5) -> d = e.
Proof.
  intros Hd He H. assert (B : below2 256 256 hi_ok = true) by (vm_compute; reflexivity).
  pose proof (below2_spec _ _ _ B d e Hd He) as P. unfold hi_ok in P. rewrite H, Z.eqb_refl in P. cbn [negb orb] in P. lia.
Qed.
Lemma dat_inj d e : byte d -> byte e -> ccitt_data d = ccitt_data e -> d = e.
Proof.
  intros Hd He H. assert (B : below2 256 256 dat_ok = true) by (vm_compute; reflexivity).
  pose proof (below2_spec _ _ _ B d e Hd He) as P. unfold dat_ok in P. rewrite H, Z.eqb_refl in P. cbn [negb orb] in P. lia.
Qed.
Lemma dat_byte d : byte d -> byte (ccitt_data d).
Proof.
  intros Hd. assert (B : below 256 datr_ok = true) by (vm_compute; reflexivity).
  pose proof (below_spec _ _ B d Hd) as P. unfold datr_ok in P. red. lia.
Qed.
Lemma lo_byte c : byte (Z.land c 255).
Proof. change 255 with (Z.ones 8). rewrite Z.land_ones by lia. apply Z.mod_pos_bound. lia. Qed.

Definition word (z : Z) : Prop := 0 <= z < 65536.
Definition ccitt_tail (d : Z) : Z := Z.lxor (Z.shiftr d 4) (Z.shiftl d 3).
Lemma crc_ccitt_hi c x : word c -> byte x ->
  Z.shiftr (crc_ccitt c x) 8 = let d := ccitt_data (Z.lxor x (Z.land c 255)) in Z.lxor d (Z.shiftr d 5).
Proof.
  intros Hc Hx. unfold crc_ccitt. cbv zeta. set (d := ccitt_data _).
  assert (Hd : byte d) by (apply dat_byte, lxor8; [exact Hx|apply lo_byte]). unfold word in Hc. red in Hd.
  rewrite !Z.shiftr_lxor, Z.shiftr_lor, !Z.shiftr_shiftr by lia.
  rewrite !Z.shiftr_shiftl_l by lia. rewrite Z.sub_diag, Z.shiftl_0_r.
  rewrite (Z.shiftr_div_pow2 c) by lia. change (2 ^ (8 + 8)) with 65536. rewrite (Z.div_small c) by lia.
  rewrite (Z.shiftr_div_pow2 d (4 + 8)) by lia. change (2 ^ (4 + 8)) with 4096. rewrite (Z.div_small d) by lia.
  rewrite Z.lor_0_r, Z.lxor_0_r. reflexivity.
Qed.
Lemma crc_ccitt_word c x : word c -> byte x -> word (crc_ccitt c x).
Proof.
  intros Hc Hx. unfold crc_ccitt. cbv zeta. set (d := ccitt_data _).
  assert (Hd : byte d) by (apply dat_byte, lxor8; [exact Hx|apply lo_byte]). unfold word in *. red in Hd.
  change 65536 with (2 ^ 16). rewrite !Z.shiftl_mul_pow2, !Z.shiftr_div_pow2 by lia.
  assert (H1 : 0 <= c / 2 ^ 8 < 256) by (change (2 ^ 8) with 256; split; [apply Z.div_pos|apply Z.div_lt_upper_bound]; lia).
  assert (H2 : 0 <= d / 2 ^ 4 < 16) by (change (2 ^ 4) with 16; split; [apply Z.div_pos|apply Z.div_lt_upper_bound]; lia).
  apply lxor_bound; [lia| |change (2 ^ 3) with 8; change (2 ^ 16) with 65536; lia].
  apply lxor_bound; [lia| |change (2 ^ 16) with 65536; lia].
  replace (Z.lor (d * 2 ^ 8) (c / 2 ^ 8)) with (d * 2 ^ 8 + c / 2 ^ 8); [change (2 ^ 16) with 65536; change (2 ^ 8) with 256 in *; lia|].
  symmetry. rewrite <- Z.lxor_lor, Z.add_nocarry_lxor; try reflexivity.
  all: apply Z.bits_inj'; intros n Hn; rewrite Z.land_spec, Z.bits_0; destruct (Z.ltb n 8) eqn:E.
  all: try (rewrite Z.mul_pow2_bits_low by lia; reflexivity).
  all: rewrite (Z.bits_above_log2 (c / 2 ^ 8)); [apply andb_false_r|lia|].
  all: destruct (Z.eq_dec (c / 2 ^ 8) 0) as [->|]; [change (Z.log2 0) with 0; lia|].
  all: apply Z.lt_le_trans with 8; [apply Z.log2_lt_pow2; change (2 ^ 8) with 256; lia|lia].
Qed.
Lemma lxor_cancel_r x y k : Z.lxor x k = Z.lxor y k -> x = y.
Proof.
  intros H. pose proof (f_equal (fun z => Z.lxor z k) H) as H1. cbn beta in H1.
  rewrite !Z.lxor_assoc, !Z.lxor_nilpotent, !Z.lxor_0_r in H1. exact H1.
Qed.
Lemma lxor_cancel_l x y k : Z.lxor k x = Z.lxor k y -> x = y.
Proof. rewrite !(Z.lxor_comm k). apply lxor_cancel_r. Qed.

(** Equal hashes come only of equal low and high bytes. *)
Lemma crc_ccitt_inj c x c' x' : word c -> byte x -> word c' -> byte x' -> crc_ccitt c x = crc_ccitt c' x' ->
  Z.lxor x (Z.land c 255) = Z.lxor x' (Z.land c' 255) /\ Z.shiftr c 8 = Z.shiftr c' 8.
Proof.
  intros Hc Hx Hc' Hx' H.
  pose proof (f_equal (fun z => Z.shiftr z 8) H) as H8. cbn beta in H8.
  rewrite !crc_ccitt_hi in H8 by assumption. cbv zeta in H8.
  assert (Hd : byte (Z.lxor x (Z.land c 255))) by (apply lxor8; [exact Hx|apply lo_byte]).
  assert (Hd' : byte (Z.lxor x' (Z.land c' 255))) by (apply lxor8; [exact Hx'|apply lo_byte]).
  apply hi_inj in H8; [|apply dat_byte; assumption|apply dat_byte; assumption].
  split; [apply dat_inj; assumption|].
  unfold crc_ccitt in H. cbv zeta in H. rewrite H8 in H. set (d := ccitt_data _) in H.
  rewrite !Z.lxor_assoc in H.
  pose proof (lxor_cancel_r _ _ _ H) as H9.
  apply Z.bits_inj'. intros n Hn. pose proof (f_equal (fun z => Z.testbit z n) H9) as H10. cbn beta in H10.
  rewrite !Z.lor_spec in H10. destruct (Z.ltb n 8) eqn:E.
  - rewrite Z.shiftl_spec_low in H10 by lia. exact H10.
  - rewrite !Z.shiftr_spec by lia. unfold word in *.
    assert (HB : forall y, 0 <= y < 65536 -> Z.testbit y (n + 8) = false).
    { intros y Hy. destruct (Z.eq_dec y 0) as [->|]; [apply Z.bits_0|]. apply Z.bits_above_log2; [lia|].
      apply Z.lt_le_trans with 16; [apply Z.log2_lt_pow2; change (2 ^ 16) with 65536; lia|lia]. }
    rewrite !HB by assumption. reflexivity.
Qed.
Lemma split_word c : Z.lor (Z.shiftl (Z.shiftr c 8) 8) (Z.land c 255) = c.
Proof.
  apply Z.bits_inj'. intros n Hn. rewrite Z.lor_spec, Z.land_spec. change 255 with (Z.ones 8). rewrite Z.testbit_ones_nonneg by lia.
  destruct (Z.ltb n 8) eqn:E.
  - rewrite Z.shiftl_spec_low by lia. cbn [orb]. apply andb_true_r.
  - rewrite Z.shiftl_spec, Z.shiftr_spec by lia. rewrite andb_false_r, orb_false_r. f_equal. lia.
Qed.
(** A step keeps apart different data, and different hashes so far. *)
Theorem hash_step_data c x x' : word c -> byte x -> byte x' -> crc_ccitt c x = crc_ccitt c x' -> x = x'.
Proof. intros Hc Hx Hx' H. destruct (crc_ccitt_inj _ _ _ _ Hc Hx Hc Hx' H) as [H1 _]. exact (lxor_cancel_r _ _ _ H1). Qed.
Theorem hash_step_hash c c' x : word c -> word c' -> byte x -> crc_ccitt c x = crc_ccitt c' x -> c = c'.
Proof.
  intros Hc Hc' Hx H. destruct (crc_ccitt_inj _ _ _ _ Hc Hx Hc' Hx H) as [H1 H2].
  apply lxor_cancel_l in H1. rewrite <- (split_word c), <- (split_word c'), H1, H2. reflexivity.
Qed.

Lemma fold_ccitt_word l : forall c, word c -> Forall byte l -> word (fold_left crc_ccitt l c).
Proof.
  induction l as [|x l IH]; intros c Hc Hl; cbn [fold_left]; [exact Hc|]. inversion Hl; subst.
  apply IH; [apply crc_ccitt_word; assumption|assumption].
Qed.
Lemma fold_ccitt_inj l : forall c c', word c -> word c' -> Forall byte l ->
  fold_left crc_ccitt l c = fold_left crc_ccitt l c' -> c = c'.
Proof.
  induction l as [|x l IH]; intros c c' Hc Hc' Hl H; cbn [fold_left] in H; [exact H|]. inversion Hl; subst.
  apply IH in H; [|apply crc_ccitt_word; assumption|apply crc_ccitt_word; assumption|assumption].
  apply hash_step_hash in H; assumption.
Qed.
(** Memories of any size differing in one byte have different hashes. *)
Theorem memory_hash_one_byte a b x x' : Forall byte a -> Forall byte b -> byte x -> byte x' -> x <> x' ->
  mem_crc (a ++ x :: b) <> mem_crc (a ++ x' :: b).
Proof.
  intros Ha Hb Hx Hx' Hn H. apply Hn. unfold mem_crc in H. rewrite !fold_left_app in H. cbn [fold_left] in H.
  assert (Hw : word (fold_left crc_ccitt a 65535)) by (apply fold_ccitt_word; [red; lia|exact Ha]).
  apply fold_ccitt_inj in H; [|apply crc_ccitt_word; assumption|apply crc_ccitt_word; assumption|exact Hb].
  apply hash_step_data in H; assumption.
Qed.
Theorem memory_hash_16_bits l : Forall byte l -> 0 <= mem_crc l < 65536.
Proof. intros H. apply fold_ccitt_word; [red; lia|exact H]. Qed.
Example memory_hash_ex : mem_crc (map (fun z => Z.of_nat z) (seq 49 9)) = 28561.
Proof. vm_compute. reflexivity. Qed.

(** ** The last count is folded in with the loss of one bit. *)
Definition low_part (e : Z) : Z := let d := ccitt_data e in Z.lxor (Z.shiftr d 4) (u8 (Z.shiftl d 3)).
Definition last_ok (d e : Z) : bool :=
  Bool.eqb (low_part d =? low_part e) ((d =? e) || (Z.lxor d e =? 145)).
Lemma crc_ccitt_lo c x : word c -> byte x ->
  crc_ccitt c x mod 256 = Z.lxor (Z.shiftr c 8) (low_part (Z.lxor x (Z.land c 255))).
Proof.
  intros Hc Hx. unfold crc_ccitt, low_part. cbv zeta. set (d := ccitt_data _).
  assert (Hd : byte d) by (apply dat_byte, lxor8; [exact Hx|apply lo_byte]). unfold word in Hc. red in Hd.
  change 256 with (2 ^ 8). unfold u8. change 256 with (2 ^ 8).
  rewrite <- !Z.land_ones by lia.
  apply Z.bits_inj'. intros n Hn. rewrite !Z.land_spec, !Z.lxor_spec, Z.lor_spec, Z.land_spec, Z.testbit_ones_nonneg by lia.
  assert (HB : forall y m, 0 <= y < 2 ^ m -> 0 <= m <= n -> Z.testbit y n = false).
  { intros y m Hy Hm. destruct (Z.eq_dec y 0) as [->|]; [apply Z.bits_0|]. apply Z.bits_above_log2; [lia|].
    apply Z.lt_le_trans with m; [apply Z.log2_lt_pow2; lia|lia]. }
  destruct (Z.ltb n 8) eqn:E.
  - rewrite (Z.shiftl_spec_low d 8) by lia. cbn [orb]. rewrite !andb_true_r. apply xorb_assoc.
  - rewrite !andb_false_r, xorb_false_r. rewrite (HB (Z.shiftr c 8) 8), (HB (Z.shiftr d 4) 8); [reflexivity| |lia| |lia].
    all: rewrite Z.shiftr_div_pow2 by lia; split; [apply Z.div_pos; lia|apply Z.div_lt_upper_bound; [lia|]].
    all: change (2 ^ 4) with 16; change (2 ^ 8) with 256; lia.
Qed.
Lemma folded_snoc l : forall h r c, folded h r (l ++ [c]) =
  Z.lxor ((2 * folded h r l) mod 256) (crc_ccitt (fold_left crc_ccitt l h) c mod 256).
Proof. induction l as [|x l IH]; intros h r c; [reflexivity|]. cbn [app folded fold_left]. apply IH. Qed.

(** Of the values of the last count used, two give the same byte exactly when they differ in the bits of 0x91: 128
    different bytes, not 256. *)
Theorem jitter_last_count h r l c c' : word h -> Forall byte l -> byte c -> byte c' ->
  (folded h r (l ++ [c]) = folded h r (l ++ [c']) <-> c = c' \/ Z.lxor c c' = 145).
Proof.
  intros Hh Hl Hc Hc'. rewrite !folded_snoc.
  assert (Hw : word (fold_left crc_ccitt l h)) by (apply fold_ccitt_word; assumption).
  rewrite !crc_ccitt_lo by assumption. set (k := Z.land (fold_left crc_ccitt l h) 255).
  assert (Hk : byte k) by apply lo_byte.
  assert (B : below2 256 256 last_ok = true) by (vm_compute; reflexivity).
  pose proof (below2_spec _ _ _ B (Z.lxor c k) (Z.lxor c' k) (lxor8 _ _ Hc Hk) (lxor8 _ _ Hc' Hk)) as P.
  unfold last_ok in P. apply Bool.eqb_prop in P.
  assert (E : Z.lxor (Z.lxor c k) (Z.lxor c' k) = Z.lxor c c').
  { rewrite (Z.lxor_comm c' k), Z.lxor_assoc, <- (Z.lxor_assoc k k c'), Z.lxor_nilpotent, Z.lxor_0_l. reflexivity. }
  rewrite E in P. split.
  - intros H. apply lxor_cancel_l in H. apply lxor_cancel_l in H.
    rewrite H, Z.eqb_refl in P. symmetry in P. apply orb_prop in P. destruct P as [P|P].
    + left. apply (lxor_cancel_r _ _ k). apply Z.eqb_eq. exact P.
    + right. apply Z.eqb_eq. exact P.
  - intros H. f_equal. f_equal. apply Z.eqb_eq. rewrite P. destruct H as [-> | H].
    + rewrite Z.eqb_refl. reflexivity.
    + rewrite H, orb_true_r. reflexivity.
Qed.

(** Eight watchdog periods of different lengths: a byte, made of the counts 1, 2, ... and of the timer's. *)
Fixpoint wds (n : nat) (t : Z) : list Poll :=
  match n with O => [] | S m => wds m t ++ repeat (mkPoll false t t) n ++ [mkPoll true t t] end.
Example jitter_byte_ex : exists v, jitter_byte 7 ([mkPoll false 7 7; mkPoll false 8 8] ++ wds 8 8) = Some v /\
  fresh_counts 0 0 (counts 0 0 8 (wds 8 8)) = [1; 2; 3; 4; 5; 6; 7; 8] /\ v = folded 1 0 [1; 2; 3; 4; 5; 6; 7; 8].
Proof. eexists. split; [vm_compute; reflexivity|]. split; vm_compute; reflexivity. Qed.
Theorem jitter_last_refuted : jitter_byte 7 ([mkPoll false 7 7; mkPoll false 8 8] ++ wds 7 8 ++ repeat (mkPoll false 8 8) 8 ++ [mkPoll true 8 8])
  = jitter_byte 7 ([mkPoll false 7 7; mkPoll false 8 8] ++ wds 7 8 ++ repeat (mkPoll false 8 8) 153 ++ [mkPoll true 8 8]).
Proof. vm_compute. reflexivity. Qed.

(** The simpler sources: polls to the watchdog's firing, and readings the timer stood at one value, modulo 256. *)
Theorem jitter_wdt_spec n ps : jitter_wdt 0 (repeat false n ++ true :: ps) = Some (Z.of_nat n mod 256).
Proof.
  assert (H : forall n k, jitter_wdt (k mod 256) (repeat false n ++ true :: ps) = Some ((k + Z.of_nat n) mod 256)).
  { clear n. induction n as [|n IH]; intros k; cbn [repeat app jitter_wdt].
    - rewrite Z.add_0_r. reflexivity.
    - unfold u8. rewrite Zplus_mod_idemp_l, IH. replace (k + 1 + Z.of_nat n) with (k + Z.of_nat (S n)) by lia. reflexivity. }
  exact (H n 0).
Qed.
Theorem jitter_rtc_spec t0 n x t1 k e l : x <> t0 -> e <> t1 ->
  jitter_rtc (t0 :: repeat t0 n ++ x :: t1 :: repeat t1 k ++ e :: l) = Some (Z.of_nat k mod 256).
Proof.
  intros Hx He. unfold jitter_rtc.
  assert (H1 : forall m, rtc_wait t0 (repeat t0 n ++ x :: m) = Some m).
  { induction n as [|n IH]; intros m; cbn [repeat app rtc_wait].
    - replace (t0 =? x) with false by lia. reflexivity.
    - rewrite Z.eqb_refl. apply IH. }
  rewrite H1.
  assert (H : forall k j, rtc_count t1 (j mod 256) (repeat t1 k ++ e :: l) = Some ((j + Z.of_nat k) mod 256)).
  { clear k. induction k as [|k IH]; intros j; cbn [repeat app rtc_count].
    - replace (t1 =? e) with false by lia. rewrite Z.add_0_r. reflexivity.
    - rewrite Z.eqb_refl. unfold u8. rewrite Zplus_mod_idemp_l, IH.
      replace (j + 1 + Z.of_nat k) with (j + Z.of_nat (S k)) by lia. reflexivity. }
  exact (H k 0).
Qed.
Example jitter_wdt_ex : jitter_wdt 0 (repeat false 300 ++ [true]) = Some 44. Proof. vm_compute. reflexivity. Qed.
