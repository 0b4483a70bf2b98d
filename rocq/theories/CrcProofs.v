(** Error detection: bursts, Hamming distance, odd errors. *)
From Verif Require Import Base CrcModel CrcSpec CrcLin.

(** ** [diff] as xor *)
Lemma znth_xorl l e i : length l = length e -> 0 <= i < Zlen l ->
  znth (xorl l e) i = Z.lxor (znth l i) (znth e i).
Proof.
  revert e i. induction l; intros [|b e] i HL Hi; simpl in *; try lia.
  - unfold Zlen in Hi; simpl in Hi; lia.
  - rewrite !znth_cons by lia. destruct (i =? 0) eqn:E; auto.
    rewrite Zlen_cons in Hi. apply IHl; lia.
Qed.
Lemma diff_xorl l l' e : diff l l' e -> l' = xorl l e.
Proof.
  intros (H1 & H2 & H3). apply zlist_ext.
  - unfold Zlen. rewrite xorl_len; lia.
  - intros i Hi. rewrite znth_xorl; [|lia|unfold Zlen in *; lia].
    rewrite H3 by (unfold Zlen in *; lia).
    rewrite <- Z.lxor_assoc, Z.lxor_nilpotent, Z.lxor_0_l. reflexivity.
Qed.
Lemma diff_byte l l' e : diff l l' e -> Forall byte l -> Forall byte l' -> Forall byte e.
Proof.
  intros (H1 & H2 & H3) Hl Hl'. apply Forall_of_znth. intros i Hi.
  rewrite H3 by (unfold Zlen in *; lia). apply lxor8; apply znth_byte; auto.
Qed.

(** CRC of a corrupted message. *)
Lemma crc7_run_diff l l' e c : diff l l' e -> Forall byte l -> Forall byte l' ->
  0 <= c < 128 -> crc7_run c l' = Z.lxor (crc7_run c l) (crc7_run 0 e).
Proof.
  intros H Hl Hl' Hc. rewrite (diff_xorl _ _ _ H). apply crc7_run_error; auto.
  - destruct H as (?&?&?). lia.
  - eapply diff_byte; eauto.
Qed.

(** ** Big-endian values *)
Lemma be_acc a l : fold_left (fun a b => 256 * a + b) l a = a * 256 ^ Zlen l + be l.
Proof.
  unfold be. revert a. induction l; intros x; cbn [fold_left].
  - change (256 ^ Zlen (@nil Z)) with 1. lia.
  - rewrite IHl, (IHl (256 * 0 + a)). rewrite Zlen_cons, Z.pow_add_r by (pose proof (Zlen_nonneg l); lia).
    lia.
Qed.
Lemma be_cons a l : be (a :: l) = a * 256 ^ Zlen l + be l.
Proof. unfold be. simpl fold_left. rewrite be_acc. reflexivity. Qed.
Lemma be_app l1 l2 : be (l1 ++ l2) = be l1 * 256 ^ Zlen l2 + be l2.
Proof. unfold be at 1. rewrite fold_left_app. rewrite be_acc. reflexivity. Qed.
Lemma be_range l : Forall byte l -> 0 <= be l < 256 ^ Zlen l.
Proof.
  induction 1.
  - unfold be; cbn [fold_left]. change (256 ^ Zlen (@nil Z)) with 1. lia.
  - rewrite be_cons, Zlen_cons, Z.pow_add_r by (pose proof (Zlen_nonneg l); lia).
    unfold byte in H. nia.
Qed.
Lemma be_zero l : Forall byte l -> be l = 0 -> l = repeat 0 (length l).
Proof.
  induction 1; intros E; [reflexivity|]. simpl repeat.
  rewrite be_cons in E. pose proof (be_range _ H0). unfold byte in H.
  assert (0 < 256 ^ Zlen l) by (apply Z.pow_pos_nonneg; [lia|apply Zlen_nonneg]).
  assert (x = 0) by nia. subst. f_equal. apply IHForall. nia.
Qed.
Lemma be_repeat0 n : be (repeat 0 n) = 0.
Proof. induction n; [reflexivity|]. simpl repeat. rewrite be_cons, IHn. lia. Qed.

Lemma pow256 n : 0 <= n -> 256 ^ n = 2 ^ (8 * n).
Proof. intros. change 256 with (2 ^ 8). rewrite <- Z.pow_mul_r by lia. reflexivity. Qed.

(** A burst is confined to one byte or two adjacent bytes. *)
Lemma burst_shape e v k : Forall byte e -> 0 < v < 128 -> 0 <= k ->
  be e = v * 2 ^ k ->
  (exists n m j, e = repeat 0 n ++ [v * 2 ^ j] ++ repeat 0 m /\ 0 <= j) \/
  (exists n m a b j, e = repeat 0 n ++ [a; b] ++ repeat 0 m /\ 0 <= j < 8 /\ byte a /\ byte b /\ 256 * a + b = v * 2 ^ j).
Proof.
  intros He Hv Hk. induction He as [|a l Ha Hl IH]; intros E.
  - unfold be in E; simpl in E. assert (0 < 2 ^ k) by (apply Z.pow_pos_nonneg; lia). nia.
  - rewrite be_cons in E. pose proof (be_range _ Hl) as Hr.
    pose proof (Zlen_nonneg l) as HL.
    destruct (Z.eq_dec a 0) as [->|Hne].
    + destruct IH as [(n & m & j & -> & ?)|(n & m & x & y & j & -> & ?)]; [lia| |].
      * left. exists (S n), m, j. split; auto.
      * right. exists (S n), m, x, y, j. split; auto.
    + destruct (Z.le_gt_cases (8 * Zlen l) k) as [Hge|Hlt].
      * left. exists O, (length l), (k - 8 * Zlen l).
        replace k with ((k - 8 * Zlen l) + 8 * Zlen l) in E by lia.
        rewrite Z.pow_add_r in E by lia. rewrite <- pow256 in E by lia.
        set (P := 256 ^ Zlen l) in *. set (Q := 2 ^ (k - 8 * Zlen l)) in *.
        assert (0 < P) by (apply Z.pow_pos_nonneg; lia).
        assert (be l = (v * Q - a) * P) by nia.
        assert (v * Q - a = 0) by nia.
        split; [|lia]. simpl. f_equal; [lia|]. apply be_zero; auto. nia.
      * right. destruct l as [|b l].
        { rewrite Zlen_nil in *. lia. }
        inversion Hl as [|? ? Hb Hl']; subst.
        pose proof (be_range _ Hl') as Hr'. pose proof (Zlen_nonneg l) as HL'.
        rewrite be_cons in E. rewrite Zlen_cons in *.
        set (P := 256 ^ Zlen l) in *.
        assert (HP : 0 < P) by (apply Z.pow_pos_nonneg; lia).
        rewrite Z.pow_add_r in E by lia. fold P in E.
        change (256 ^ 1) with 256 in E.
        assert (Hk' : 8 * Zlen l <= k).
        { assert (Hbig : 256 * P <= v * 2 ^ k) by (unfold byte in *; nia).
          destruct (Z.le_gt_cases (8 * Zlen l) k); auto. exfalso.
          assert (2 ^ k <= P).
          { unfold P. rewrite pow256 by lia. apply Z.pow_le_mono_r; lia. }
          nia. }
        exists O, (length l), a, b, (k - 8 * Zlen l).
        replace k with ((k - 8 * Zlen l) + 8 * Zlen l) in E by lia.
        rewrite Z.pow_add_r in E by lia. rewrite <- pow256 in E by lia. fold P in E.
        set (Q := 2 ^ (k - 8 * Zlen l)) in *.
        assert (be l = (v * Q - (256 * a + b)) * P) by nia.
        assert (v * Q - (256 * a + b) = 0) by nia.
        split; [|repeat split; auto; try lia; unfold byte in *; lia].
        simpl. do 2 f_equal. apply be_zero; auto. nia.
Qed.

Definition burst1_chk (v j : Z) : bool :=
  (v =? 0) || (256 <=? v * 2 ^ j) || negb (crc7_5B_update 0 (v * 2 ^ j) =? 0).
Lemma burst1_sweep : below2 128 8 burst1_chk = true.
Proof. vm_compute. reflexivity. Qed.
Definition burst2_chk (v j : Z) : bool :=
  (v =? 0) ||
  negb (crc7_5B_update (crc7_5B_update 0 ((v * 2 ^ j) / 256)) ((v * 2 ^ j) mod 256) =? 0).
Lemma burst2_sweep : below2 128 8 burst2_chk = true.
Proof. vm_compute. reflexivity. Qed.

Lemma pow_small v j : 0 < v -> 0 <= j -> v * 2 ^ j < 256 -> j < 8.
Proof.
  intros. destruct (Z.lt_ge_cases j 8); auto.
  assert (2 ^ 8 <= 2 ^ j) by (apply Z.pow_le_mono_r; lia).
  change (2 ^ 8) with 256 in *. nia.
Qed.

Lemma burst7_crc e : Forall byte e -> burst7 e -> crc7_run 0 e <> 0.
Proof.
  intros He (v & k & Hv & Hk & E) H0.
  destruct (burst_shape e v k He Hv Hk E)
    as [(n & m & j & -> & Hj)|(n & m & a & b & j & -> & Hj & Ha & Hb & Hab)].
  - rewrite !crc7_run_app, crc7_run_zeros0 in H0.
    apply crc7_run_zeros_inj in H0; [|apply crc7_run_range; lia].
    apply Forall_app in He. destruct He as [_ He]. inversion He; subst.
    assert (j < 8) by (apply (pow_small v); unfold byte in *; lia).
    pose proof (below2_spec _ _ _ burst1_sweep v j ltac:(lia) ltac:(lia)) as Hs.
    unfold burst1_chk in Hs. unfold crc7_run in H0. simpl fold_left in H0.
    rewrite H0 in Hs. unfold byte in *. simpl in Hs.
    destruct (v =? 0) eqn:?; destruct (256 <=? v * 2 ^ j) eqn:?; simpl in Hs; try lia; discriminate.
  - rewrite !crc7_run_app, crc7_run_zeros0 in H0.
    apply crc7_run_zeros_inj in H0; [|apply crc7_run_range; lia].
    pose proof (below2_spec _ _ _ burst2_sweep v j ltac:(lia) ltac:(lia)) as Hs.
    unfold burst2_chk in Hs. rewrite <- Hab in Hs. unfold byte in *.
    replace ((256 * a + b) / 256) with a in Hs by (apply Z.div_unique with b; lia).
    replace ((256 * a + b) mod 256) with b in Hs by (apply Z.mod_unique with a; lia).
    unfold crc7_run in H0. simpl fold_left in H0. rewrite H0 in Hs.
    destruct (v =? 0) eqn:?; simpl in Hs; [lia|discriminate].
Qed.

(** ** Hamming distance 4 for up to 7 bytes: exhaustive over error patterns of
    weight at most 2 (byte by byte, pruning by remaining weight); weight 3 is
    settled by parity. *)
Definition bytes_upto (w : Z) : list Z :=
  filter (fun b => ones8 b <=? w) (map Z.of_nat (seq 0 256)).
Definition bu0 := Eval vm_compute in bytes_upto 0.
Definition bu1 := Eval vm_compute in bytes_upto 1.
Definition bu2 := Eval vm_compute in bytes_upto 2.

Definition bu (w : Z) : list Z :=
  if w =? 0 then bu0 else if w =? 1 then bu1 else bu2.
Fixpoint hd4_chk (n : nat) (used c : Z) : bool :=
  match n with
  | O => (used =? 0) || (4 <=? used + ones8 c)
  | S n' => forallb (fun b => hd4_chk n' (used + ones8 b) (crc7_5B_update c b))
                    (bu (2 - used))
  end.
Lemma hd4_sweep : below 8 (fun n => hd4_chk (Z.to_nat n) 0 0) = true.
Proof. vm_compute. reflexivity. Qed.

Lemma ones8_nonneg b : 0 <= ones8 b.
Proof.
  unfold ones8. generalize 8%nat. intros n. revert b. induction n; intros; simpl; [lia|].
  pose proof (Z.mod_pos_bound b 2). specialize (IHn (b / 2)). lia.
Qed.
Lemma ones_l_nonneg l : 0 <= ones_l l.
Proof. induction l; simpl; [lia|]. pose proof (ones8_nonneg a). lia. Qed.
Lemma bu_complete w b : 0 <= w <= 2 -> byte b -> ones8 b <= w -> In b (bu w).
Proof.
  intros Hw Hb Ho.
  assert (H : In b (bytes_upto w)).
  { unfold bytes_upto. apply filter_In. split; [|lia].
    apply in_map_iff. exists (Z.to_nat b). unfold byte in Hb. split; [lia|].
    apply in_seq. lia. }
  unfold bu. assert (w = 0 \/ w = 1 \/ w = 2) as [-> | [-> | ->]] by lia;
    simpl; exact H.
Qed.
Lemma hd4_sound e : forall n used c, length e = n -> Forall byte e ->
  0 <= used -> used + ones_l e <= 2 -> hd4_chk n used c = true ->
  used + ones_l e = 0 \/ 4 <= used + ones_l e + ones8 (crc7_run c e).
Proof.
  induction e; intros n used c Hn He Hu Hle Hc; subst n; simpl in *.
  - unfold crc7_run; simpl. destruct (used =? 0) eqn:?; simpl in Hc; lia.
  - inversion He; subst. pose proof (ones8_nonneg a). pose proof (ones_l_nonneg e).
    rewrite forallb_forall in Hc.
    assert (Hin : In a (bu (2 - used))) by (apply bu_complete; auto; lia).
    specialize (Hc a Hin).
    change (crc7_run c (a :: e)) with (crc7_run (crc7_5B_update c a) e).
    pose proof (IHe (length e) (used + ones8 a) (crc7_5B_update c a) eq_refl
                  ltac:(assumption) ltac:(lia) ltac:(lia) Hc). lia.
Qed.
Lemma ones8_zero b : byte b -> ones8 b = 0 -> b = 0.
Proof.
  intros Hb H0. assert (Hs : below 256 (fun b => (b =? 0) || negb (ones8 b =? 0)) = true)
    by (vm_compute; reflexivity).
  pose proof (below_spec _ _ Hs b Hb) as H1. simpl in H1. rewrite H0 in H1. simpl in H1. lia.
Qed.
Lemma ones_l_zero l : Forall byte l -> ones_l l = 0 -> l = repeat 0 (length l).
Proof.
  induction 1; intros H1; simpl in *; auto.
  pose proof (ones8_nonneg x). pose proof (ones_l_nonneg l).
  f_equal; [apply ones8_zero; auto; lia|apply IHForall; lia].
Qed.
Lemma diff_zero l l' n : diff l l' (repeat 0 n) -> l = l'.
Proof.
  intros H. pose proof (diff_xorl _ _ _ H) as ->. destruct H as (H1&H2&_).
  rewrite repeat_length in H2. subst n. clear H1.
  induction l; simpl; auto. rewrite Z.lxor_0_r. f_equal; auto.
Qed.

Lemma crc7_hd4 l l' e c : (length l <= 7)%nat -> diff l l' e ->
  Forall byte l -> Forall byte l' -> 0 <= c < 128 -> l <> l' ->
  4 <= ones_l e + ones8 (Z.lxor (crc7_run c l) (crc7_run c l')).
Proof.
  intros HL HD Hl Hl' Hc Hne.
  rewrite (crc7_run_diff l l' e c HD Hl Hl' Hc).
  rewrite <- Z.lxor_assoc, Z.lxor_nilpotent, Z.lxor_0_l.
  pose proof (ones8_nonneg (crc7_run 0 e)). pose proof (ones_l_nonneg e).
  pose proof (diff_byte _ _ _ HD Hl Hl') as He.
  destruct (Z.eq_dec (ones_l e) 3) as [H3|].
  { pose proof (crc7_run_parity 0 e ltac:(lia) He) as HP. rewrite H3 in HP.
    destruct (Z.eq_dec (ones8 (crc7_run 0 e)) 0) as [Hz|]; [|lia].
    rewrite Hz in HP. discriminate. }
  destruct (Z.le_gt_cases (ones_l e) 2) as [Hle|]; [|lia].
  assert (Hlen : (length e <= 7)%nat) by (destruct HD as (?&?&?); lia).
  pose proof (below_spec _ _ hd4_sweep (Z.of_nat (length e)) ltac:(lia)) as Hs.
  simpl in Hs. rewrite Nat2Z.id in Hs.
  destruct (hd4_sound e _ 0 0 eq_refl He ltac:(lia) ltac:(lia) Hs) as [Hz0|]; [|lia].
  exfalso. apply Hne. apply (diff_zero l l' (length e)).
  rewrite <- (ones_l_zero e He) by lia. exact HD.
Qed.

(** odd-weight errors *)
Lemma crc7_odd l l' e c : diff l l' e -> Forall byte l -> Forall byte l' ->
  0 <= c < 128 -> ones_l e mod 2 = 1 -> crc7_run c l <> crc7_run c l'.
Proof.
  intros HD Hl Hl' Hc Ho E.
  rewrite (crc7_run_diff l l' e c HD Hl Hl' Hc) in E. symmetry in E.
  apply lxor_eq_self in E.
  pose proof (crc7_run_parity 0 e ltac:(lia) (diff_byte _ _ _ HD Hl Hl')) as HP.
  rewrite E in HP. change (ones8 0) with 0 in HP. rewrite Z.add_0_l, Ho in HP.
  discriminate.
Qed.

Lemma crc7_burst l l' e c : diff l l' e -> Forall byte l -> Forall byte l' ->
  0 <= c < 128 -> burst7 e -> crc7_run c l <> crc7_run c l'.
Proof.
  intros HD Hl Hl' Hc Hb E.
  rewrite (crc7_run_diff l l' e c HD Hl Hl' Hc) in E. symmetry in E.
  apply lxor_eq_self in E. revert E. apply burst7_crc; auto.
  eapply diff_byte; eauto.
Qed.

(** ** nz_final *)
Definition nz (c : Z) : Z := if c =? 0 then 128 else c.
Lemma nz_inj c c' : 0 <= c < 128 -> 0 <= c' < 128 -> nz c = nz c' -> c = c'.
Proof. unfold nz. destruct (c =? 0) eqn:?, (c' =? 0) eqn:?; lia. Qed.
Lemma nz_final_eq c d : crc7_5B_update_nz_final c d = nz (crc7_5B_update c d).
Proof.
  unfold crc7_5B_update_nz_final, nz. destruct (crc7_5B_update c d =? 0); reflexivity.
Qed.

(** ** Data bytes followed by the nz-CRC byte: bursts up to 7 bits detected
    even when they straddle data and CRC. *)
Definition strad_chk (v j : Z) : bool :=
  let a := (v * 2 ^ j) / 256 in let b := (v * 2 ^ j) mod 256 in
  (a =? 0) || (b =? 0) ||
  (let R := crc7_5B_update 0 a in
   negb (R =? 0) && negb (R =? b) && negb (R =? Z.lxor 128 b)).
Lemma strad_sweep : below2 128 8 strad_chk = true.
Proof. vm_compute. reflexivity. Qed.
Lemma strad c a b v j : 0 <= c < 128 -> 0 <= v < 128 -> 0 <= j < 8 ->
  256 * a + b = v * 2 ^ j -> byte b -> a <> 0 -> b <> 0 ->
  nz (Z.lxor c (crc7_5B_update 0 a)) <> Z.lxor (nz c) b.
Proof.
  intros Hc Hv Hj E Hb Ha0 Hb0.
  pose proof (below2_spec _ _ _ strad_sweep v j Hv Hj) as Hs.
  unfold strad_chk in Hs. rewrite <- E in Hs. unfold byte in Hb.
  replace ((256 * a + b) / 256) with a in Hs by (apply Z.div_unique with b; lia).
  replace ((256 * a + b) mod 256) with b in Hs by (apply Z.mod_unique with a; lia).
  replace (a =? 0) with false in Hs by lia. replace (b =? 0) with false in Hs by lia.
  cbn [orb] in Hs. cbv zeta in Hs. bool_to_prop.
  set (R := crc7_5B_update 0 a) in *. unfold nz.
  destruct (Z.lxor c R =? 0) eqn:E1.
  - apply Z.eqb_eq in E1. apply Z.lxor_eq in E1. subst c.
    replace (R =? 0) with false by lia. intros E2. apply H0.
    rewrite E2, Z.lxor_assoc, Z.lxor_nilpotent, Z.lxor_0_r. reflexivity.
  - destruct (c =? 0) eqn:E2.
    + apply Z.eqb_eq in E2. subst c. rewrite Z.lxor_0_l. exact H0.
    + intros E3. apply H1. apply (f_equal (Z.lxor c)) in E3.
      rewrite <- !Z.lxor_assoc, Z.lxor_nilpotent, !Z.lxor_0_l in E3. exact E3.
Qed.

Lemma app_last_inj {A} (l l' : list A) a a' : l ++ [a] = l' ++ [a'] -> l = l' /\ a = a'.
Proof. apply app_inj_tail. Qed.

Lemma codeword_burst d d' t t' ed et c :
  Forall byte d -> Forall byte d' -> diff d d' ed -> 0 <= c < 128 ->
  t = nz (crc7_run c d) -> t' = nz (crc7_run c d') -> et = Z.lxor t t' ->
  burst7 (ed ++ [et]) -> False.
Proof.
  intros Hd Hd' HD Hc Ht Ht' Het (v & k & Hv & Hk & E).
  pose proof (diff_byte _ _ _ HD Hd Hd') as Hed.
  pose proof (crc7_run_range c d Hc) as HR. pose proof (crc7_run_range c d' Hc) as HR'.
  assert (Hbt : byte t /\ byte t').
  { subst t t'. unfold nz, byte. destruct (_ =? 0) eqn:?, (crc7_run c d' =? 0) eqn:?; lia. }
  destruct Hbt as [Hbt Hbt'].
  assert (Hbet : byte et) by (subst et; apply lxor8; auto).
  assert (Hsplit : be ed * 256 + et = v * 2 ^ k).
  { rewrite be_app in E. rewrite Zlen_cons, Zlen_nil in E.
    change (256 ^ (1 + 0)) with 256 in E. unfold be at 2 in E. simpl fold_left in E.
    lia. }
  pose proof (be_range _ Hed) as HB.
  destruct (Z.eq_dec et 0) as [E0|E0].
  - (* CRC byte unchanged *)
    assert (t = t').
    { apply Z.lxor_eq. lia. }
    assert (HE : crc7_run c d = crc7_run c d') by (apply nz_inj; auto; congruence).
    revert HE. eapply crc7_burst; eauto.
    (* be ed = v' * 2^(k') *)
    assert (Hk8 : be ed * 256 = v * 2 ^ k) by lia.
    destruct (Z.le_gt_cases 8 k) as [Hge|Hlt].
    + exists v, (k - 8). repeat split; try lia.
      replace k with (k - 8 + 8) in Hk8 by lia. rewrite Z.pow_add_r in Hk8 by lia.
      change (2 ^ 8) with 256 in Hk8. nia.
    + exists (be ed), 0. assert (Hs : v * 2 ^ k < 128 * 256).
      { assert (2 ^ k < 2 ^ 8) by (apply Z.pow_lt_mono_r; lia).
        change (2 ^ 8) with 256 in *. nia. }
      assert (0 < 2 ^ k) by (apply Z.pow_pos_nonneg; lia).
      change (2 ^ 0) with 1. split; [|split]; nia.
  - destruct (Z.eq_dec (be ed) 0) as [B0|B0].
    + (* data unchanged, so CRC unchanged *)
      pose proof (be_zero _ Hed B0) as Hz. rewrite Hz in HD.
      apply diff_zero in HD. apply E0. subst et t t' d'. apply Z.lxor_nilpotent.
    + (* straddling *)
      assert (Hk8 : 0 <= k < 8).
      { split; [lia|]. destruct (Z.lt_ge_cases k 8); auto. exfalso.
        assert (Hm : (be ed * 256 + et) mod 256 = 0).
        { rewrite Hsplit. replace k with (k - 8 + 8) by lia.
          rewrite Z.pow_add_r by lia. change (2 ^ 8) with 256.
          rewrite Z.mul_assoc. apply Z.mod_mul. lia. }
        rewrite Z.add_comm, Z.mod_add in Hm by lia. unfold byte in Hbet.
        rewrite Z.mod_small in Hm by lia. lia. }
      assert (Hbe : be ed < 128).
      { assert (2 ^ k < 2 ^ 8) by (apply Z.pow_lt_mono_r; lia).
        change (2 ^ 8) with 256 in *. unfold byte in *. nia. }
      assert (Hshape : exists n, ed = repeat 0 n ++ [be ed]).
      { destruct (exists_last (l := ed)) as (l0 & x & Hx).
        { intros ->. apply B0. reflexivity. }
        subst ed. rewrite be_app in *. rewrite Zlen_cons, Zlen_nil in *.
        change (256 ^ (1 + 0)) with 256 in *. unfold be at 2 in Hbe.
        apply Forall_app in Hed. destruct Hed as [Hl0 Hx]. inversion Hx; subst.
        pose proof (be_range _ Hl0). simpl fold_left in Hbe. unfold byte in H1.
        assert (be l0 = 0) by lia. exists (length l0).
        rewrite <- (be_zero _ Hl0) by lia. f_equal. unfold be at 2. simpl fold_left. f_equal. lia. }
      destruct Hshape as [n Hn].
      assert (Hcrc : crc7_run c d' = Z.lxor (crc7_run c d) (crc7_5B_update 0 (be ed))).
      { rewrite (crc7_run_diff _ _ _ _ HD Hd Hd' Hc). f_equal. rewrite Hn at 1.
        rewrite crc7_run_app, crc7_run_zeros0. reflexivity. }
      apply (strad (crc7_run c d) (be ed) et v k); auto; try lia.
      rewrite <- Hcrc, <- Ht, <- Ht'. subst et.
      rewrite <- Z.lxor_assoc, Z.lxor_nilpotent, Z.lxor_0_l. reflexivity.
Qed.
