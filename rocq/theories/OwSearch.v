(** The OneWire search finds every device exactly once, in order of ROM code (C122). *)
From Coq Require Import Sorting.Sorted Permutation.
From Verif Require Import Base OwModel OwProps.

(** ** Specification *)
(** The order in which the devices are found: by ROM code, the bit sent first the most significant. *)
Definition agree (n : nat) (x y : list Z) : Prop := forall k, (k < n)%nat -> abit x k = abit y k.
Definition rom_lt (x y : list Z) : Prop := exists k, (k < 64)%nat /\ agree k x y /\ abit x k = false /\ abit y k = true.
(** A bus that could exist: any number of devices (perhaps none), each with its own well-formed ROM code
    whose family byte is not 0. *)
Definition good_bus (b : list Slave) : Prop :=
  NoDup (map rom b) /\ forall s, In s b -> rom8 (rom s) /\ znth (rom s) 0 <> 0.

(** ** Agreement *)
Fixpoint agb (n : nat) (x y : list Z) : bool := match n with O => true | S n => agb n x y && Bool.eqb (abit x n) (abit y n) end.
Lemma agb_spec n x y : agb n x y = true <-> agree n x y.
Proof.
  induction n as [|n IH]; cbn [agb].
  - split; [|reflexivity]. intros _ k Hk. lia.
  - rewrite andb_true_iff, IH, Bool.eqb_true_iff. split.
    + intros [H1 H2] k Hk. destruct (Nat.eq_dec k n) as [-> | Hn]; [exact H2|]. apply H1. lia.
    + intros H. split; [intros k Hk|]; apply H; lia.
Qed.
Lemma agree_sym n x y : agree n x y -> agree n y x. Proof. intros H k Hk. symmetry. auto. Qed.
Lemma agree_trans n x y z : agree n x y -> agree n y z -> agree n x z. Proof. intros H1 H2 k Hk. rewrite H1, H2 by exact Hk. reflexivity. Qed.
Lemma agree_le n m x y : (m <= n)%nat -> agree n x y -> agree m x y. Proof. intros Hm H k Hk. apply H. lia. Qed.
Lemma agree_S n x y : agree n x y -> abit x n = abit y n -> agree (S n) x y.
Proof. intros H1 H2 k Hk. destruct (Nat.eq_dec k n) as [-> | Hn]; [exact H2|]. apply H1. lia. Qed.
Lemma agree_refl n x : agree n x x. Proof. intros k _. reflexivity. Qed.
Lemma agree_eq x y : rom8 x -> rom8 y -> agree 64 x y -> x = y.
Proof. intros Hx Hy H. apply abit_ext; assumption. Qed.
(** Either they agree or there is a first difference. *)
Lemma first_diff n x y : agree n x y \/ exists k, (k < n)%nat /\ agree k x y /\ abit x k <> abit y k.
Proof.
  induction n as [|n [IH | (k & Hk & H1 & H2)]].
  - left. intros k Hk. lia.
  - destruct (Bool.bool_dec (abit x n) (abit y n)) as [E | E].
    + left. apply agree_S; assumption.
    + right. exists n. auto.
  - right. exists k. split; [lia|auto].
Qed.
Lemma rom_lt_irrefl x : ~ rom_lt x x.
Proof. intros (k & _ & _ & H1 & H2). congruence. Qed.
Lemma rom_lt_trans x y z : rom_lt x y -> rom_lt y z -> rom_lt x z.
Proof.
  intros (k & Hk & A1 & X1 & Y1) (m & Hm & A2 & Y2 & Z2). destruct (Nat.lt_trichotomy k m) as [H | [-> | H]].
  - exists k. split; [exact Hk|]. split; [eapply agree_trans; [exact A1|eapply agree_le; [|exact A2]; lia]|]. split; [exact X1|]. rewrite <- A2 by exact H. exact Y1.
  - congruence.
  - exists m. split; [exact Hm|]. split; [eapply agree_trans; [eapply agree_le; [|exact A1]; lia|exact A2]|]. split; [rewrite A1 by exact H; exact Y2|exact Z2].
Qed.
Lemma rom_total x y : rom8 x -> rom8 y -> x = y \/ rom_lt x y \/ rom_lt y x.
Proof.
  intros Hx Hy. destruct (first_diff 64 x y) as [H | (k & Hk & H1 & H2)]; [left; apply agree_eq; assumption|right].
  destruct (abit x k) eqn:E1, (abit y k) eqn:E2; try congruence.
  - right. exists k. split; [exact Hk|]. split; [apply agree_sym; exact H1|auto].
  - left. exists k. auto.
Qed.

(** ** The bus during a search *)
Definition norm (b : list Slave) : list Slave := map (fun s => set_ph s POff) b.
Definition BId (b : list Slave) (i : nat) (a : list Z) : list Slave := map (fun s => set_ph s (if agb i (rom s) a then PId i else POff)) b.
Definition BCmp (b : list Slave) (i : nat) (a : list Z) : list Slave := map (fun s => set_ph s (if agb i (rom s) a then PCmp i else POff)) b.
Definition BDir (b : list Slave) (i : nat) (a : list Z) : list Slave := map (fun s => set_ph s (if agb i (rom s) a then PDir i else POff)) b.
Definition BEnd (b : list Slave) (a : list Z) : list Slave := map (fun s => set_ph s (if agb 64 (rom s) a then PFun 0 0 else POff)) b.
Definition has (D : list (list Z)) (a : list Z) (k : nat) (v : bool) : Prop := exists d, In d D /\ agree k d a /\ abit d k = v.
Definition hasb (b : list Slave) (a : list Z) (k : nat) (v : bool) : bool := existsb (fun s => agb k (rom s) a && Bool.eqb (abit (rom s) k) v) b.
Lemma hasb_spec b a k v : hasb b a k v = true <-> has (map rom b) a k v.
Proof.
  unfold hasb, has. rewrite existsb_exists. split.
  - intros (s & Hs & H). apply andb_true_iff in H as [H1 H2]. exists (rom s). split; [apply in_map; exact Hs|]. split; [apply agb_spec; exact H1|apply Bool.eqb_prop; exact H2].
  - intros (d & Hd & H1 & H2). apply in_map_iff in Hd as (s & <- & Hs). exists s. split; [exact Hs|]. apply andb_true_iff. split; [apply agb_spec; exact H1|rewrite H2; apply Bool.eqb_reflx].
Qed.
Lemma read_id b i a : b_read slaves (BId b i a) = (negb (hasb b a i false), BCmp b i a).
Proof.
  cbn [slaves b_read]. f_equal.
  - unfold hasb, BId. induction b as [|s b IH]; [reflexivity|]. cbn [map forallb existsb]. rewrite IH, negb_orb. f_equal.
    destruct (agb i (rom s) a) eqn:E; cbn [slave_read set_ph ph rom fst andb]; [destruct (abit (rom s) i); reflexivity|reflexivity].
  - unfold BId, BCmp. rewrite map_map. apply map_ext. intros s. destruct (agb i (rom s) a); reflexivity.
Qed.
Lemma read_cmp b i a : b_read slaves (BCmp b i a) = (negb (hasb b a i true), BDir b i a).
Proof.
  cbn [slaves b_read]. f_equal.
  - unfold hasb, BCmp. induction b as [|s b IH]; [reflexivity|]. cbn [map forallb existsb]. rewrite IH, negb_orb. f_equal.
    destruct (agb i (rom s) a) eqn:E; cbn [slave_read set_ph ph rom fst andb]; [destruct (abit (rom s) i); reflexivity|reflexivity].
  - unfold BCmp, BDir. rewrite map_map. apply map_ext. intros s. destruct (agb i (rom s) a); reflexivity.
Qed.
Lemma agb_ext n x a a' : agree n a a' -> agb n x a = agb n x a'.
Proof. intros H. apply Bool.eq_true_iff_eq. rewrite !agb_spec. split; intros H1; eapply agree_trans; eauto. apply agree_sym. exact H. Qed.
Lemma write_dir b i a a' v : (i < 63)%nat -> agree i a a' -> abit a' i = v -> b_write slaves (BDir b i a) v = BId b (S i) a'.
Proof.
  intros Hi HA HV. cbn [slaves b_write]. unfold BDir, BId. rewrite map_map. apply map_ext. intros s. cbn [agb]. rewrite <- (agb_ext i (rom s) a a' HA), HV.
  destruct (agb i (rom s) a) eqn:E; cbn [andb]; [|reflexivity]. unfold slave_write, set_ph. cbn [ph rom actual slow pad]. replace (i =? 63)%nat with false by (symmetry; apply Nat.eqb_neq; lia). reflexivity.
Qed.
Lemma write_dir_end b a a' v : agree 63 a a' -> abit a' 63 = v -> b_write slaves (BDir b 63 a) v = BEnd b a'.
Proof.
  intros HA HV. cbn [slaves b_write]. unfold BDir, BEnd. rewrite map_map. apply map_ext. intros s.
  change (agb 64 (rom s) a') with (agb 63 (rom s) a' && Bool.eqb (abit (rom s) 63) (abit a' 63)). rewrite <- (agb_ext 63 (rom s) a a' HA), HV.
  destruct (agb 63 (rom s) a); cbn [andb]; [|reflexivity]. unfold slave_write, set_ph. cbn [ph rom actual slow pad]. rewrite Nat.eqb_refl. reflexivity.
Qed.

(** ** The loop *)
Definition rule (ld : Z) (a0 : list Z) (k : nat) : bool := if Z.of_nat k + 1 <? ld then abit a0 k else Z.of_nat k + 1 =? ld.
Record LI (D : list (list Z)) (ld : Z) (a0 : list Z) (k : nat) (a : list Z) (lz : Z) : Prop := mkLI {
  li_rom : rom8 a;
  li_dev : exists d, In d D /\ agree k d a;
  li_old : forall j, (k <= j < 64)%nat -> abit a j = abit a0 j;
  li_rule : forall j, (j < k)%nat -> has D a j true -> has D a j false -> abit a j = rule ld a0 j;
  li_lz : lz = 0 \/ exists j, lz = Z.of_nat j + 1 /\ (j < k)%nat /\ has D a j true /\ has D a j false /\ abit a j = false;
  li_max : forall j, (j < k)%nat -> has D a j true -> has D a j false -> abit a j = false -> Z.of_nat j + 1 <= lz }.
Lemma has_ext D a a' k v : agree k a a' -> has D a k v -> has D a' k v.
Proof. intros H (d & H1 & H2 & H3). exists d. split; [exact H1|]. split; [eapply agree_trans; eauto|exact H3]. Qed.
Lemma land_abit a k : 0 <= k -> negb (0 =? Z.land (znth a (k / 8)) (2 ^ (k mod 8))) = abit a (Z.to_nat k).
Proof.
  intros Hk. unfold abit. rewrite Z2Nat.id by exact Hk. pose proof (Z.mod_pos_bound k 8 ltac:(lia)). set (v := znth a (k / 8)). set (m := k mod 8) in *. destruct (Z.testbit v m) eqn:E.
  - apply negb_true_iff. apply Z.eqb_neq. intros H0. assert (Z.testbit (Z.land v (2 ^ m)) m = true) as H1 by (rewrite Z.land_spec, E, Z.pow2_bits_true by lia; reflexivity). rewrite <- H0, Z.testbit_0_l in H1. discriminate.
  - apply negb_false_iff. apply Z.eqb_eq. symmetry. apply Z.bits_inj'. intros j Hj. rewrite Z.land_spec, Z.testbit_0_l, Z.pow2_bits_eqb by lia. destruct (m =? j) eqn:Ej; [|apply andb_false_r].
    apply Z.eqb_eq in Ej. rewrite <- Ej, E. reflexivity.
Qed.
(** What one step does to the invariant. *)
Lemma li_step D ld a0 (k : nat) a lz a' dir : (k < 64)%nat -> LI D ld a0 k a lz -> rom8 a' ->
  (forall j, (j < 64)%nat -> abit a' j = if (j =? k)%nat then dir else abit a j) ->
  has D a k dir -> (has D a k true -> has D a k false -> dir = rule ld a0 k) ->
  forall lz', (has D a k true /\ has D a k false /\ dir = false /\ lz' = Z.of_nat k + 1) \/ (~ (has D a k true /\ has D a k false /\ dir = false) /\ lz' = lz) ->
  LI D ld a0 (S k) a' lz'.
Proof.
  intros Hk [HR HD HO HU HZ HM] HR' HB HH HRu lz' HL.
  assert (HA : agree k a a'). { intros j Hj. rewrite HB by lia. replace (j =? k)%nat with false by (symmetry; apply Nat.eqb_neq; lia). reflexivity. }
  assert (HBk : abit a' k = dir) by (rewrite HB by lia; rewrite Nat.eqb_refl; reflexivity).
  assert (HE : forall j v, (j <= k)%nat -> has D a' j v -> has D a j v). { intros j v Hj. apply has_ext. apply agree_sym. eapply agree_le; [|exact HA]. exact Hj. }
  assert (HE' : forall j v, (j <= k)%nat -> has D a j v -> has D a' j v). { intros j v Hj. apply has_ext. eapply agree_le; [|exact HA]. exact Hj. }
  assert (HLz : lz <= Z.of_nat k) by (destruct HZ as [-> | (j & -> & Hj & _)]; lia).
  constructor.
  - exact HR'.
  - destruct HH as (d & H1 & H2 & H3). exists d. split; [exact H1|]. apply agree_S; [eapply agree_trans; eauto|congruence].
  - intros j Hj. rewrite HB by lia. replace (j =? k)%nat with false by (symmetry; apply Nat.eqb_neq; lia). apply HO. lia.
  - intros j Hj H1 H2. apply HE in H1; [|lia]. apply HE in H2; [|lia]. destruct (Nat.eq_dec j k) as [-> | Hn].
    + rewrite HBk. apply HRu; assumption.
    + rewrite <- HA by lia. apply HU; [lia|assumption..].
  - destruct HL as [(H1 & H2 & H3 & ->) | [_ ->]].
    + right. exists k. split; [reflexivity|]. split; [lia|]. split; [apply HE'; [lia|exact H1]|]. split; [apply HE'; [lia|exact H2]|congruence].
    + destruct HZ as [-> | (j & -> & Hj & H1 & H2 & H3)]; [auto|]. right. exists j. split; [reflexivity|]. split; [lia|]. split; [apply HE'; [lia|exact H1]|]. split; [apply HE'; [lia|exact H2]|]. rewrite <- HA by exact Hj. exact H3.
  - intros j Hj H1 H2 H3. apply HE in H1; [|lia]. apply HE in H2; [|lia]. destruct (Nat.eq_dec j k) as [-> | Hn].
    + destruct HL as [(_ & _ & _ & ->) | [HN _]]; [lia|]. exfalso. apply HN. rewrite HBk in H3. auto.
    + rewrite <- HA in H3 by lia. specialize (HM j ltac:(lia) H1 H2 H3). destruct HL as [(_ & _ & _ & ->) | [_ ->]]; lia.
Qed.
Lemma loop_found b0 ld a0 : forall n (k : nat) a lz, (n + k = 64)%nat -> (k < 64)%nat -> LI (map rom b0) ld a0 k a lz ->
  exists a' lz', search_loop slaves n (BId b0 k a) a (Z.of_nat k / 8) (2 ^ (Z.of_nat k mod 8)) (Z.of_nat k + 1) lz ld = Some (BEnd b0 a', a', 65, lz') /\
  LI (map rom b0) ld a0 64 a' lz'.
Proof.
  induction n as [|n IH]; intros k a lz Hn Hk HI; [lia|]. cbn [search_loop]. rewrite read_id, read_cmp.
  assert (HL : Zlen a = 8) by apply (li_rom _ _ _ _ _ _ HI).
  assert (HD8 : 0 <= Z.of_nat k / 8 < 8) by (Z.div_mod_to_equations; lia).
  assert (HN : has (map rom b0) a k true \/ has (map rom b0) a k false).
  { destruct (li_dev _ _ _ _ _ _ HI) as (d & H1 & H2). destruct (abit d k) eqn:E; [left|right]; exists d; auto. }
  pose proof (hasb_spec b0 a k true) as S1. pose proof (hasb_spec b0 a k false) as S0.
  set (h1 := hasb b0 a k true) in *. set (h0 := hasb b0 a k false) in *.
  replace (negb h0 && negb h1) with false by (destruct h0, h1; try reflexivity; destruct HN as [HN | HN]; [apply S1 in HN|apply S0 in HN]; discriminate).
  set (dir := if xorb (negb h0) (negb h1) then negb h0 else rule ld a0 k).
  assert (ED : (if xorb (negb h0) (negb h1) then Some (negb h0) else if Z.of_nat k + 1 <? ld then bind (rd a (Z.of_nat k / 8)) (fun v => Some (negb (0 =? Z.land v (2 ^ (Z.of_nat k mod 8))))) else Some (Z.of_nat k + 1 =? ld)) = Some dir).
  { unfold dir. destruct (xorb (negb h0) (negb h1)); [reflexivity|]. unfold rule. destruct (Z.of_nat k + 1 <? ld); [|reflexivity]. rewrite rd_some by lia. cbn [bind].
    rewrite land_abit by lia. rewrite Nat2Z.id. rewrite (li_old _ _ _ _ _ _ HI) by lia. reflexivity. }
  rewrite ED. clear ED. cbn [bind]. rewrite rd_some by lia. cbn [bind].
  destruct (set_abit a (Z.of_nat k) dir (li_rom _ _ _ _ _ _ HI) ltac:(lia)) as (a' & -> & HR' & HB). rewrite Nat2Z.id in HB. cbn [bind]. cbv zeta.
  destruct (loop_pos (Z.of_nat k) ltac:(lia)) as [-> ->].
  set (lz' := if negb (xorb (negb h0) (negb h1)) && negb dir then Z.of_nat k + 1 else lz).
  assert (HI' : LI (map rom b0) ld a0 (S k) a' lz').
  { apply (li_step _ _ _ k a lz a' dir Hk HI HR' HB).
    - unfold dir. destruct h0 eqn:E0, h1 eqn:E1; cbn [negb xorb]; [|apply S0; reflexivity|apply S1; reflexivity|destruct HN as [HN | HN]; [apply S1 in HN|apply S0 in HN]; discriminate].
      destruct (rule ld a0 k); [apply S1|apply S0]; reflexivity.
    - intros H1 H0. apply S1 in H1. apply S0 in H0. unfold dir. rewrite H1, H0. reflexivity.
    - unfold lz'. destruct (negb (xorb (negb h0) (negb h1)) && negb dir) eqn:E.
      + left. apply andb_true_iff in E as [E1 E2]. destruct h0 eqn:F0, h1 eqn:F1; try discriminate E1; [|destruct HN as [HN | HN]; [apply S1 in HN|apply S0 in HN]; discriminate].
        split; [apply S1; reflexivity|]. split; [apply S0; reflexivity|]. split; [destruct dir; [discriminate|reflexivity]|reflexivity].
      + right. split; [|reflexivity]. intros (H1 & H0 & H2). apply S1 in H1. apply S0 in H0. rewrite H1, H0, H2 in E. discriminate. }
  assert (HA : agree k a a'). { intros j Hj. rewrite HB by lia. replace (j =? k)%nat with false by (symmetry; apply Nat.eqb_neq; lia). reflexivity. }
  assert (HBk : abit a' k = dir) by (rewrite HB by lia; rewrite Nat.eqb_refl; reflexivity).
  rewrite u8_id by (red; lia).
  replace (Z.of_nat k + 1) with (Z.of_nat (S k)) in * by lia.
  destruct (Z.of_nat (S k) / 8 <? 8) eqn:E8.
  - assert (k < 63)%nat by (Z.div_mod_to_equations; lia). rewrite (write_dir b0 k a a' dir ltac:(lia) HA HBk). apply (IH (S k) a' lz'); [lia|lia|exact HI'].
  - assert (k = 63)%nat by (Z.div_mod_to_equations; lia). subst k. rewrite (write_dir_end b0 a a' dir HA HBk). exists a', lz'. split; [reflexivity|]. exact HI'.
Qed.

(** ** Bytes on the bus *)
Definition one : Bus Slave := mkBus (fun s => (true, set_ph s (PRom 0 0))) slave_read slave_write.
Lemma write_map n : forall b v, write_bits slaves n b v = map (fun s => write_bits one n s v) b.
Proof.
  induction n as [|n IH]; intros b v; cbn [write_bits]; [symmetry; apply map_id|]. rewrite IH. cbn [slaves one b_write]. rewrite map_map. reflexivity.
Qed.
Lemma ow_write_map b v : ow_write slaves b v = map (fun s => ow_write one s v) b.
Proof. apply write_map. Qed.
Lemma search_cmd s : ow_write one (set_ph s (PRom 0 0)) 240 = set_ph s (PId 0).
Proof. reflexivity. Qed.
Lemma start_bus b a : ow_write slaves (snd (b_reset slaves b)) 240 = BId b 0 a.
Proof. rewrite ow_write_map. cbn [slaves b_reset snd]. rewrite map_map. apply map_ext. intros s. apply search_cmd. Qed.
Lemma reset_some b : b <> [] -> b_reset slaves b = (true, snd (b_reset slaves b)).
Proof. destruct b; [congruence|reflexivity]. Qed.
Lemma norm_end b a : norm (BEnd b a) = norm b.
Proof. unfold norm, BEnd. rewrite map_map. reflexivity. Qed.

(** ** The state between searches *)
Record Found (D : list (list Z)) (d : list Z) (w : OW) : Prop := mkFound {
  f_addr : addr w = d;
  f_in : In d D;
  f_dev : lastDev w = (lastDisc w =? 0);
  f_lz : lastDisc w = 0 \/ exists j, lastDisc w = Z.of_nat j + 1 /\ (j < 64)%nat /\ has D d j true /\ has D d j false /\ abit d j = false;
  f_max : forall j, (j < 64)%nat -> has D d j true -> has D d j false -> abit d j = false -> Z.of_nat j + 1 <= lastDisc w }.
Lemma li_in D ld a0 a lz : Forall rom8 D -> LI D ld a0 64 a lz -> In a D.
Proof.
  intros HF HI. destruct (li_dev _ _ _ _ _ _ HI) as (d & H1 & H2). rewrite Forall_forall in HF. rewrite <- (agree_eq d a); [exact H1|apply HF; exact H1|apply HI|exact H2].
Qed.
Lemma search_runs b w : good_bus b -> b <> [] -> lastDev w = false -> rom8 (addr w) ->
  exists d lz, search slaves w b = Some (true, d, mkOW (lz =? 0) lz d, BEnd b d) /\ LI (map rom b) (lastDisc w) (addr w) 64 d lz /\ In d (map rom b).
Proof.
  intros [HND HG] Hb HL HR.
  assert (HI0 : LI (map rom b) (lastDisc w) (addr w) 0 (addr w) 0).
  { constructor.
    - exact HR.
    - destruct b as [|s b]; [congruence|]. exists (rom s). split; [left; reflexivity|]. intros k Hk. lia.
    - reflexivity.
    - intros j Hj. lia.
    - left. reflexivity.
    - intros j Hj. lia. }
  destruct (loop_found b (lastDisc w) (addr w) 64 0 (addr w) 0 eq_refl ltac:(lia) HI0) as (d & lz & E & HI).
  assert (HF : Forall rom8 (map rom b)). { apply Forall_forall. intros x Hx. apply in_map_iff in Hx as (s & <- & Hs). apply HG. exact Hs. }
  pose proof (li_in _ _ _ _ _ HF HI) as Hin.
  exists d, lz. split; [|split; assumption]. unfold search. rewrite HL, (reset_some b Hb). cbv iota. cbn [negb].
  rewrite (start_bus b (addr w)). change (Z.of_nat 0 / 8) with 0 in E. change (2 ^ (Z.of_nat 0 mod 8)) with 1 in E. change (Z.of_nat 0 + 1) with 1 in E. rewrite E. cbn [bind].
  change (65 =? 65) with true. cbv iota. cbn [bind addr negb orb]. rewrite orb_false_r.
  assert (HZ : 0 =? znth d 0 = false). { apply Z.eqb_neq. intros H0. apply in_map_iff in Hin as (s & Es & Hs). destruct (HG s Hs) as [_ H1]. rewrite Es in H1. congruence. }
  rewrite HZ. reflexivity.
Qed.
Lemma li_found D ld a0 d lz : Forall rom8 D -> LI D ld a0 64 d lz -> Found D d (mkOW (lz =? 0) lz d).
Proof. intros HF HI. constructor; cbn [addr lastDev lastDisc]; [reflexivity|eapply li_in; eauto|reflexivity|apply HI|apply HI]. Qed.
(** The first device found is the least. *)
Lemma first_least D a0 d lz : LI D 0 a0 64 d lz -> Forall rom8 D -> forall x, In x D -> x = d \/ rom_lt d x.
Proof.
  intros HI HF x Hx. rewrite Forall_forall in HF. destruct (rom_total d x) as [-> | [H | H]]; [apply HI|apply HF; exact Hx|auto|auto|].
  exfalso. destruct H as (k & Hk & HA & H0 & H1).
  assert (E : abit d k = rule 0 a0 k).
  { apply (li_rule _ _ _ _ _ _ HI k Hk).
    - exists d. split; [eapply li_in; [apply Forall_forall; exact HF|exact HI]|]. split; [apply agree_refl|exact H1].
    - exists x. auto. }
  unfold rule in E. replace (Z.of_nat k + 1 <? 0) with false in E by lia. replace (Z.of_nat k + 1 =? 0) with false in E by lia. congruence.
Qed.
(** The next one found is the next greater. *)
Lemma next_least D w d d' lz : Forall rom8 D -> Found D d w -> lastDisc w <> 0 -> LI D (lastDisc w) d 64 d' lz ->
  rom_lt d d' /\ forall x, In x D -> rom_lt d x -> x = d' \/ rom_lt d' x.
Proof.
  intros HF HW Hz HI. destruct (f_lz _ _ _ HW) as [H0 | (p & Ep & Hp & Hp1 & Hp0 & Hpf)]; [congruence|].
  assert (Hin : In d D) by apply HW. assert (Hin' : In d' D) by (eapply li_in; eauto).
  assert (HA : forall k, (k <= p)%nat -> agree k d d').
  { induction k as [|k IH]; intros Hk; [intros j Hj; lia|]. apply agree_S; [apply IH; lia|]. specialize (IH ltac:(lia)).
    destruct (Bool.bool_dec (abit d k) (abit d' k)) as [E | E]; [exact E|]. exfalso. apply E.
    assert (H1 : forall v, has D d' k v). { intros v. destruct (Bool.bool_dec (abit d k) v) as [<- | Ev]; [exists d; auto|]. exists d'. split; [exact Hin'|]. split; [apply agree_refl|]. destruct (abit d k), (abit d' k), v; congruence. }
    rewrite (li_rule _ _ _ _ _ _ HI k ltac:(lia) (H1 true) (H1 false)). unfold rule. replace (Z.of_nat k + 1 <? lastDisc w) with true by lia. reflexivity. }
  assert (Hd' : abit d' p = true).
  { rewrite (li_rule _ _ _ _ _ _ HI p Hp); [unfold rule; rewrite Ep|..].
    - replace (Z.of_nat p + 1 <? Z.of_nat p + 1) with false by lia. apply Z.eqb_refl.
    - eapply has_ext; [apply HA; lia|exact Hp1].
    - eapply has_ext; [apply HA; lia|exact Hp0]. }
  split; [exists p; split; [exact Hp|]; split; [apply HA; lia|auto]|].
  intros x Hx (q & Hq & HAq & Hq0 & Hq1).
  assert (Hqp : (q <= p)%nat).
  { assert (Z.of_nat q + 1 <= lastDisc w); [|lia]. apply (f_max _ _ _ HW q Hq); [|exists d; split; [exact Hin|split; [apply agree_refl|exact Hq0]]|exact Hq0]. exists x. split; [exact Hx|]. split; [apply agree_sym; exact HAq|exact Hq1]. }
  destruct (Nat.eq_dec q p) as [-> | Hne].
  - rewrite Forall_forall in HF. destruct (rom_total d' x (HF _ Hin') (HF _ Hx)) as [-> | [H | H]]; [auto|auto|].
    exfalso. destruct H as (k & Hk & HAk & Hk0 & Hk1). assert (Hkp : (p < k)%nat).
    { destruct (Nat.lt_trichotomy k p) as [H | [-> | H]]; [| |exact H].
      - rewrite <- HAq in Hk0 by exact H. rewrite (HA p ltac:(lia)) in Hk0 by exact H. congruence.
      - congruence. }
    assert (E : abit d' k = rule (lastDisc w) d k).
    { apply (li_rule _ _ _ _ _ _ HI k Hk).
      - exists d'. split; [exact Hin'|]. split; [apply agree_refl|exact Hk1].
      - exists x. auto. }
    unfold rule in E. replace (Z.of_nat k + 1 <? lastDisc w) with false in E by lia. replace (Z.of_nat k + 1 =? lastDisc w) with false in E by lia. congruence.
  - right. exists q. split; [exact Hq|]. split; [eapply agree_trans; [apply agree_sym; apply HA; exact Hqp|exact HAq]|]. split; [|exact Hq1]. rewrite <- (HA p ltac:(lia)) by lia. exact Hq0.
Qed.
(** Nothing is greater than the last. *)
Lemma last_max D d w : Found D d w -> lastDisc w = 0 -> forall x, In x D -> ~ rom_lt d x.
Proof.
  intros HW Hz x Hx (q & Hq & HA & H0 & H1). assert (Z.of_nat q + 1 <= lastDisc w); [|lia]. apply (f_max _ _ _ HW q Hq); [|exists d; split; [apply HW|split; [apply agree_refl|exact H0]]|exact H0].
  exists x. split; [exact Hx|]. split; [apply agree_sym; exact HA|exact H1].
Qed.

(** ** Going through a sorted list of the ROM codes *)
(** Where the search is: it has yet to give [T]. *)
Definition at_ (D : list (list Z)) (w : OW) (T : list (list Z)) : Prop :=
  (w = reset_search /\ Permutation T D /\ StronglySorted rom_lt T) \/
  exists pre d, Permutation (pre ++ d :: T) D /\ StronglySorted rom_lt (pre ++ d :: T) /\ Found D d w.
Lemma sorted_parts pre (d : list Z) T : StronglySorted rom_lt (pre ++ d :: T) ->
  (forall x, In x pre -> rom_lt x d) /\ (forall x, In x T -> rom_lt d x).
Proof.
  induction pre as [|p pre IH]; intros H; inversion H as [|? ? H1 H2]; subst.
  - split; [intros x []|]. apply Forall_forall. exact H2.
  - destruct (IH H1) as [IH1 IH2]. split; [|exact IH2]. intros x [<- | Hx]; [|auto]. rewrite Forall_forall in H2. apply H2. apply in_or_app. right. left. reflexivity.
Qed.
Lemma good_rom8 b : good_bus b -> Forall rom8 (map rom b).
Proof. intros [_ HG]. apply Forall_forall. intros x Hx. apply in_map_iff in Hx as (s & <- & Hs). apply HG. exact Hs. Qed.
(** One call of search(): the next of the list, or false when none is left. *)
Lemma search_next b w T : good_bus b -> at_ (map rom b) w T ->
  match T with
  | [] => exists a w' b', search slaves w b = Some (false, a, w', b') /\ map rom b' = map rom b /\ norm b' = norm b
  | d :: T' => exists w', search slaves w b = Some (true, d, w', BEnd b d) /\ at_ (map rom b) w' T'
  end.
Proof.
  intros HG HT. pose proof (good_rom8 b HG) as HF. destruct HT as [(-> & HP & HS) | (pre & d & HP & HS & HW)].
  - destruct T as [|d T].
    + apply Permutation_nil in HP. apply map_eq_nil in HP as ->. cbn. eexists _, _, _. split; [reflexivity|auto].
    + assert (Hb : b <> []) by (intros ->; apply Permutation_sym, Permutation_nil in HP; discriminate).
      destruct (search_runs b reset_search HG Hb eq_refl) as (d1 & lz & E & HI & Hin); [split; [reflexivity|apply Forall_forall; intros x Hx; apply repeat_spec in Hx as ->; red; lia]|].
      assert (d1 = d) as ->.
      { assert (Hd : In d (map rom b)) by (eapply Permutation_in; [exact HP|left; reflexivity]).
        destruct (first_least _ _ _ _ HI HF d Hd) as [-> | Hlt]; [reflexivity|].
        assert (In d1 (d :: T)) as [Hd1 | Hd1] by (eapply Permutation_in; [apply Permutation_sym; exact HP|exact Hin]); [congruence|].
        exfalso. destruct (sorted_parts [] d T HS) as [_ H2]. apply (rom_lt_irrefl d). eapply rom_lt_trans; [apply H2; exact Hd1|exact Hlt]. }
      eexists. split; [exact E|]. right. exists [], d. split; [exact HP|]. split; [exact HS|]. eapply li_found; eauto.
  - assert (Hb : b <> []). { intros ->. apply Permutation_sym, Permutation_nil in HP. destruct pre; discriminate. }
    destruct (sorted_parts pre d T HS) as [H1 H2].
    destruct T as [|e T].
    + assert (HZ : lastDisc w = 0).
      { destruct (Z.eq_dec (lastDisc w) 0) as [E | Hz]; [exact E|exfalso].
        assert (HL : lastDev w = false) by (rewrite (f_dev _ _ _ HW); apply Z.eqb_neq; exact Hz).
        assert (HR : rom8 (addr w)) by (rewrite (f_addr _ _ _ HW); rewrite Forall_forall in HF; apply HF; apply HW).
        destruct (search_runs b w HG Hb HL HR) as (d' & lz & _ & HI & Hin). rewrite (f_addr _ _ _ HW) in HI.
        destruct (next_least _ _ _ _ _ HF HW Hz HI) as [Hlt _].
        assert (In d' (pre ++ [d])) as Hd' by (eapply Permutation_in; [apply Permutation_sym; exact HP|exact Hin]).
        apply in_app_or in Hd' as [Hd' | [<- | []]]; [|exact (rom_lt_irrefl _ Hlt)]. apply (rom_lt_irrefl d). eapply rom_lt_trans; [exact Hlt|]. apply H1. exact Hd'. }
      unfold search. rewrite (f_dev _ _ _ HW), HZ. change (0 =? 0) with true. cbv iota. cbn [bind negb orb]. eexists _, _, _. split; [reflexivity|auto].
    + assert (Hz : lastDisc w <> 0).
      { intros HZ. apply (last_max _ _ _ HW HZ e); [|apply H2; left; reflexivity]. eapply Permutation_in; [exact HP|]. apply in_or_app. right. right. left. reflexivity. }
      assert (HL : lastDev w = false) by (rewrite (f_dev _ _ _ HW); apply Z.eqb_neq; exact Hz).
      assert (HR : rom8 (addr w)) by (rewrite (f_addr _ _ _ HW); rewrite Forall_forall in HF; apply HF; apply HW).
      destruct (search_runs b w HG Hb HL HR) as (d' & lz & E & HI & Hin). pose proof HI as HI'. rewrite (f_addr _ _ _ HW) in HI'.
      destruct (next_least _ _ _ _ _ HF HW Hz HI') as [Hlt Hle].
      assert (HeD : In e (map rom b)) by (eapply Permutation_in; [exact HP|]; apply in_or_app; right; right; left; reflexivity).
      assert (d' = e) as ->.
      { destruct (Hle e HeD) as [-> | Hlt']; [apply H2; left; reflexivity|reflexivity|].
        assert (In d' (pre ++ d :: e :: T)) as Hd' by (eapply Permutation_in; [apply Permutation_sym; exact HP|exact Hin]).
        exfalso. apply in_app_or in Hd' as [Hd' | [<- | [<- | Hd']]].
        - apply (rom_lt_irrefl d). eapply rom_lt_trans; [exact Hlt|]. apply H1. exact Hd'.
        - exact (rom_lt_irrefl _ Hlt).
        - exact (rom_lt_irrefl _ Hlt').
        - assert (HS' : StronglySorted rom_lt ((pre ++ [d]) ++ e :: T)) by (rewrite <- app_assoc; exact HS). destruct (sorted_parts _ _ _ HS') as [_ H3].
          apply (rom_lt_irrefl e). eapply rom_lt_trans; [apply H3; exact Hd'|exact Hlt']. }
      eexists. split; [exact E|]. right. exists (pre ++ [d]), e. rewrite <- app_assoc. split; [exact HP|]. split; [exact HS|]. eapply li_found; eauto.
Qed.
Lemma rom_end b a : map rom (BEnd b a) = map rom b.
Proof. unfold BEnd. rewrite map_map. reflexivity. Qed.
Lemma good_end b a : good_bus b -> good_bus (BEnd b a).
Proof. intros [H1 H2]. split; [rewrite rom_end; exact H1|]. intros s Hs. apply in_map_iff in Hs as (s' & <- & Hs). apply H2 in Hs. exact Hs. Qed.
Lemma search_rest : forall T n b w, good_bus b -> at_ (map rom b) w T -> (length T < n)%nat ->
  exists w' b', search_all slaves n w b = Some (T, true, w', b') /\ norm b' = norm b.
Proof.
  induction T as [|d T IH]; intros n b w HG HA Hn; (destruct n as [|n]; [cbn [length] in Hn; lia|]); cbn [search_all].
  - destruct (search_next b w [] HG HA) as (a & w' & b' & -> & _ & HN). cbn [bind]. eexists _, _. split; [reflexivity|exact HN].
  - destruct (search_next b w (d :: T) HG HA) as (w' & -> & HA'). cbn [bind]. rewrite <- (rom_end b d) in HA'. destruct (IH n (BEnd b d) w' (good_end _ _ HG) HA') as (w2 & b2 & -> & HN); [cbn [length] in Hn; lia|].
    cbn [bind]. eexists _, _. split; [reflexivity|]. rewrite HN. apply norm_end.
Qed.
(** C122: on any bus of devices with distinct codes, reset_search() and then search() until it
    returns false gives each device's code exactly once, in increasing order, and nothing else;
    and leaves the devices' memories as they were. *)
Theorem ow_enumerates : forall b L n, good_bus b -> Permutation L (map rom b) -> StronglySorted rom_lt L -> (length b < n)%nat ->
  exists w' b', search_all slaves n reset_search b = Some (L, true, w', b') /\ map (fun s => (rom s, pad s)) b' = map (fun s => (rom s, pad s)) b.
Proof.
  intros b L n HG HP HS Hn. destruct (search_rest L n b reset_search HG) as (w' & b' & E & HN).
  - left. auto.
  - apply Permutation_length in HP. rewrite map_length in HP. lia.
  - exists w', b'. split; [exact E|]. assert (H : forall b, map (fun s => (rom s, pad s)) b = map (fun s => (rom s, pad s)) (norm b)) by (intros; unfold norm; rewrite map_map; reflexivity). rewrite (H b'), (H b), HN. reflexivity.
Qed.

(** There is such a list for every such bus (and only one), so the theorem above says what
    search() gives on each. *)
Lemma insert_sorted x : forall L, rom8 x -> Forall rom8 L -> ~ In x L -> StronglySorted rom_lt L -> exists L', Permutation L' (x :: L) /\ StronglySorted rom_lt L'.
Proof.
  induction L as [|y L IH]; intros Hx HF Hn HS.
  - exists [x]. split; [reflexivity|repeat constructor].
  - inversion HF as [|? ? Fy FL]; subst. inversion HS as [|? ? S1 S2]; subst. destruct (rom_total x y Hx Fy) as [-> | [H | H]].
    + exfalso. apply Hn. left. reflexivity.
    + exists (x :: y :: L). split; [reflexivity|]. constructor; [exact HS|]. constructor; [exact H|]. rewrite Forall_forall in S2 |- *. intros z Hz. eapply rom_lt_trans; eauto.
    + destruct IH as (L' & HP & HS'); [exact Hx|exact FL|intros Hi; apply Hn; right; exact Hi|exact S1|]. exists (y :: L'). split.
      * rewrite HP. apply perm_swap.
      * constructor; [exact HS'|]. apply Forall_forall. intros z Hz. eapply Permutation_in in Hz; [|exact HP]. destruct Hz as [<- | Hz]; [exact H|]. rewrite Forall_forall in S2. auto.
Qed.
Theorem ow_order_exists : forall b, good_bus b -> exists L, Permutation L (map rom b) /\ StronglySorted rom_lt L.
Proof.
  induction b as [|s b IH]; intros [H1 H2].
  - exists []. split; [reflexivity|constructor].
  - cbn [map] in H1 |- *. inversion H1 as [|? ? Hn Hd]; subst. destruct IH as (L & HP & HS); [split; [exact Hd|intros x Hx; apply H2; right; exact Hx]|].
    destruct (insert_sorted (rom s) L) as (L' & HP' & HS').
    + apply H2. left. reflexivity.
    + apply Forall_forall. intros x Hx. eapply Permutation_in in Hx; [|exact HP]. apply in_map_iff in Hx as (s' & <- & Hs'). apply H2. right. exact Hs'.
    + intros Hx. apply Hn. eapply Permutation_in; [exact HP|exact Hx].
    + exact HS.
    + exists L'. split; [|exact HS']. rewrite HP'. constructor. exact HP.
Qed.
