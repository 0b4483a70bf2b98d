(** The DS18B20 driver on a bus of devices (C123, C124). *)
From Coq Require Import Sorting.Sorted Permutation.
From Verif Require Import Base OwModel OwProps OwSearch DsModel.

(** ** Bytes to and from one device *)
Lemma abit_extn n a b : Zlen a = n -> Zlen b = n -> Forall byte a -> Forall byte b -> (forall k, (k < 8 * Z.to_nat n)%nat -> abit a k = abit b k) -> a = b.
Proof.
  intros Ha Hb Fa Fb H. unfold Zlen in Ha, Hb. apply nth_ext with (d := 0) (d' := 0); [lia|]. intros m Hm.
  apply Z.bits_inj'. intros j Hj.
  assert (Ba : byte (nth m a 0)) by (rewrite Forall_forall in Fa; apply Fa; apply nth_In; lia).
  assert (Bb : byte (nth m b 0)) by (rewrite Forall_forall in Fb; apply Fb; apply nth_In; lia).
  destruct (Z.lt_ge_cases j 8) as [Hj8 | Hj8].
  - specialize (H (8 * m + Z.to_nat j)%nat ltac:(lia)). unfold abit, znth in H.
    replace (Z.of_nat (8 * m + Z.to_nat j) / 8) with (Z.of_nat m) in H by (Z.div_mod_to_equations; lia).
    replace (Z.of_nat (8 * m + Z.to_nat j) mod 8) with j in H by (Z.div_mod_to_equations; lia). rewrite Nat2Z.id in H. exact H.
  - apply byte_bits in Ba as [_ Ba]. apply byte_bits in Bb as [_ Bb]. rewrite Ba, Bb by lia. reflexivity.
Qed.
Lemma bit0 v : negb (0 =? Z.land v 1) = Z.testbit v 0.
Proof. change (Z.land v 1) with (Z.land v (Z.ones 1)). rewrite (Z.land_ones v 1) by lia. change (2 ^ 1) with 2. rewrite Zmod_odd, Z.bit0_odd. destruct (Z.odd v); reflexivity. Qed.
Lemma testbit_half v j : 0 <= j -> Z.testbit (v / 2) j = Z.testbit v (j + 1).
Proof. intros Hj. rewrite <- Z.div2_div. rewrite Z.div2_spec, Z.shiftr_spec by lia. reflexivity. Qed.
(** A device comparing the address sent with its own. *)
Definition SM (i : nat) (a : list Z) (s : Slave) : Slave := set_ph s (if agb i (rom s) a then if (i =? 64)%nat then PFun 0 0 else PMatch i else POff).
Lemma sm_write i a s v : (i < 64)%nat -> abit a i = v -> slave_write (SM i a s) v = SM (S i) a s.
Proof.
  intros Hi <-. unfold SM. cbn [agb]. replace (i =? 64)%nat with false by (symmetry; apply Nat.eqb_neq; lia). destruct (agb i (rom s) a); cbn [andb]; [|reflexivity].
  unfold slave_write, set_ph. cbn [ph rom actual slow pad]. destruct (Bool.eqb (abit (rom s) i) (abit a i)); reflexivity.
Qed.
Lemma sm_bits a s : forall n i v, (i + n <= 64)%nat -> (forall j, (j < n)%nat -> Z.testbit v (Z.of_nat j) = abit a (i + j)) -> write_bits one n (SM i a s) v = SM (i + n) a s.
Proof.
  induction n as [|n IH]; intros i v Hi HB; cbn [write_bits]; [f_equal; lia|]. cbn [one b_write].
  rewrite bit0. assert (H0 := HB O ltac:(lia)). change (Z.of_nat 0) with 0 in H0. rewrite Nat.add_0_r in H0. rewrite (sm_write i a s) by (lia || congruence).
  rewrite IH; [f_equal; lia|lia|]. intros j Hj. rewrite testbit_half by lia. replace (Z.of_nat j + 1) with (Z.of_nat (S j)) by lia. rewrite HB by lia. f_equal. lia.
Qed.
Lemma sm_byte a s (j : nat) : (j < 8)%nat -> ow_write one (SM (8 * j) a s) (znth a (Z.of_nat j)) = SM (8 * S j) a s.
Proof.
  intros Hj. unfold ow_write. rewrite (sm_bits a s 8 (8 * j)); [f_equal; lia|lia|]. intros m Hm. unfold abit.
  replace (Z.of_nat (8 * j + m) / 8) with (Z.of_nat j) by (Z.div_mod_to_equations; lia). replace (Z.of_nat (8 * j + m) mod 8) with (Z.of_nat m) by (Z.div_mod_to_equations; lia). reflexivity.
Qed.
Lemma fold_map (F : list Slave -> Z -> list Slave) (G : Slave -> Z -> Slave) : (forall b v, F b v = map (fun s => G s v) b) ->
  forall l (f : Slave -> Slave) b, fold_left F l (map f b) = map (fun s => fold_left G l (f s)) b.
Proof.
  intros H. induction l as [|v l IH]; intros f b; cbn [fold_left]; [reflexivity|]. rewrite H, map_map. rewrite (IH (fun s => G (f s) v) b). reflexivity.
Qed.
Lemma select_map b a : ow_select slaves b a = map (fun s => ow_select one s a) b.
Proof. unfold ow_select. rewrite ow_write_map. rewrite (fold_map _ _ ow_write_map). reflexivity. Qed.
Lemma select_one s a : Zlen a = 8 -> ow_select one (set_ph s (PRom 0 0)) a = SM 64 a s.
Proof.
  intros HL. unfold ow_select. change (ow_write one (set_ph s (PRom 0 0)) 85) with (SM (8 * 0) a s).
  assert (H : forall n, (n <= 8)%nat -> fold_left (ow_write one) (firstn n a) (SM (8 * 0) a s) = SM (8 * n) a s).
  { induction n as [|n IH]; intros Hn; [reflexivity|].
    assert (E : firstn (S n) a = firstn n a ++ [znth a (Z.of_nat n)]).
    { unfold znth. rewrite Nat2Z.id. unfold Zlen in HL. clear -HL Hn. assert (Hl : (n < length a)%nat) by lia. clear HL Hn. revert n Hl. induction a as [|x a IH]; intros n Hl; [cbn in Hl; lia|].
      destruct n as [|n]; [reflexivity|]. cbn [length] in Hl. cbn [firstn app nth]. f_equal. apply IH. lia. }
    rewrite E, fold_left_app, IH by lia. cbn [fold_left]. apply sm_byte. lia. }
  apply (H 8%nat). lia.
Qed.
(** After reset() and select(): only the device with that code listens. *)
Lemma select_bus b a : Zlen a = 8 -> ow_select slaves (ow_reset slaves b) a = BEnd b a.
Proof.
  intros HL. rewrite select_map. unfold ow_reset. cbn [slaves b_reset snd]. rewrite map_map. apply map_ext. intros s. rewrite select_one by exact HL. unfold SM. rewrite Nat.eqb_refl. reflexivity.
Qed.
Lemma bend_norm b b' a : norm b = norm b' -> BEnd b a = BEnd b' a.
Proof.
  intros H. assert (E : forall b, BEnd b a = map (fun s => set_ph s (if agb 64 (rom s) a then PFun 0 0 else POff)) (norm b)) by (intros; unfold norm; rewrite map_map; reflexivity).
  rewrite (E b), (E b'), H. reflexivity.
Qed.
Lemma norm_rom b b' : norm b = norm b' -> map rom b = map rom b'.
Proof. intros H. assert (E : forall b, map rom b = map rom (norm b)) by (intros; unfold norm; rewrite map_map; reflexivity). rewrite (E b), (E b'), H. reflexivity. Qed.
(** The poll never waits. *)
Lemma poll_free b a naps : Zlen a = 8 -> exists b', ds_poll slaves 67 (BEnd b a) naps = (true, b', naps) /\ norm b' = norm b.
Proof.
  intros _. cbn [ds_poll]. destruct (b_read slaves (BEnd b a)) as [x b'] eqn:E. cbn [slaves b_read] in E. apply pair_inj in E as [E1 E2].
  assert (x = true) as ->. { rewrite <- E1. apply forallb_forall. intros s Hs. apply in_map_iff in Hs as (s' & <- & _). destruct (agb 64 (rom s') a); reflexivity. }
  exists b'. split; [reflexivity|]. rewrite <- E2. unfold norm, BEnd. rewrite !map_map. apply map_ext. intros s. destruct (agb 64 (rom s) a); reflexivity.
Qed.
(** ** Reading the scratchpad *)
Definition BRd (b : list Slave) (a : list Z) (k : nat) : list Slave := map (fun s => set_ph s (if agb 64 (rom s) a then PRead k else POff)) b.
Lemma read_cmd b a : ow_write slaves (BEnd b a) 190 = BRd b a 0.
Proof. rewrite ow_write_map. unfold BEnd, BRd. rewrite map_map. apply map_ext. intros s. destruct (agb 64 (rom s) a); reflexivity. Qed.
Lemma rom_unique b s t : NoDup (map rom b) -> In s b -> In t b -> rom s = rom t -> s = t.
Proof.
  induction b as [|x b IH]; intros HN Hs Ht E; [destruct Hs|]. cbn [map] in HN. inversion HN as [|? ? H1 H2]; subst. destruct Hs as [-> | Hs], Ht as [-> | Ht].
  - reflexivity.
  - exfalso. apply H1. rewrite E. apply in_map. exact Ht.
  - exfalso. apply H1. rewrite <- E. apply in_map. exact Hs.
  - auto.
Qed.
Lemma read_bit_bus b s k : good_bus b -> In s b -> (k < 72)%nat -> b_read slaves (BRd b (rom s) k) = (abit (pad s) k, BRd b (rom s) (S k)).
Proof.
  intros [HN HG] Hs Hk. cbn [slaves b_read]. f_equal.
  - apply Bool.eq_true_iff_eq. rewrite forallb_forall. split.
    + intros H. specialize (H (set_ph s (PRead k))). assert (E : fst (slave_read (set_ph s (PRead k))) = abit (pad s) k). { unfold slave_read, set_ph. cbn [ph pad fst]. replace (k <? 72)%nat with true by (symmetry; apply Nat.ltb_lt; lia). reflexivity. }
      rewrite E in H. apply H. apply in_map_iff. exists s. split; [|exact Hs]. replace (agb 64 (rom s) (rom s)) with true by (symmetry; apply agb_spec, agree_refl). reflexivity.
    + intros H t Ht. apply in_map_iff in Ht as (t' & <- & Ht). destruct (agb 64 (rom t') (rom s)) eqn:E; [|reflexivity].
      apply agb_spec, agree_eq in E; [|apply HG; exact Ht|apply HG; exact Hs]. rewrite (rom_unique b t' s HN Ht Hs E). unfold slave_read, set_ph. cbn [ph pad fst]. replace (k <? 72)%nat with true by (symmetry; apply Nat.ltb_lt; lia). exact H.
  - unfold BRd. rewrite map_map. apply map_ext. intros t. destruct (agb 64 (rom t) (rom s)); reflexivity.
Qed.
Lemma read_bits_bus b s : good_bus b -> In s b -> forall n k r, (k + n <= 72)%nat ->
  read_bits slaves n (BRd b (rom s) k) r = (fst (read_bits (mkBus (fun k => (true, k)) (fun k => (abit (pad s) k, S k)) (fun k _ => k)) n k r), BRd b (rom s) (k + n)).
Proof.
  intros HG Hs. induction n as [|n IH]; intros k r Hk; cbn [read_bits].
  - cbn [fst]. f_equal. f_equal. lia.
  - rewrite (read_bit_bus b s k HG Hs) by lia. cbn [b_read]. rewrite IH by lia. f_equal. f_equal. lia.
Qed.
Definition shift_in (v : Z) (x : bool) : Z := if x then Z.lor (v / 2) 128 else Z.land (v / 2) 127.
Lemma byte_back v : byte v -> fold_left shift_in (map (Z.testbit v) [0; 1; 2; 3; 4; 5; 6; 7]) 0 = v.
Proof.
  intros Hv. red in Hv. assert (H : forallb (fun v => fold_left shift_in (map (Z.testbit v) [0; 1; 2; 3; 4; 5; 6; 7]) 0 =? v) (map Z.of_nat (seq 0 256)) = true) by (vm_compute; reflexivity).
  rewrite forallb_forall in H. apply Z.eqb_eq. apply H. apply in_map_iff. exists (Z.to_nat v). split; [lia|]. apply in_seq. lia.
Qed.
Lemma read_byte_bus b s (j : nat) : good_bus b -> In s b -> Forall byte (pad s) -> (j < 9)%nat -> ow_read slaves (BRd b (rom s) (8 * j)) = (znth (pad s) (Z.of_nat j), BRd b (rom s) (8 * S j)).
Proof.
  intros HG Hs HB Hj. unfold ow_read. rewrite (read_bits_bus b s HG Hs 8 (8 * j) 0) by lia. f_equal; [|f_equal; lia].
  cbn [read_bits b_read fst]. rewrite <- (byte_back (znth (pad s) (Z.of_nat j))) at 1 by (apply znth_byte; exact HB).
  assert (HX : forall m : nat, (m < 8)%nat -> abit (pad s) (m + 8 * j) = Z.testbit (znth (pad s) (Z.of_nat j)) (Z.of_nat m)).
  { intros m Hm. unfold abit. replace (Z.of_nat (m + 8 * j) / 8) with (Z.of_nat j) by (Z.div_mod_to_equations; lia). replace (Z.of_nat (m + 8 * j) mod 8) with (Z.of_nat m) by (Z.div_mod_to_equations; lia). reflexivity. }
  cbn [map fold_left]. unfold shift_in. 
  change (8 * j)%nat with (0 + 8 * j)%nat. change (S (0 + 8 * j)) with (1 + 8 * j)%nat. change (S (1 + 8 * j)) with (2 + 8 * j)%nat. change (S (2 + 8 * j)) with (3 + 8 * j)%nat. change (S (3 + 8 * j)) with (4 + 8 * j)%nat.
  change (S (4 + 8 * j)) with (5 + 8 * j)%nat. change (S (5 + 8 * j)) with (6 + 8 * j)%nat. change (S (6 + 8 * j)) with (7 + 8 * j)%nat.
  rewrite !HX by lia. reflexivity.
Qed.

(** ** Specification *)
Definition is_ds (s : Slave) : bool := znth (rom s) 0 =? 40.
Definition pad9 (s : Slave) : Prop := Zlen (pad s) = 9 /\ Forall byte (pad s).
(** The temperature in the scratchpad; and what a device gives in a call of readMultiple(): the
    present temperature if it converts at once, else still the last one. *)
Definition in_pad (s : Slave) : Z := i16 (znth (pad s) 0 + 256 * znth (pad s) 1).
Definition reading (s : Slave) : Z := if slow s then in_pad s else actual s.
Definition slave_lt (s t : Slave) : Prop := rom_lt (rom s) (rom t).

(** ** readMultiple *)
Lemma lor_word d0 d1 : byte d0 -> byte d1 -> Z.lor (d1 * 256) d0 = d0 + 256 * d1.
Proof.
  intros H0 H1. assert (E : Z.land (d1 * 256) d0 = 0).
  { apply byte_bits in H0 as [_ H0]. apply Z.bits_inj'. intros j Hj. rewrite Z.land_spec, Z.testbit_0_l. change 256 with (2 ^ 8). destruct (Z.lt_ge_cases j 8).
    - rewrite Z.mul_pow2_bits_low by lia. reflexivity.
    - rewrite H0 by lia. apply andb_false_r. }
  rewrite <- Z.lxor_lor by exact E. rewrite <- Z.add_nocarry_lxor by exact E. lia.
Qed.
Lemma norm_norm b : norm (norm b) = norm b. Proof. unfold norm. rewrite map_map. reflexivity. Qed.
Lemma good_norm b b' : norm b = norm b' -> good_bus b -> good_bus b'.
Proof.
  intros H [H1 H2]. split; [rewrite <- (norm_rom _ _ H); exact H1|]. intros s Hs.
  assert (Hi : In (rom s) (map rom b)) by (rewrite (norm_rom _ _ H); apply in_map; exact Hs). apply in_map_iff in Hi as (t & Et & Ht). rewrite <- Et. apply H2. exact Ht.
Qed.
Lemma in_norm b s : In s (norm b) -> exists t, In t b /\ rom t = rom s /\ pad t = pad s.
Proof. intros H. apply in_map_iff in H as (t & <- & Ht). exists t. auto. Qed.
Lemma skipn_add {A} n : forall m (l : list A), skipn m (skipn n l) = skipn (n + m) l.
Proof. induction n as [|n IH]; intros m l; [reflexivity|]. destruct l as [|x l]; [rewrite !skipn_nil; reflexivity|]. cbn [skipn Nat.add]. apply IH. Qed.
#[local] Opaque ow_write ow_read search.
Lemma rm_run count : 0 <= count < 256 -> forall R fuel b w values sensor index naps,
  good_bus b -> at_ (map rom b) w (map rom R) -> (forall s, In s R -> In s (norm b) /\ pad9 s) -> (length R < fuel)%nat ->
  0 <= sensor -> sensor < count \/ sensor = 0 -> 0 <= index ->
  let T := firstn (Z.to_nat (Z.max 1 (count - sensor))) (skipn (Z.to_nat index) (filter is_ds R)) in
  sensor + Zlen T <= Zlen values ->
  exists b', rm_loop slaves fuel w b values sensor count index naps =
    Some (firstn (Z.to_nat sensor) values ++ map in_pad T ++ skipn (Z.to_nat (sensor + Zlen T)) values, sensor + Zlen T, b', naps) /\ norm b' = norm b.
Proof.
  intros HC. induction R as [|s R IH]; intros fuel b w values sensor index naps HG HA HR Hf Hs Hsc Hi T HT; (destruct fuel as [|fuel]; [cbn [length] in Hf; lia|]); cbn [rm_loop].
  - destruct (search_next b w [] HG HA) as (a & w' & b' & -> & _ & HN). cbn [bind negb]. assert (ET : T = []) by (unfold T; cbn [filter]; rewrite skipn_nil, firstn_nil; reflexivity).
    rewrite ET. change (Zlen (@nil Slave)) with 0. rewrite Z.add_0_r. cbn [map app]. rewrite firstn_skipn. eexists. split; [reflexivity|exact HN].
  - cbn [map] in HA. destruct (search_next b w (rom s :: map rom R) HG HA) as (w' & -> & HA'). cbn [bind negb].
    assert (HA2 : at_ (map rom (BEnd b (rom s))) w' (map rom R)) by (rewrite rom_end; exact HA').
    assert (HR2 : forall s0, In s0 R -> In s0 (norm (BEnd b (rom s))) /\ pad9 s0) by (intros s0 H0; rewrite norm_end; apply HR; right; exact H0).
    cbn [length] in Hf. rewrite Z.eqb_sym. fold (is_ds s). destruct (is_ds s) eqn:Eds; cbn [negb].
    2:{ destruct (IH fuel (BEnd b (rom s)) w' values sensor index naps (good_end _ _ HG) HA2 HR2 ltac:(lia) Hs Hsc Hi) as (b' & E & HN).
        - unfold T in HT. cbn [filter] in HT. rewrite Eds in HT. exact HT.
        - exists b'. unfold T. cbn [filter]. rewrite Eds. split; [exact E|]. rewrite HN. apply norm_end. }
    destruct (0 <? index) eqn:Ei.
    + assert (ES : skipn (Z.to_nat index) (filter is_ds (s :: R)) = skipn (Z.to_nat (index - 1)) (filter is_ds R)).
      { cbn [filter]. rewrite Eds. replace (Z.to_nat index) with (S (Z.to_nat (index - 1))) by lia. reflexivity. }
      unfold T in *. rewrite ES in *.
      destruct (IH fuel (BEnd b (rom s)) w' values sensor (index - 1) naps (good_end _ _ HG) HA2 HR2 ltac:(lia) Hs Hsc ltac:(lia) HT) as (b' & E & HN).
      exists b'. split; [exact E|]. rewrite HN. apply norm_end.
    + assert (index = 0) as -> by lia. change (Z.to_nat 0) with O in *.
      assert (HG0 : good_bus (norm b)) by (apply (good_norm b); [symmetry; apply norm_norm|exact HG]).
      destruct (HR s (or_introl eq_refl)) as [Hin [HL9 HB9]]. assert (HL : Zlen (rom s) = 8) by apply HG0, Hin.
      rewrite (select_bus _ _ HL). rewrite (bend_norm (BEnd b (rom s)) b) by apply norm_end. destruct (poll_free b (rom s) naps HL) as (b1 & -> & HN1). cbn [negb].
      rewrite (select_bus _ _ HL). rewrite (bend_norm b1 (norm b)) by (rewrite norm_norm; exact HN1). rewrite read_cmd.
      change (BRd (norm b) (rom s) 0) with (BRd (norm b) (rom s) (8 * 0)). rewrite (read_byte_bus (norm b) s 0 HG0 Hin HB9) by lia. rewrite (read_byte_bus (norm b) s 1 HG0 Hin HB9) by lia.
      assert (Hb2 : norm (ow_reset slaves (BRd (norm b) (rom s) (8 * 2))) = norm b) by (unfold ow_reset, norm, BRd; cbn [slaves b_reset snd]; rewrite !map_map; reflexivity).
      rewrite lor_word by (apply znth_byte; exact HB9). change (Z.of_nat 0) with 0. change (Z.of_nat 1) with 1. fold (in_pad s).
      set (F := filter is_ds R) in *.
      assert (ET : exists m, Z.to_nat (Z.max 1 (count - sensor)) = S m /\ T = s :: firstn m F).
      { exists (Z.to_nat (Z.max 1 (count - sensor) - 1)). split; [lia|]. unfold T. cbn [filter skipn]. rewrite Eds. replace (Z.to_nat (Z.max 1 (count - sensor))) with (S (Z.to_nat (Z.max 1 (count - sensor) - 1))) by lia. reflexivity. }
      destruct ET as (m & Em & ET). clearbody T. subst T. rewrite Zlen_cons in HT |- *. pose proof (Zlen_nonneg (firstn m F)).
      unfold wr. rewrite blit_some by (change (Zlen [in_pad s]) with 1; lia). change (Zlen [in_pad s]) with 1. cbn [bind].
      set (vals := firstn (Z.to_nat sensor) values ++ [in_pad s] ++ skipn (Z.to_nat (sensor + 1)) values).
      assert (HLf : length (firstn (Z.to_nat sensor) values) = Z.to_nat sensor) by (rewrite firstn_length; unfold Zlen in HT; lia).
      assert (HLv : Zlen vals = Zlen values). { unfold vals. rewrite !Zlen_app, Zlen_firstn, Zlen_skipn. change (Zlen [in_pad s]) with 1. lia. }
      rewrite u8_id by (red; lia).
      destruct (count <=? sensor + 1) eqn:Ec.
      * assert (m = O) as -> by lia. cbn [firstn]. change (Zlen (@nil Slave)) with 0. cbn [map app]. rewrite Z.add_0_r. eexists. split; [reflexivity|exact Hb2].
      * assert (HG2 : good_bus (ow_reset slaves (BRd (norm b) (rom s) (8 * 2)))) by (apply (good_norm b); [symmetry; exact Hb2|exact HG]).
        assert (Em' : Z.to_nat (Z.max 1 (count - (sensor + 1))) = m) by lia.
        destruct (IH fuel (ow_reset slaves (BRd (norm b) (rom s) (8 * 2))) w' vals (sensor + 1) 0 naps HG2) as (b' & E & HN).
        -- rewrite (norm_rom _ _ Hb2). exact HA'.
        -- intros s0 H0. rewrite Hb2. apply HR. right. exact H0.
        -- lia.
        -- lia.
        -- lia.
        -- lia.
        -- change (Z.to_nat 0) with O. cbn [skipn]. fold F. rewrite Em', HLv. lia.
        -- change (Z.to_nat 0) with O in E. cbn [skipn] in E. fold F in E. rewrite Em' in E. exists b'. split; [|rewrite HN; exact Hb2].
           change (8 * S 1)%nat with (8 * 2)%nat. rewrite E. replace (sensor + (1 + Zlen (firstn m F))) with (sensor + 1 + Zlen (firstn m F)) by lia.
           match goal with |- Some (?x, _, _, _) = Some (?y, _, _, _) => assert (x = y) as ->; [|reflexivity] end.
           unfold vals. replace (Z.to_nat (sensor + 1)) with (Z.to_nat sensor + 1)%nat by lia.
           rewrite firstn_app, HLf. rewrite firstn_all2 by lia. replace (Z.to_nat sensor + 1 - Z.to_nat sensor)%nat with 1%nat by lia. cbn [app firstn map]. rewrite <- app_assoc. cbn [app]. f_equal. f_equal. f_equal.
           rewrite !skipn_app. rewrite HLf. rewrite skipn_all2 by lia. cbn [app]. replace (Z.to_nat (sensor + 1 + Zlen (firstn m F)) - Z.to_nat sensor)%nat with (S (Z.to_nat (Zlen (firstn m F)))) by lia. cbn [skipn].
           rewrite skipn_add. f_equal. lia.
Qed.
