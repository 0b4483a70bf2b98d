(** The DS18B20 driver on a bus of devices: initialisation and the whole of readMultiple() (C123, C124). *)
From Coq Require Import Sorting.Sorted Permutation.
From Verif Require Import Base OwModel OwProps OwSearch DsModel DsProps.

(** ** Writing the scratchpad *)
Lemma set_bit_spec a k v n : Zlen a = n -> Forall byte a -> (k < 8 * Z.to_nat n)%nat ->
  Zlen (set_bit a k v) = n /\ Forall byte (set_bit a k v) /\ forall j, (j < 8 * Z.to_nat n)%nat -> abit (set_bit a k v) j = if (j =? k)%nat then v else abit a j.
Proof.
  intros HL HB Hk.
  assert (HN : forall n, (0 < n)%nat -> Z.of_nat k mod Z.of_nat n = Z.of_nat (k mod n) /\ Z.of_nat k / Z.of_nat n = Z.of_nat (k / n)) by (intros; rewrite Nat2Z.inj_mod, Nat2Z.inj_div; auto).
  destruct (HN 8%nat ltac:(lia)) as [HM HD]. change (Z.of_nat 8) with 8 in HM, HD.
  assert (Hj : 0 <= Z.of_nat k / 8 < n) by (Z.div_mod_to_equations; lia).
  set (x := if v then Z.setbit (znth a (Z.of_nat (k / 8))) (Z.of_nat (k mod 8)) else Z.clearbit (znth a (Z.of_nat (k / 8))) (Z.of_nat (k mod 8))).
  assert (Hx : byte x /\ forall j, 0 <= j < 8 -> Z.testbit x j = if j =? Z.of_nat k mod 8 then v else Z.testbit (znth a (Z.of_nat (k / 8))) j).
  { pose proof (znth_byte a (Z.of_nat (k / 8)) HB) as Hz. rewrite HM. assert (Hm : 0 <= Z.of_nat (k mod 8) < 8) by (rewrite <- HM; apply Z.mod_pos_bound; lia).
    set (z := znth a (Z.of_nat (k / 8))) in *. set (m := Z.of_nat (k mod 8)) in *. apply byte_bits in Hz as [Hz0 Hz]. split.
    - apply byte_bits. unfold x. split.
      + destruct v; [rewrite Z.setbit_spec'; apply Z.lor_nonneg; split; [exact Hz0|apply Z.pow_nonneg; lia]|rewrite Z.clearbit_spec'; apply Z.ldiff_nonneg; auto].
      + intros j Hj8. destruct v; [rewrite Z.setbit_eqb by lia|rewrite Z.clearbit_eqb by lia]; rewrite (Hz j Hj8); [|reflexivity]. replace (m =? j) with false by lia. reflexivity.
    - intros j Hj8. unfold x. destruct v; [rewrite Z.setbit_eqb by lia|rewrite Z.clearbit_eqb by lia]; rewrite (Z.eqb_sym j m); destruct (m =? j); cbn [orb andb negb]; [reflexivity|reflexivity|apply andb_false_r|apply andb_true_r]. }
  destruct Hx as [Hxb Hxt].
  destruct (wr_znth a (Z.of_nat (k / 8)) x) as (l & E & HL' & HZ & HF); [lia|].
  assert (ES : set_bit a k v = l).
  { unfold wr, blit in E. change (Zlen [x]) with 1 in E. replace ((0 <=? Z.of_nat (k / 8)) && (Z.of_nat (k / 8) + 1 <=? Zlen a)) with true in E by lia. apply some_inj in E. rewrite <- E.
    unfold set_bit. fold x. rewrite Nat2Z.id. replace (Z.to_nat (Z.of_nat (k / 8) + 1)) with (S (k / 8)) by lia. reflexivity. }
  rewrite ES. split; [lia|]. split; [auto|]. intros j Hjn. unfold abit. rewrite HZ by (Z.div_mod_to_equations; lia).
  pose proof (Z.mod_pos_bound (Z.of_nat j) 8 ltac:(lia)).
  destruct (Z.of_nat j / 8 =? Z.of_nat (k / 8)) eqn:E1.
  - rewrite Hxt by lia. destruct (Z.of_nat j mod 8 =? Z.of_nat k mod 8) eqn:E2.
    + replace (j =? k)%nat with true; [reflexivity|]. symmetry. apply Nat.eqb_eq. rewrite <- HD in E1. Z.div_mod_to_equations; lia.
    + replace (j =? k)%nat with false; [f_equal; f_equal; lia|]. symmetry. apply Nat.eqb_neq. intros ->. lia.
  - replace (j =? k)%nat with false; [reflexivity|]. symmetry. apply Nat.eqb_neq. intros ->. lia.
Qed.
Definition with_pad (s : Slave) (p : list Z) : Slave := mkSlave (rom s) (actual s) (slow s) p (ph s).
Lemma store_bits s : forall n k p v, (k + n <= 24)%nat -> Zlen p = 9 -> Forall byte p -> exists p',
  write_bits one n (set_ph (with_pad s p) (PStore k)) v = set_ph (with_pad s p') (PStore (k + n)) /\ Zlen p' = 9 /\ Forall byte p' /\
  forall j, (j < 72)%nat -> abit p' j = if ((16 + k <=? j) && (j <? 16 + k + n))%nat then Z.testbit v (Z.of_nat (j - (16 + k))) else abit p j.
Proof.
  induction n as [|n IH]; intros k p v Hk HL HB; cbn [write_bits].
  - exists p. split; [f_equal; f_equal; lia|]. split; [exact HL|]. split; [exact HB|]. intros j Hj.
    replace ((16 + k <=? j) && (j <? 16 + k + 0))%nat with false; [reflexivity|]. symmetry. destruct (16 + k <=? j)%nat eqn:E1; [|reflexivity]. apply Nat.leb_le in E1. apply Nat.ltb_ge. lia.
  - cbn [one b_write]. rewrite bit0.
    assert (E : slave_write (set_ph (with_pad s p) (PStore k)) (Z.testbit v 0) = set_ph (with_pad s (set_bit p (16 + k) (Z.testbit v 0))) (PStore (S k))).
    { unfold slave_write, set_ph, with_pad. cbn [ph rom actual slow pad]. replace (k <? 24)%nat with true by (symmetry; apply Nat.ltb_lt; lia). reflexivity. }
    rewrite E. destruct (set_bit_spec p (16 + k) (Z.testbit v 0) 9 HL HB) as (HL' & HB' & HT); [change (Z.to_nat 9) with 9%nat; lia|].
    destruct (IH (S k) (set_bit p (16 + k) (Z.testbit v 0)) (v / 2) ltac:(lia) HL' HB') as (p' & E' & HL2 & HB2 & HT2).
    exists p'. split; [etransitivity; [exact E'|f_equal; f_equal; lia]|]. split; [exact HL2|]. split; [exact HB2|]. intros j Hj. rewrite HT2 by exact Hj. rewrite HT by (change (Z.to_nat 9) with 9%nat; lia).
    destruct (Nat.lt_trichotomy j (16 + k)) as [H | [-> | H]].
    + replace (16 + S k <=? j)%nat with false by (symmetry; apply Nat.leb_gt; lia). replace (16 + k <=? j)%nat with false by (symmetry; apply Nat.leb_gt; lia). cbn [andb]. replace (j =? 16 + k)%nat with false by (symmetry; apply Nat.eqb_neq; lia). reflexivity.
    + replace (16 + S k <=? 16 + k)%nat with false by (symmetry; apply Nat.leb_gt; lia). cbn [andb]. rewrite Nat.eqb_refl. rewrite Nat.leb_refl. replace (16 + k <? 16 + k + S n)%nat with true by (symmetry; apply Nat.ltb_lt; lia). cbn [andb]. rewrite Nat.sub_diag. reflexivity.
    + replace (16 + S k <=? j)%nat with true by (symmetry; apply Nat.leb_le; lia). replace (16 + k <=? j)%nat with true by (symmetry; apply Nat.leb_le; lia). cbn [andb]. replace (j =? 16 + k)%nat with false by (symmetry; apply Nat.eqb_neq; lia).
      replace (16 + S k + n)%nat with (16 + k + S n)%nat by lia. destruct (j <? 16 + k + S n)%nat; [|reflexivity]. rewrite testbit_half by lia. f_equal. lia.
Qed.
(** Writing three bytes to the scratchpad sets TH, TL and the configuration, and nothing else. *)
Definition store (p : list Z) (v0 v1 v2 : Z) : list Z := firstn 2 p ++ [v0; v1; v2] ++ skipn 5 p.
Lemma store_spec s p v0 v1 v2 : Zlen p = 9 -> Forall byte p -> byte v0 -> byte v1 -> byte v2 ->
  ow_write one (ow_write one (ow_write one (set_ph (with_pad s p) (PStore 0)) v0) v1) v2 = set_ph (with_pad s (store p v0 v1 v2)) (PStore 24).
Proof.
  intros HL HB B0 B1 B2. unfold ow_write.
  destruct (store_bits s 8 0 p v0 ltac:(lia) HL HB) as (p1 & E1 & L1 & F1 & T1). rewrite E1. change (0 + 8)%nat with 8%nat.
  destruct (store_bits s 8 8 p1 v1 ltac:(lia) L1 F1) as (p2 & E2 & L2 & F2 & T2). rewrite E2. change (8 + 8)%nat with 16%nat.
  destruct (store_bits s 8 16 p2 v2 ltac:(lia) L2 F2) as (p3 & E3 & L3 & F3 & T3). rewrite E3. change (16 + 8)%nat with 24%nat.
  assert (EP : p3 = store p v0 v1 v2); [|rewrite EP; reflexivity].
  assert (HX : exists x0 x1 x2 x3 x4 x5 x6 x7 x8, p = [x0; x1; x2; x3; x4; x5; x6; x7; x8]).
  { unfold Zlen in HL. do 9 (destruct p as [|? p]; [cbn in HL; lia|]). destruct p; [|cbn [length] in HL; lia]. do 9 eexists. reflexivity. }
  destruct HX as (x0 & x1 & x2 & x3 & x4 & x5 & x6 & x7 & x8 & ->).
  apply (abit_extn 9); [exact L3|reflexivity|exact F3| |].
  - cbn [store firstn skipn app]. repeat match goal with H : Forall byte (_ :: _) |- _ => inversion H; clear H; subst end. repeat (constructor; [assumption|]). constructor.
  - intros j Hj. change (8 * Z.to_nat 9)%nat with 72%nat in Hj. rewrite T3, T2, T1 by exact Hj. clear - Hj.
    do 72 (destruct j as [|j]; [reflexivity|]). lia.
Qed.

(** ** Initialisation *)
(** What init() makes of a device: a DS18B20's alarm limits 0 and its resolution the driver's;
    anything else untouched. *)
Definition config (p : Z) (s : Slave) : Slave := if is_ds s then with_pad s (store (pad s) 0 0 ((p - 9) * 32 + 31)) else s.
Lemma cfg_byte p : 9 <= p <= 12 -> u8 (Z.lor ((p - 9) * 32) 31) = (p - 9) * 32 + 31 /\ byte ((p - 9) * 32 + 31).
Proof. intros Hp. assert (p = 9 \/ p = 10 \/ p = 11 \/ p = 12) as [-> | [-> | [-> | ->]]] by lia; (split; [reflexivity|red; lia]). Qed.
Lemma store_cmd s : ow_write one (set_ph s (PFun 0 0)) 78 = set_ph s (PStore 0).
Proof. reflexivity. Qed.
Lemma off_write s v : ow_write one (set_ph s POff) v = set_ph s POff.
Proof. reflexivity. Qed.
#[local] Opaque ow_write search.
(** One DS18B20 configured. *)
Lemma config_one b a p : 9 <= p <= 12 -> Zlen a = 8 -> Forall pad9 b ->
  norm (ow_write slaves (ow_write slaves (ow_write slaves (ow_write slaves (ow_select slaves (ow_reset slaves b) a) 78) 0) 0) (u8 (Z.lor ((p - 9) * 32) 31))) =
  norm (map (fun s => if agb 64 (rom s) a then with_pad s (store (pad s) 0 0 ((p - 9) * 32 + 31)) else s) b).
Proof.
  intros Hp HL HP. destruct (cfg_byte p Hp) as [-> HB]. rewrite (select_bus b a HL), !ow_write_map. unfold norm, BEnd. rewrite !map_map. apply map_ext_in. intros s Hs.
  rewrite Forall_forall in HP. destruct (HP s Hs) as [HL9 HB9]. destruct (agb 64 (rom s) a).
  - rewrite store_cmd. assert (E : set_ph s (PStore 0) = set_ph (with_pad s (pad s)) (PStore 0)) by reflexivity. rewrite E.
    rewrite (store_spec s (pad s) 0 0 ((p - 9) * 32 + 31) HL9 HB9) by (assumption || (red; lia)). reflexivity.
  - rewrite !off_write. reflexivity.
Qed.
Lemma pad9_norm b b' : norm b = norm b' -> Forall pad9 b -> Forall pad9 b'.
Proof.
  intros H HF. assert (E : forall b, Forall pad9 b <-> Forall pad9 (norm b)).
  { intros b0. unfold norm. rewrite Forall_map. split; intros H0; (eapply Forall_impl; [|exact H0]); intros s Hs; exact Hs. }
  apply (E b'). rewrite <- H. apply (proj1 (E b)). exact HF.
Qed.
Lemma pad_list (p : list Z) : Zlen p = 9 -> exists x0 x1 x2 x3 x4 x5 x6 x7 x8, p = [x0; x1; x2; x3; x4; x5; x6; x7; x8].
Proof. intros HL. unfold Zlen in HL. do 9 (destruct p as [|? p]; [cbn in HL; lia|]). destruct p; [|cbn [length] in HL; lia]. do 9 eexists. reflexivity. Qed.
Lemma store_pad9 p v0 v1 v2 : Zlen p = 9 -> Forall byte p -> byte v0 -> byte v1 -> byte v2 -> Zlen (store p v0 v1 v2) = 9 /\ Forall byte (store p v0 v1 v2).
Proof.
  intros HL HB B0 B1 B2. destruct (pad_list p HL) as (x0 & x1 & x2 & x3 & x4 & x5 & x6 & x7 & x8 & ->). split; [reflexivity|]. cbn [store firstn skipn app].
  repeat match goal with H : Forall byte (_ :: _) |- _ => inversion H; clear H; subst end. repeat (constructor; [assumption|]). constructor.
Qed.
Lemma store_twice p v0 v1 v2 : Zlen p = 9 -> store (store p v0 v1 v2) v0 v1 v2 = store p v0 v1 v2.
Proof. intros HL. destruct (pad_list p HL) as (x0 & x1 & x2 & x3 & x4 & x5 & x6 & x7 & x8 & ->). reflexivity. Qed.
Definition upd (p : Z) (R : list Slave) (s : Slave) : Slave := if existsb (fun t => agb 64 (rom s) (rom t)) R then config p s else s.
Lemma upd_ph p R s q : upd p R (set_ph s q) = set_ph (upd p R s) q.
Proof. unfold upd, config, is_ds. cbn [set_ph rom]. destruct (existsb _ R); [|reflexivity]. destruct (znth (rom s) 0 =? 40); reflexivity. Qed.
Lemma norm_upd p R b : norm (map (upd p R) b) = map (upd p R) (norm b).
Proof. unfold norm. rewrite !map_map. apply map_ext. intros s. symmetry. apply upd_ph. Qed.
Lemma init_run p : 9 <= p <= 12 -> forall R fuel b w count found, good_bus b -> Forall pad9 b -> at_ (map rom b) w (map rom R) -> (forall s, In s R -> rom8 (rom s)) -> (length R < fuel)%nat ->
  0 <= count -> count + Zlen (filter is_ds R) < 256 ->
  exists b', init_loop slaves fuel p w b count found = Some (b', count + Zlen (filter is_ds R), found || existsb is_ds R) /\ norm b' = norm (map (upd p R) b).
Proof.
  intros Hp. induction R as [|s R IH]; intros fuel b w count found HG HP HA HR Hf Hc Hn; (destruct fuel as [|fuel]; [cbn [length] in Hf; lia|]); cbn [init_loop].
  - destruct (search_next b w [] HG HA) as (a & w' & b' & -> & _ & HN). cbn [bind negb filter existsb]. change (Zlen (@nil Slave)) with 0. rewrite Z.add_0_r, orb_false_r. eexists. split; [reflexivity|].
    rewrite HN. f_equal. symmetry. apply map_id.
  - cbn [map] in HA. destruct (search_next b w (rom s :: map rom R) HG HA) as (w' & -> & HA'). cbn [bind negb]. cbn [length] in Hf.
    assert (HRs : rom8 (rom s)) by (apply HR; left; reflexivity).
    assert (HG' : forall t, In t b -> rom8 (rom t)) by (intros t Ht; apply HG; exact Ht).
    assert (HAg : forall t, In t b -> agb 64 (rom t) (rom s) = true -> rom t = rom s) by (intros t Ht E; apply agree_eq; [apply HG'; exact Ht|exact HRs|apply agb_spec; exact E]).
    rewrite Z.eqb_sym. fold (is_ds s). cbn [filter existsb] in Hn |- *. destruct (is_ds s) eqn:Eds; cbn [negb orb].
    + pose proof (config_one (BEnd b (rom s)) (rom s) p Hp (proj1 HRs)) as HC.
      assert (HPE : Forall pad9 (BEnd b (rom s))) by (apply (pad9_norm b); [symmetry; apply norm_end|exact HP]). specialize (HC HPE).
      set (b2 := ow_write slaves (ow_write slaves (ow_write slaves (ow_write slaves (ow_select slaves (ow_reset slaves (BEnd b (rom s))) (rom s)) 78) 0) 0) (u8 (Z.lor ((p - 9) * 32) 31))) in *.
      set (f := fun t => if agb 64 (rom t) (rom s) then with_pad t (store (pad t) 0 0 ((p - 9) * 32 + 31)) else t) in *.
      assert (Hfr : forall t, rom (f t) = rom t) by (intros t; unfold f; destruct (agb 64 (rom t) (rom s)); reflexivity).
      assert (HC' : norm b2 = norm (map f b)).
      { rewrite HC. unfold norm, BEnd. rewrite !map_map. apply map_ext. intros t. unfold f. cbn [set_ph rom]. destruct (agb 64 (rom t) (rom s)); reflexivity. }
      assert (HGf : good_bus (map f b)).
      { split; [rewrite map_map; rewrite (map_ext _ rom Hfr); apply HG|]. intros t Ht. apply in_map_iff in Ht as (t' & <- & Ht). rewrite Hfr. apply HG. exact Ht. }
      assert (HPf : Forall pad9 (map f b)).
      { apply Forall_map. eapply Forall_impl; [|exact HP]. intros t [Ht1 Ht2]. unfold f. destruct (agb 64 (rom t) (rom s)); [|split; assumption]. apply store_pad9; try assumption; [red; lia|red; lia|apply cfg_byte; exact Hp]. }
      assert (HM : map rom b2 = map rom b) by (rewrite (norm_rom _ _ HC'), map_map; apply map_ext; exact Hfr).
      rewrite u8_id by (rewrite Zlen_cons in Hn; pose proof (Zlen_nonneg (filter is_ds R)); red; lia).
      destruct (IH fuel b2 w' (count + 1) true) as (b' & E & HN).
      * apply (good_norm (map f b)); [symmetry; exact HC'|exact HGf].
      * apply (pad9_norm (map f b)); [symmetry; exact HC'|exact HPf].
      * rewrite HM. exact HA'.
      * intros t Ht. apply HR. right. exact Ht.
      * lia.
      * lia.
      * rewrite Zlen_cons in Hn. lia.
      * exists b'. split; [rewrite E; rewrite Zlen_cons; rewrite orb_true_r; f_equal; f_equal; f_equal; lia|].
        rewrite HN, norm_upd, HC', <- norm_upd, map_map. unfold norm. rewrite !map_map. apply map_ext_in. intros t Ht. f_equal.
        unfold upd. rewrite Hfr. cbn [existsb]. unfold f. destruct (agb 64 (rom t) (rom s)) eqn:E1; cbn [orb]; [|reflexivity].
        assert (Edt : is_ds t = true) by (unfold is_ds in *; rewrite (HAg t Ht E1); exact Eds).
        assert (Ec : config p t = with_pad t (store (pad t) 0 0 ((p - 9) * 32 + 31))) by (unfold config; rewrite Edt; reflexivity).
        rewrite Ec. destruct (existsb (fun t0 => agb 64 (rom t) (rom t0)) R); [|reflexivity]. unfold config, is_ds, with_pad. cbn [rom pad]. fold (is_ds t). rewrite Edt. cbn [rom pad actual slow ph].
        rewrite store_twice; [reflexivity|]. rewrite Forall_forall in HP. apply HP. exact Ht.
    + destruct (IH fuel (BEnd b (rom s)) w' count found) as (b' & E & HN).
      * apply good_end. exact HG.
      * apply (pad9_norm b); [symmetry; apply norm_end|exact HP].
      * rewrite rom_end. exact HA'.
      * intros t Ht. apply HR. right. exact Ht.
      * lia.
      * lia.
      * lia.
      * exists b'. split; [exact E|]. rewrite HN, norm_upd, norm_end, <- norm_upd. unfold norm. rewrite !map_map. apply map_ext_in. intros t Ht. f_equal. unfold upd. cbn [existsb].
        destruct (agb 64 (rom t) (rom s)) eqn:E1; cbn [orb]; [|reflexivity]. assert (Edt : is_ds t = false) by (unfold is_ds in *; rewrite (HAg t Ht E1); exact Eds). unfold config. rewrite Edt. destruct (existsb (fun t0 => agb 64 (rom t) (rom t0)) R); reflexivity.
Qed.
(** ** The devices in order *)
Definition in_order (SL b : list Slave) : Prop := Permutation SL b /\ StronglySorted slave_lt SL.
Lemma order_at b SL : in_order SL b -> at_ (map rom b) reset_search (map rom SL).
Proof.
  intros [HP HS]. left. split; [reflexivity|]. split; [apply Permutation_map; exact HP|]. clear HP. induction HS as [|s SL HS IH HF]; cbn [map]; constructor; [exact IH|]. apply Forall_map. exact HF.
Qed.
Lemma perm_filter (f : Slave -> bool) l l' : Permutation l l' -> Zlen (filter f l) = Zlen (filter f l').
Proof. induction 1; cbn [filter]; repeat match goal with |- context [if f ?x then _ else _] => destruct (f x) end; rewrite ?Zlen_cons; lia. Qed.
Lemma filter_len (f : Slave -> bool) l : Zlen (filter f l) <= Zlen l.
Proof. induction l as [|x l IH]; cbn [filter]; [lia|]. destruct (f x); rewrite ?Zlen_cons; lia. Qed.
(** init() on a bus: every device found and configured, none else touched, all counted. *)
Lemma init_bus d b SL fuel : good_bus b -> Forall pad9 b -> 9 <= prec d <= 12 -> in_order SL b -> Zlen (filter is_ds b) < 256 -> (length b < fuel)%nat ->
  exists b', ds_init slaves fuel d b = Some (existsb is_ds b, mkDS true (prec d) (Zlen (filter is_ds b)) (val d), b') /\ norm b' = norm (map (config (prec d)) b).
Proof.
  intros HG HP Hp HO Hn Hf. pose proof (perm_filter is_ds SL b (proj1 HO)) as HFl.
  assert (HRs : forall s, In s SL -> In s b) by (intros s Hs; eapply Permutation_in; [apply HO|exact Hs]).
  destruct (init_run (prec d) Hp SL fuel b reset_search 0 false HG HP (order_at _ _ HO)) as (b' & E & HN).
  - intros s Hs. apply HG. apply HRs. exact Hs.
  - rewrite (Permutation_length (proj1 HO)). exact Hf.
  - lia.
  - lia.
  - exists b'. unfold ds_init. rewrite E. cbn [bind orb]. rewrite Z.add_0_l, HFl. split.
    + assert (EX : existsb is_ds SL = existsb is_ds b). { apply Bool.eq_true_iff_eq. rewrite !existsb_exists. split; intros (s & H1 & H2); exists s; (split; [|exact H2]); [apply HRs; exact H1|]. eapply Permutation_in; [apply Permutation_sym; apply HO|exact H1]. }
      rewrite EX. reflexivity.
    + rewrite HN. f_equal. apply map_ext_in. intros s Hs. unfold upd. replace (existsb (fun t => agb 64 (rom s) (rom t)) SL) with true; [reflexivity|]. symmetry. apply existsb_exists. exists s. split; [eapply Permutation_in; [apply Permutation_sym; apply HO|exact Hs]|apply agb_spec, agree_refl].
Qed.
(** ** readMultiple() *)
(** Every device told to convert. *)
Definition conv (s : Slave) : Slave := if slow s then s else with_pad s (actual s mod 256 :: actual s / 256 mod 256 :: skipn 2 (pad s)).
#[local] Transparent ow_write.
Lemma convert_one s : set_ph (ow_write one (ow_write one (set_ph s (PRom 0 0)) 204) 68) POff = set_ph (conv s) POff.
Proof. unfold conv. destruct s as [r a sl p h]. destruct sl; reflexivity. Qed.
#[local] Opaque ow_write.
Lemma convert_bus b : norm (ow_write slaves (ow_skip slaves (ow_reset slaves b)) 68) = norm (map conv b).
Proof.
  unfold ow_skip, ow_reset. cbn [slaves b_reset snd]. rewrite !ow_write_map. unfold norm. rewrite !map_map. apply map_ext. intros s. apply convert_one.
Qed.
Lemma conv_pad9 s : pad9 s -> pad9 (conv s).
Proof.
  intros [HL HB]. unfold conv. destruct (slow s); [split; assumption|]. split; cbn [with_pad pad].
  - rewrite !Zlen_cons, Zlen_skipn. lia.
  - repeat (constructor; [red; Z.div_mod_to_equations; lia|]). apply Forall_forall. intros x Hx. rewrite Forall_forall in HB. apply HB. rewrite <- (firstn_skipn 2 (pad s)). apply in_or_app. auto.
Qed.
Lemma config_pad9 p s : 9 <= p <= 12 -> pad9 s -> pad9 (config p s).
Proof. intros Hp [HL HB]. unfold config. destruct (is_ds s); [|split; assumption]. apply store_pad9; try assumption; [red; lia|red; lia|apply cfg_byte; exact Hp]. Qed.
Lemma conv_reading s : pad9 s -> -32768 <= actual s < 32768 -> in_pad (conv s) = reading s.
Proof.
  intros [HL _] HA. unfold conv, reading. destruct (slow s); [reflexivity|]. unfold in_pad. cbn [with_pad pad]. change (znth (actual s mod 256 :: actual s / 256 mod 256 :: skipn 2 (pad s)) 0) with (actual s mod 256). change (znth (actual s mod 256 :: actual s / 256 mod 256 :: skipn 2 (pad s)) 1) with (actual s / 256 mod 256).
  unfold i16. Z.div_mod_to_equations; lia.
Qed.
Lemma config_reading p s : pad9 s -> reading (config p s) = reading s /\ slow (config p s) = slow s /\ actual (config p s) = actual s /\ rom (config p s) = rom s.
Proof.
  intros [HL _]. unfold config. destruct (is_ds s); [|auto]. split; [|auto]. unfold reading. cbn [with_pad slow actual]. destruct (slow s); [|reflexivity]. unfold in_pad. cbn [with_pad pad]. destruct (pad_list _ HL) as (x0 & x1 & x2 & x3 & x4 & x5 & x6 & x7 & x8 & ->). reflexivity.
Qed.
Lemma conv_rom s : rom (conv s) = rom s /\ is_ds (conv s) = is_ds s.
Proof. unfold conv, is_ds. destruct (slow s); auto. Qed.
(** The reading loop after a conversion. *)
Lemma read_bus b SL values count index fuel : good_bus b -> Forall pad9 b -> Forall (fun s => -32768 <= actual s < 32768) b -> in_order SL b -> (length b < fuel)%nat -> 0 <= count < 256 -> 0 <= index ->
  let T := firstn (Z.to_nat (Z.max 1 count)) (skipn (Z.to_nat index) (filter is_ds SL)) in Zlen T <= Zlen values ->
  exists b', rm_loop slaves fuel reset_search (ow_write slaves (ow_skip slaves (ow_reset slaves b)) 68) values 0 count index 0 = Some (map reading T ++ skipn (length T) values, Zlen T, b', 0).
Proof.
  intros HG HP HAc HO Hf Hc Hi T HT. set (b1 := ow_write slaves (ow_skip slaves (ow_reset slaves b)) 68). pose proof (convert_bus b) as HN. fold b1 in HN.
  assert (HM : map rom (map conv b) = map rom b) by (rewrite map_map; apply map_ext; intros s; apply conv_rom).
  assert (HG1 : good_bus (map conv b)).
  { split; [rewrite HM; apply HG|]. intros s Hs. apply in_map_iff in Hs as (t & <- & Ht). destruct (conv_rom t) as [-> _]. apply HG. exact Ht. }
  assert (HRs : forall s, In s SL -> In s b) by (intros s Hs; eapply Permutation_in; [apply HO|exact Hs]).
  set (R := norm (map conv SL)).
  assert (EF : filter is_ds R = map (fun s => set_ph (conv s) POff) (filter is_ds SL)).
  { unfold R, norm. rewrite map_map. clear. induction SL as [|s SL IH]; [reflexivity|]. cbn [map filter]. replace (is_ds (set_ph (conv s) POff)) with (is_ds s) by (unfold is_ds, conv; destruct (slow s); reflexivity). rewrite IH. destruct (is_ds s); reflexivity. }
  assert (ET : firstn (Z.to_nat (Z.max 1 (count - 0))) (skipn (Z.to_nat index) (filter is_ds R)) = map (fun s => set_ph (conv s) POff) T).
  { rewrite EF, Z.sub_0_r. rewrite skipn_map, firstn_map. reflexivity. }
  assert (EL : Zlen (map (fun s => set_ph (conv s) POff) T) = Zlen T) by (unfold Zlen; rewrite map_length; reflexivity).
  destruct (rm_run count Hc R fuel b1 reset_search values 0 index 0) as (b' & E & _).
  - apply (good_norm (map conv b)); [symmetry; exact HN|exact HG1].
  - assert (EM : map rom R = map rom SL) by (unfold R, norm; rewrite !map_map; apply map_ext; intros s; apply conv_rom). rewrite EM, (norm_rom _ _ HN), HM. apply order_at. exact HO.
  - intros s Hs. rewrite HN. split.
    + unfold R, norm in *. rewrite map_map in *. apply in_map_iff in Hs as (t & <- & Ht). apply in_map_iff. exists t. split; [reflexivity|apply HRs; exact Ht].
    + unfold R, norm in Hs. rewrite map_map in Hs. apply in_map_iff in Hs as (t & <- & Ht). rewrite Forall_forall in HP. exact (conv_pad9 t (HP t (HRs t Ht))).
  - unfold R, norm. rewrite !map_length. rewrite (Permutation_length (proj1 HO)). exact Hf.
  - lia.
  - lia.
  - exact Hi.
  - rewrite ET, EL. exact HT.
  - exists b'. rewrite E, ET, EL. rewrite !Z.add_0_l. change (Z.to_nat 0) with O. cbn [firstn app]. rewrite map_map.
    replace (Z.to_nat (Zlen T)) with (length T) by (unfold Zlen; lia).
    assert (EV : map (fun x => in_pad (set_ph (conv x) POff)) T = map reading T); [|rewrite EV; reflexivity]. apply map_ext_in. intros s Hs.
    assert (Hsb : In s b). { apply HRs. assert (Hs1 : In s (filter is_ds SL)); [|apply filter_In in Hs1; apply Hs1]. rewrite <- (firstn_skipn (Z.to_nat index)). apply in_or_app. right. rewrite <- (firstn_skipn (Z.to_nat (Z.max 1 count))). apply in_or_app. left. exact Hs. }
    rewrite Forall_forall in HP, HAc. apply conv_reading; auto.
Qed.
(** C123: for any bus, with its devices in order of ROM code as [SL]: readMultiple() gives the readings
    of the DS18B20s from number [index] on, in that order, as many as asked for (one at least) or as
    there are; says how many; leaves the rest of the array alone; and never waits. *)
Theorem ds_read_multiple_partial : forall d b SL values count index fuel,
  good_bus b -> Forall pad9 b -> Forall (fun s => -32768 <= actual s < 32768) b -> in_order SL b ->
  9 <= prec d <= 12 -> (ini d = true -> cnt d = Zlen (filter is_ds b)) -> Zlen (filter is_ds b) < 256 -> (length b < fuel)%nat ->
  0 <= count < 256 -> 0 <= index ->
  let T := firstn (Z.to_nat (Z.max 1 count)) (skipn (Z.to_nat index) (filter is_ds SL)) in
  Zlen T <= Zlen values ->
  exists d' b', readMultiple slaves fuel d b values count index = Some (Zlen T, map reading T ++ skipn (length T) values, d', b', 0) /\
    cnt d' = Zlen (filter is_ds b) /\ isAvailable d' = existsb is_ds b.
Proof.
  intros d b SL values count index fuel HG HP HAc HO Hp Hd Hn Hf Hc Hi T HT.
  assert (HAv : forall d0, ini d0 = true -> cnt d0 = Zlen (filter is_ds b) -> isAvailable d0 = existsb is_ds b).
  { intros d0 H1 H2. unfold isAvailable. rewrite H1, H2. cbn [andb]. destruct (existsb is_ds b) eqn:E.
    - apply existsb_exists in E as (s & Hs & E). assert (Hin : In s (filter is_ds b)) by (apply filter_In; auto). destruct (filter is_ds b); [destruct Hin|]. rewrite Zlen_cons. pose proof (Zlen_nonneg l). apply negb_true_iff. lia.
    - assert (EF : filter is_ds b = []); [|rewrite EF; reflexivity]. clear -E. induction b as [|s b IH]; [reflexivity|]. cbn [existsb] in E. apply orb_false_iff in E as [E1 E2]. cbn [filter]. rewrite E1. auto. }
  assert (HZ : forall n, n = Zlen (filter is_ds b) -> n = 0 -> T = []).
  { intros n -> H0. unfold T. rewrite <- (perm_filter is_ds SL b (proj1 HO)) in H0. destruct (filter is_ds SL); [rewrite skipn_nil, firstn_nil; reflexivity|]. rewrite Zlen_cons in H0. pose proof (Zlen_nonneg l). lia. }
  unfold readMultiple. destruct (ini d) eqn:EI.
  - cbn [bind]. specialize (Hd eq_refl). destruct (0 =? cnt d) eqn:E0.
    + assert (ET : T = []) by (apply (HZ (cnt d)); [exact Hd|lia]). rewrite ET. exists d, b. split; [reflexivity|]. split; [exact Hd|apply HAv; assumption].
    + destruct (read_bus b SL values count index fuel HG HP HAc HO Hf Hc Hi HT) as (b' & E). fold T in E. rewrite E. cbn [bind]. exists d, b'. split; [reflexivity|]. split; [exact Hd|apply HAv; assumption].
  - destruct (init_bus d b SL fuel HG HP Hp HO Hn Hf) as (b1 & E1 & HN). rewrite E1. cbn [bind cnt]. destruct (0 =? Zlen (filter is_ds b)) eqn:E0.
    + assert (ET : T = []) by (apply (HZ (Zlen (filter is_ds b))); [reflexivity|lia]). rewrite ET. eexists _, _. split; [reflexivity|]. split; [reflexivity|apply HAv; reflexivity].
    + (* the same devices, configured *)
      set (g := fun s => config (prec d) s).
      assert (Hg : forall s, rom (g s) = rom s) by (intros s; unfold g, config; destruct (is_ds s); reflexivity).
      assert (Hgd : forall s, is_ds (g s) = is_ds s) by (intros s; unfold is_ds; rewrite Hg; reflexivity).
      assert (HG2 : good_bus (map g b)).
      { split; [rewrite map_map, (map_ext _ rom Hg); apply HG|]. intros s Hs. apply in_map_iff in Hs as (t & <- & Ht). rewrite Hg. apply HG. exact Ht. }
      assert (HP2 : Forall pad9 (map g b)) by (apply Forall_map; eapply Forall_impl; [|exact HP]; intros s Hs; apply config_pad9; assumption).
      (* and their phases *)
      assert (HX : exists b2, norm b2 = norm (map g b) /\ ow_reset slaves b1 = ow_reset slaves b2 /\ b2 = map g b).
      { exists (map g b). split; [reflexivity|]. split; [|reflexivity]. unfold ow_reset. cbn [slaves b_reset snd].
        assert (EQ : forall x, map (fun s => set_ph s (PRom 0 0)) x = map (fun s => set_ph s (PRom 0 0)) (norm x)) by (intros x; unfold norm; rewrite map_map; reflexivity). rewrite (EQ b1), (EQ (map g b)), HN. reflexivity. }
      destruct HX as (b2 & _ & EB & ->). rewrite EB.
      assert (HO2 : in_order (map g SL) (map g b)).
      { destruct HO as [HO1 HO2]. split; [apply Permutation_map; exact HO1|]. clear -HO2 Hg. induction HO2 as [|s SL HS IH HF]; cbn [map]; constructor; [exact IH|]. apply Forall_map. eapply Forall_impl; [|exact HF]. intros t Ht. unfold slave_lt. rewrite !Hg. exact Ht. }
      assert (EF : filter is_ds (map g SL) = map g (filter is_ds SL)). { clear -Hgd. induction SL as [|s SL IH]; [reflexivity|]. cbn [map filter]. rewrite Hgd, IH. destruct (is_ds s); reflexivity. }
      assert (ET : firstn (Z.to_nat (Z.max 1 count)) (skipn (Z.to_nat index) (filter is_ds (map g SL))) = map g T) by (rewrite EF, skipn_map, firstn_map; reflexivity).
      assert (EL : Zlen (map g T) = Zlen T) by (unfold Zlen; rewrite map_length; reflexivity).
      destruct (read_bus (map g b) (map g SL) values count index fuel HG2 HP2) as (b' & E); [|exact HO2|rewrite map_length; exact Hf|exact Hc|exact Hi|rewrite ET, EL; exact HT|].
      { apply Forall_map. rewrite Forall_forall in HAc, HP |- *. intros s Hs. destruct (config_reading (prec d) s (HP s Hs)) as (_ & _ & EA & _). unfold g. rewrite EA. apply HAc. exact Hs. }
      rewrite E. cbn [bind]. rewrite ET, EL, map_length, map_map. exists (mkDS true (prec d) (Zlen (filter is_ds b)) (val d)), b'. split; [|split; [reflexivity|apply HAv; reflexivity]].
      assert (EV : map (fun s => reading (g s)) T = map reading T); [|rewrite EV; reflexivity]. apply map_ext_in. intros s Hs.
      assert (Hsb : In s b). { eapply Permutation_in; [apply HO|]. assert (Hs1 : In s (filter is_ds SL)); [|apply filter_In in Hs1; apply Hs1]. rewrite <- (firstn_skipn (Z.to_nat index)). apply in_or_app. right. rewrite <- (firstn_skipn (Z.to_nat (Z.max 1 count))). apply in_or_app. left. exact Hs. }
      rewrite Forall_forall in HP. apply (config_reading (prec d) s (HP s Hsb)).
Qed.
(** read(): the reading of the first DS18B20 in order; the error value if there is none. *)
Theorem ds_read_first : forall d b SL fuel,
  good_bus b -> Forall pad9 b -> Forall (fun s => -32768 <= actual s < 32768) b -> in_order SL b ->
  9 <= prec d <= 12 -> (ini d = true -> cnt d = Zlen (filter is_ds b)) -> Zlen (filter is_ds b) < 256 -> (length b < fuel)%nat ->
  exists d' b', ds_read slaves fuel d b = Some (match filter is_ds SL with s :: _ => reading s | [] => INVALID_TEMP end, d', b') /\
    val d' = match filter is_ds SL with s :: _ => reading s | [] => INVALID_TEMP end.
Proof.
  intros d b SL fuel HG HP HAc HO Hp Hd Hn Hf.
  destruct (ds_read_multiple_partial d b SL [val d] 1 0 fuel HG HP HAc HO Hp Hd Hn Hf ltac:(lia) ltac:(lia)) as (d' & b' & E & _).
  - change (Z.to_nat (Z.max 1 1)) with 1%nat. rewrite Zlen_firstn. change (Zlen [val d]) with 1. lia.
  - unfold ds_read. rewrite E. cbn [bind]. change (Z.to_nat (Z.max 1 1)) with 1%nat. change (Z.to_nat 0) with O. cbn [skipn]. destruct (filter is_ds SL) as [|s l]; cbn [firstn].
    + change (Zlen (@nil Slave)) with 0. cbn [map app]. change (1 =? 0) with false. cbv iota. eexists _, _. split; reflexivity.
    + change (Zlen [s]) with 1. change (1 =? 1) with true. cbv iota. cbn [map app]. eexists _, _. split; reflexivity.
Qed.
(** C124: getSensorCount(), on a new driver: as many as there are; and afterwards every DS18B20 has the
    driver's precision in its configuration register and 0 as its alarm limits, with everything
    else in its scratchpad as it was, and no other device has been written. *)
Theorem ds_configures : forall p b fuel, good_bus b -> Forall pad9 b -> Zlen (filter is_ds b) < 256 -> (length b < fuel)%nat ->
  exists d' b', getSensorCount slaves fuel (ds_new p) b = Some (Zlen (filter is_ds b), d', b') /\ prec d' = Z.min 12 (Z.max 9 p) /\ isAvailable d' = existsb is_ds b /\
    map (fun s => (rom s, pad s)) b' =
    map (fun s => (rom s, if is_ds s then firstn 2 (pad s) ++ [0; 0; (Z.min 12 (Z.max 9 p) - 9) * 32 + 31] ++ skipn 5 (pad s) else pad s)) b.
Proof.
  intros p b fuel HG HP Hn Hf.
  assert (HX : exists SL, in_order SL b).
  { clear -HG. destruct (ow_order_exists b HG) as (L & HPm & HS). revert L HPm HS. 
    assert (H : forall L, Permutation L (map rom b) -> exists SL, map rom SL = L /\ Permutation SL b).
    { intros L HPm. apply Permutation_map_inv in HPm as (SL & -> & HP'). exists SL. split; [reflexivity|apply Permutation_sym; exact HP']. }
    intros L HPm HS. destruct (H L HPm) as (SL & <- & HP'). exists SL. split; [exact HP'|]. clear -HS. induction SL as [|s SL IH]; [constructor|]. cbn [map] in HS. inversion HS as [|? ? H1 H2]; subst. constructor; [auto|]. apply (proj1 (Forall_map rom (rom_lt (rom s)) SL)). exact H2. }
  destruct HX as [SL HO]. destruct (init_bus (ds_new p) b SL fuel HG HP ltac:(cbn [ds_new prec]; lia) HO Hn Hf) as (b' & E & HN).
  unfold getSensorCount. cbn [ds_new ini]. fold (ds_new p). rewrite E. cbn [bind cnt]. eexists _, _. split; [reflexivity|]. split; [reflexivity|]. split.
  - unfold isAvailable. cbn [ini cnt andb]. destruct (existsb is_ds b) eqn:E1.
    + apply existsb_exists in E1 as (s & Hs & E1). assert (Hin : In s (filter is_ds b)) by (apply filter_In; auto). destruct (filter is_ds b); [destruct Hin|]. rewrite Zlen_cons. pose proof (Zlen_nonneg l). apply negb_true_iff. lia.
    + assert (EF : filter is_ds b = []); [|rewrite EF; reflexivity]. clear -E1. induction b as [|s b IH]; [reflexivity|]. cbn [existsb] in E1. apply orb_false_iff in E1 as [E1 E2]. cbn [filter]. rewrite E1. auto.
  - assert (H : forall b, map (fun s => (rom s, pad s)) b = map (fun s => (rom s, pad s)) (norm b)) by (intros; unfold norm; rewrite map_map; reflexivity). rewrite (H b'), HN, <- H, map_map. apply map_ext. intros s. unfold config. destruct (is_ds s); reflexivity.
Qed.

(** ** A bus, and what is wrong *)
#[local] Transparent ow_write search.
Definition dev (fam serial t : Z) (sl : bool) : Slave := mkSlave [fam; serial; 0; 0; 0; 0; 0; 7] t sl [80; 5; 75; 70; 127; 255; 12; 16; 28] POff.
(** Two DS18B20s (one below freezing) and something else. *)
Definition bus3 : list Slave := [dev 40 5 (-24) false; dev 34 1 400 false; dev 40 9 345 false].
Lemma rom8_check a : (Zlen a =? 8) && forallb (fun x => (0 <=? x) && (x <? 256)) a = true -> rom8 a.
Proof. intros H. apply andb_true_iff in H as [H1 H2]. split; [lia|]. apply Forall_forall. intros x Hx. rewrite forallb_forall in H2. specialize (H2 x Hx). red. lia. Qed.
Lemma dev_good fam serial t sl : 0 < fam < 256 -> 0 <= serial < 256 -> rom8 (rom (dev fam serial t sl)) /\ znth (rom (dev fam serial t sl)) 0 <> 0.
Proof. intros H1 H2. split; [split; [reflexivity|]; cbn [dev rom]; repeat (constructor; [red; lia|]); constructor|]. cbn [dev rom]. change (znth [fam; serial; 0; 0; 0; 0; 0; 7] 0) with fam. lia. Qed.
Lemma bus3_good : good_bus bus3.
Proof.
  split.
  - cbn [bus3 map dev rom]. repeat constructor; cbn; intuition discriminate.
  - intros s [<- | [<- | [<- | []]]]; apply dev_good; lia.
Qed.
Lemma bus3_order : exists SL, in_order SL bus3 /\ filter is_ds SL = [dev 40 9 345 false; dev 40 5 (-24) false].
Proof.
  exists [dev 40 9 345 false; dev 40 5 (-24) false; dev 34 1 400 false]. split; [split|reflexivity].
  - apply Permutation_sym. unfold bus3. eapply perm_trans; [|apply perm_swap]. apply perm_skip. apply perm_swap.
  - assert (H1 : slave_lt (dev 40 9 345 false) (dev 40 5 (-24) false)) by (exists 10%nat; split; [lia|]; split; [intros k Hk; do 10 (destruct k as [|k]; [reflexivity|]); lia|split; reflexivity]).
    assert (H2 : slave_lt (dev 40 5 (-24) false) (dev 34 1 400 false)) by (exists 1%nat; split; [lia|]; split; [intros k Hk; do 1 (destruct k as [|k]; [reflexivity|]); lia|split; reflexivity]).
    constructor; [constructor; [constructor; [constructor|constructor]|]|].
    + constructor; [exact H2|constructor].
    + constructor; [exact H1|constructor; [|constructor]]. unfold slave_lt. eapply rom_lt_trans; [exact H1|exact H2].
Qed.
Example ow_search_case : match search_all slaves 9 reset_search bus3 with Some (l, done, _, _) => (l, done) | None => ([], false) end =
  ([[40; 9; 0; 0; 0; 0; 0; 7]; [40; 5; 0; 0; 0; 0; 0; 7]; [34; 1; 0; 0; 0; 0; 0; 7]], true).
Proof. vm_compute. reflexivity. Qed.
Example ds_case : match readMultiple slaves 9 (ds_new 12) bus3 [1; 2; 3] 3 0 with Some (n, vs, d, b, naps) => (n, vs, cnt d, map pad b) | None => (0, [], 0, []) end =
  (2, [345; -24; 3], 2, [[232; 255; 0; 0; 127; 255; 12; 16; 28]; [144; 1; 75; 70; 127; 255; 12; 16; 28]; [89; 1; 0; 0; 127; 255; 12; 16; 28]]).
Proof. vm_compute. reflexivity. Qed.
(** Refuted: that what is read is the temperature now.  The conversion is never waited for
    (SensorDS18B20.cpp 195: after another reset and select the device no longer signals that it is
    converting), so a real device, which takes 94 to 750 ms, gives the temperature of the
    conversion before; at power-up, 85 C. *)
Theorem ds_fresh_refuted : exists b, good_bus b /\ Forall pad9 b /\ match readMultiple slaves 9 (ds_new 12) b [0] 1 0 with
  Some (n, vs, _, _, naps) => n = 1 /\ vs = [85 * 16] /\ naps = 0 /\ map actual b = [345] | None => False end.
Proof.
  exists [dev 40 9 345 true]. split; [|split].
  - split; [repeat constructor; cbn; intuition discriminate|]. intros s [<- | []]. apply dev_good; lia.
  - constructor; [|constructor]. split; [reflexivity|]. cbn [dev pad]. repeat (constructor; [red; lia|]). constructor.
  - vm_compute. auto.
Qed.
(** Refuted: that nothing is written outside an array of [count].  For count 0 a value is written
    all the same (216, before 219): outside an empty array. *)
Theorem ds_count0_refuted : readMultiple slaves 9 (ds_new 12) bus3 [] 0 0 = None /\
  match readMultiple slaves 9 (ds_new 12) bus3 [7] 0 0 with Some (n, vs, _, _, _) => n = 1 /\ vs = [345] | None => False end.
Proof. vm_compute. auto. Qed.
