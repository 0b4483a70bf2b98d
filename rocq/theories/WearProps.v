(** C173: what the secure-messaging EEPROM code promises when cells wear out. *)
From Verif Require Import Base CrcModel SecureModel SecureProps CrcSpec EepromModel EepromProofs AssocProps TxCtrModel TxCtrProofs RxCtrModel RxCtrProofs WearModel.

(** ** Read-only programs. *)
Lemma peek_does {A} (x : M A) (m : Z -> Z) (a : A) : does x (mkEE m []) [] a -> peek x m = Some a.
Proof.
  intros H. unfold does in H. specialize (H 0%nat). unfold peek.
  destruct H as [(s' & k & E & H & _)|(s' & f' & E & _)]; [cbn [length] in H; lia|].
  rewrite E. reflexivity.
Qed.
Lemma peek_prefix m : peek getTXNVCtrPrefix m = Some (rd3 m).
Proof. apply peek_does. apply (does_getPrefix (mkEE m [])). Qed.
Lemma peek_load m : peek loadRawTX m = Some (map inv8 (block m TXC_START TXC_LEN)).
Proof.
  apply peek_does. unfold loadRawTX. eapply does_bind0; [apply does_read_block|].
  intros s' H. cbv beta. cbn [mem]. apply does_ret.
Qed.

#[local] Opaque read3 block crc8_3 crc8_update crc8_bit.
Lemma incrementBuf_rd3 m : incrementBuf (map inv8 (block m TXC_START TXC_LEN)) =
  match rd3 m with None => None | Some c => let (c, ovf) := bump3 c in if (ovf : bool) then None else Some (two_copies c) end.
Proof. unfold incrementBuf, rd3. destruct (read3 _); reflexivity. Qed.
#[local] Opaque rd3 bump3.

(** ** Effects of one operation and of a checked save. *)
Definition wm {A} (x : WM A) (s : WS) : Z -> Z := fst (fst (x s)).
Definition wr_ {A} (x : WM A) (s : WS) : A := snd (x s).

Lemma w_op_mem w p v s q : wm (w_op w p v) s q = if q =? p then u8 (w (snd s) p (fst s p) v) else fst s q.
Proof. destruct s as [m t]. reflexivity. Qed.
(** Only the byte addressed can change, and it stays a byte. *)
Definition touches {A} (x : WM A) (lo hi : Z) : Prop := forall s,
  (forall q, ~ (lo <= q < hi) -> wm x s q = fst s q) /\ (bytes_mem (fst s) -> bytes_mem (wm x s)).
Lemma touches_ret {A} (a : A) lo hi : touches (wret a) lo hi.
Proof. intros s. split; auto. Qed.
Lemma touches_bind {A B} (x : WM A) (k : A -> WM B) lo hi :
  touches x lo hi -> (forall a, touches (k a) lo hi) -> touches (wbind x k) lo hi.
Proof.
  intros H1 H2 s. unfold wm, wbind. specialize (H1 s). unfold wm in H1. destruct (x s) as [s' a]. cbn [fst snd] in *.
  specialize (H2 a s'). unfold wm in H2. destruct H1 as [A1 A2], H2 as [B1 B2]. split.
  - intros q Hq. rewrite B1, A1; auto.
  - auto.
Qed.
Lemma touches_weak {A} (x : WM A) lo hi lo' hi' : lo' <= lo -> hi <= hi' -> touches x lo hi -> touches x lo' hi'.
Proof. intros L H T s. destruct (T s) as [T1 T2]. split; [|exact T2]. intros q Hq. apply T1. lia. Qed.
Lemma touches_read {A} p lo hi (k : Z -> WM A) : (forall v, touches (k v) lo hi) -> touches (wbind (w_read p) k) lo hi.
Proof. intros H. apply touches_bind; [|exact H]. intros s. split; auto. Qed.
Lemma touches_peek {A B} (x : M A) lo hi (k : option A -> WM B) :
  (forall v, touches (k v) lo hi) -> touches (wbind (w_peek x) k) lo hi.
Proof. intros H. apply touches_bind; [|exact H]. intros s. split; auto. Qed.
Lemma touches_op w p v : touches (w_op w p v) p (p + 1).
Proof.
  intros s. split.
  - intros q Hq. rewrite w_op_mem. replace (q =? p) with false by lia. reflexivity.
  - intros H q. rewrite w_op_mem. destruct (q =? p); [apply u8_byte|apply H].
Qed.
Lemma touches_erase w p : touches (w_erase w p) p (p + 1).
Proof. unfold w_erase. apply touches_read. intros v. destruct (negb _); [apply touches_op|apply touches_ret]. Qed.
Lemma touches_clear w p k : touches (w_clear w p k) p (p + 1).
Proof. unfold w_clear. apply touches_read. intros v. cbv zeta. destruct (negb _); [apply touches_op|apply touches_ret]. Qed.
Lemma touches_update w p v : touches (w_update w p v) p (p + 1).
Proof.
  unfold w_update. destruct (255 =? v); [apply touches_erase|]. apply touches_read. intros o.
  destruct (v =? o); [apply touches_ret|]. destruct (v =? Z.land v o); [apply touches_clear|apply touches_op].
Qed.
Lemma touches_save w l : forall p, touches (w_save w p l) p (p + Zlen l).
Proof.
  induction l as [|x r IH]; intros p; cbn [w_save]; [apply touches_ret|].
  rewrite Zlen_cons. pose proof (Zlen_nonneg r). cbv zeta. apply touches_bind.
  - apply (touches_weak _ p (p + 1)); [lia|lia|apply touches_update].
  - intros []. apply touches_read. intros v. destruct (negb _); [apply touches_ret|].
    apply (touches_weak _ (p + 1) (p + 1 + Zlen r)); [lia|lia|apply IH].
Qed.

(** A save reported as good did store every byte, complemented. *)
Lemma save_good w l : forall p s, wr_ (w_save w p l) s = true ->
  forall i, 0 <= i < Zlen l -> wm (w_save w p l) s (p + i) = inv8 (znth l i).
Proof.
  induction l as [|x r IH]; intros p s H i Hi; [change (Zlen []) with 0 in Hi; lia|].
  rewrite Zlen_cons in Hi. revert H. unfold wr_, wm. cbn [w_save]. cbv zeta. unfold wbind at 1 3.
  destruct (w_update w p (inv8 x) s) as [s1 []]. unfold wbind, w_read.
  destruct (inv8 x =? fst s1 p) eqn:E; cbn [negb]; [|cbn; discriminate]. intros H.
  rewrite znth_cons by lia. destruct (i =? 0) eqn:Ei.
  - apply Z.eqb_eq in Ei, E. subst i. rewrite Z.add_0_r.
    destruct (touches_save w r (p + 1) s1) as [T _]. unfold wm in T. rewrite T by lia. auto.
  - replace (p + i) with (p + 1 + (i - 1)) by lia. apply (IH (p + 1) s1 H). lia.
Qed.

(** ** The transmit counter. *)
Lemma saved_reads w c s : bytes3 c -> wr_ (w_save w TXC_START (two_copies c)) s = true ->
  rd3 (wm (w_save w TXC_START (two_copies c)) s) = if val3 c =? 16777215 then None else Some c.
Proof.
  intros Hc H. rewrite <- (rd3_W c (fst s) Hc). apply rd3_meq. intros q Hq.
  assert (HL : Zlen (two_copies c) = 8) by (unfold Zlen; rewrite two_copies_len; reflexivity).
  pose proof (save_good w (two_copies c) TXC_START s H (q - 104)) as G. rewrite HL in G. specialize (G ltac:(lia)).
  replace (TXC_START + (q - 104)) with q in G by (unfold TXC_START; lia). rewrite G.
  unfold W. rewrite applyw_at. unfold TXC_START. unfold Zlen. rewrite map_length, two_copies_len.
  replace ((104 <=? q) && (q <? 104 + Z.of_nat 8)) with true by lia.
  rewrite znth_inv8 by (rewrite HL; lia). reflexivity.
Qed.
Lemma incr_good w s : bytes_mem (fst s) -> wr_ (w_incr w) s = true ->
  exists c, rd3 (fst s) = Some c /\ bytes3 c /\
    (val3 c + 1 < 16777215 -> rd3 (wm (w_incr w) s) = Some (enc3 (val3 c + 1))) /\
    (val3 c + 1 = 16777215 -> rd3 (wm (w_incr w) s) = None).
Proof.
  intros HM H. unfold w_incr, wr_, wm in *. unfold wbind, w_peek in *. rewrite peek_load in *.
  rewrite incrementBuf_rd3 in *.
  destruct (rd3 (fst s)) as [c|] eqn:E; [|cbn in H; discriminate].
  destruct (rd3_bytes _ _ HM E) as [HB HV]. exists c. split; [reflexivity|]. split; [exact HB|].
  destruct (bump3_num c HB) as (B1 & B2 & B3 & B4).
  destruct (bump3 c) as [c' [|]]; cbn [fst snd] in *.
  { exfalso. destruct B2 as [B2 _]. specialize (B2 eq_refl). lia. }
  specialize (B3 eq_refl). pose proof (saved_reads w c' s B1 H) as G. unfold wm in G. rewrite G, <- B3, enc3_val by auto.
  split; intros HH.
  - replace (val3 c' =? 16777215) with false by lia. reflexivity.
  - replace (val3 c' =? 16777215) with true by lia. reflexivity.
Qed.
Lemma touches_incr w : touches (w_incr w) 104 112.
Proof.
  unfold w_incr. apply touches_peek. intros [l|]; [|apply touches_ret].
  unfold incrementBuf. destruct (read3 l) as [c|]; [|apply touches_ret].
  destruct (bump3 c) as [c' [|]]; [apply touches_ret|].
  apply (touches_weak _ TXC_START (TXC_START + Zlen (two_copies c'))); [|unfold Zlen; rewrite two_copies_len|apply touches_save];
    unfold TXC_START; lia.
Qed.

(** Histories of requests for the next counter and of restarts, up to the first refusal. *)
Inductive WEv := WCall (r : Rnd) | WRestart.
Fixpoint w_issued (w : Wear) (evs : list WEv) (ram : TxRam) (s : WS) : list (list Z) :=
  match evs with
  | [] => []
  | WRestart :: evs => w_issued w evs TxRam0 s
  | WCall r :: evs => match w_next w ram r s with
                      | (s', (Some c, ram')) => c :: w_issued w evs ram' s'
                      | (_, (None, _)) => []
                      end
  end.
Fixpoint increasing (last : Z) (l : list (list Z)) : Prop :=
  match l with [] => True | c :: l => last < be c /\ increasing (be c) l end.

Lemma be_out6 c e : be (out6 c e) = val3 c * 16777216 + val3 e.
Proof. destruct c as [[a b] l], e as [[x y] z]. unfold out6, be, val3. cbn [fold_left]. lia. Qed.

(** The state between calls: a stored prefix that can be read and is not zero; once initialised, the last counter
    issued was that prefix and the volatile part. *)
Definition wgood (ram : TxRam) (s : WS) (last : Z) : Prop :=
  bytes_mem (fst s) /\ exists p, rd3 (fst s) = Some p /\ 1 <= val3 p /\
    (if inited ram then bytes3 (eph ram) /\ last <= val3 p * 16777216 + val3 (eph ram)
     else last < (val3 p + 1) * 16777216).

Lemma next_tail w (b : bool) (e : Ctr3) s s' ram' c :
  bytes_mem (fst s) ->
  (wdo ok <- (if b then w_incr w else wret true);
   if negb (ok : bool) then wret (None, mkTxRam true e) else
   wdo p <- w_prefix;
   match p with
   | None => wret (None, mkTxRam true e)
   | Some (b0, b1, b2) => let '(e0, e1, e2) := e in wret (Some [b0; b1; b2; e0; e1; e2], mkTxRam true e)
   end) s = (s', (Some c, ram')) ->
  bytes_mem (fst s') /\ ram' = mkTxRam true e /\
  exists p q, rd3 (fst s) = Some p /\ rd3 (fst s') = Some q /\ val3 q = val3 p + (if b then 1 else 0) /\ c = out6 q e.
Proof.
  intros HM. unfold wbind at 1. destruct b.
  - pose proof (incr_good w s HM) as G. destruct (touches_incr w s) as [_ HM']. specialize (HM' HM).
    unfold wr_, wm in *. destruct (w_incr w s) as [s1 ok]. cbn [fst snd] in *.
    destruct ok; cbn [negb]; [|cbn; discriminate]. destruct (G eq_refl) as (p & Ep & HB & G1 & G2).
    unfold wbind, w_prefix. rewrite peek_prefix.
    destruct (rd3_bytes _ _ HM Ep) as [_ HV].
    destruct (Z.eq_dec (val3 p + 1) 16777215) as [E|E].
    + rewrite (G2 E). cbn. discriminate.
    + rewrite (G1 ltac:(lia)). remember (enc3 (val3 p + 1)) as q eqn:Eq. destruct q as [[b0 b1] b2].
      destruct e as [[e0 e1] e2]. unfold wret. intros H. apply pair_inj in H. destruct H as [H1 H].
      apply pair_inj in H. destruct H as [H2 H3]. apply some_inj in H2. subst s' ram' c.
      split; [exact HM'|]. split; [reflexivity|]. exists p, (b0, b1, b2).
      rewrite (G1 ltac:(lia)). refine (conj Ep (conj eq_refl (conj _ eq_refl))).
      rewrite Eq. apply val3_enc. pose proof (val3_range p HB). lia.
  - unfold wret at 1. cbn [negb]. unfold wbind, w_prefix. rewrite peek_prefix.
    destruct (rd3 (fst s)) as [[[b0 b1] b2]|] eqn:E; [|cbn; discriminate].
    destruct e as [[e0 e1] e2]. unfold wret. intros H. apply pair_inj in H. destruct H as [H1 H].
    apply pair_inj in H. destruct H as [H2 H3]. apply some_inj in H2. subst s' ram' c.
    split; [exact HM|]. split; [reflexivity|]. exists (b0, b1, b2), (b0, b1, b2).
    rewrite E. refine (conj eq_refl (conj eq_refl (conj _ eq_refl))). lia.
Qed.

Lemma next_good w ram r s last s' c ram' : wgood ram s last -> w_next w ram r s = (s', (Some c, ram')) ->
  last < be c /\ wgood ram' s' (be c).
Proof.
  intros (HM & p & Ep & Hp & HI). unfold w_next. unfold wbind at 1. destruct (inited ram) eqn:EI; cbn [negb].
  - unfold wret at 1. destruct HI as [HB HL]. destruct (bump3_num (eph ram) HB) as (B1 & B2 & B3 & B4).
    destruct (bump3 (eph ram)) as [e ovf] eqn:EB. cbn [fst snd] in *.
    intros H. change (false || ovf) with ovf in H. cbv zeta in H.
    destruct (next_tail w ovf e s s' ram' c HM H) as (HM' & -> & p' & q & E1 & E2 & E3 & ->).
    rewrite E1 in Ep. apply some_inj in Ep. subst p'. rewrite be_out6.
    pose proof (val3_range _ B1) as R1. pose proof (val3_range _ HB) as R2.
    split; [destruct ovf; [specialize (B4 eq_refl)|specialize (B3 eq_refl)]; lia|].
    split; [exact HM'|]. exists q. cbn [inited eph]. refine (conj E2 (conj _ (conj B1 _))); [|lia].
    destruct ovf; lia.
  - unfold wbind at 1. unfold w_prefix at 1. rewrite peek_prefix, Ep. pose proof Hp as Hp'. destruct p as [[b0 b1] b2].
    replace ((0 =? b0) && (0 =? b1) && (0 =? b2)) with false by (unfold val3 in Hp; lia).
    unfold wret at 1. cbn [orb]. destruct (eph_start_bytes r) as [HB HV].
    destruct (bump3_num _ HB) as (B1 & B2 & B3 & B4).
    destruct (bump3 _) as [e ovf] eqn:EB. cbn [fst snd] in *.
    intros H. cbv zeta in H. change (true || ovf) with true in H.
    destruct (next_tail w true e s s' ram' c HM H) as (HM' & -> & p' & q & E1 & E2 & E3 & ->).
    rewrite E1 in Ep. apply some_inj in Ep. subst p'. rewrite be_out6.
    pose proof (val3_range _ B1) as R1.
    split; [lia|]. split; [exact HM'|]. exists q. cbn [inited eph]. refine (conj E2 (conj _ (conj B1 _))); lia.
Qed.

(** Whatever the cells do, counters only go up while none is refused: from a stored prefix that can be read and is
    not zero, over any sequence of requests and restarts. *)
Theorem wear_counters_increase w evs s p : bytes_mem (fst s) -> rd3 (fst s) = Some p -> 1 <= val3 p ->
  increasing (val3 p * 16777216 + 16777215) (w_issued w evs TxRam0 s).
Proof.
  intros HM Ep Hp.
  assert (G : forall evs ram s last, wgood ram s last -> increasing last (w_issued w evs ram s)).
  { clear. induction evs as [|[r|] evs IH]; intros ram s last HG; cbn [w_issued]; [exact I| |].
    - destruct (w_next w ram r s) as [s' [[c|] ram']] eqn:E; [|exact I].
      destruct (next_good _ _ _ _ _ _ _ _ HG E) as [HL HG']. cbn [increasing]. split; [exact HL|]. apply IH. exact HG'.
    - apply IH. destruct HG as (HM & p & Ep & Hp & HI). split; [exact HM|]. exists p. cbn [inited TxRam0].
      refine (conj Ep (conj Hp _)). destruct (inited ram).
      + destruct HI as [HB HL]. pose proof (val3_range _ HB). lia.
      + exact HI. }
  apply G. split; [exact HM|]. exists p. cbn [inited TxRam0]. refine (conj Ep (conj Hp _)). lia.
Qed.

(** A good increment is one the store can be read back from; a store that can't be read is never incremented. *)
Theorem wear_increment w s : bytes_mem (fst s) -> wr_ (w_incr w) s = true ->
  exists c, rd3 (fst s) = Some c /\ (val3 c + 1 < 16777215 -> rd3 (wm (w_incr w) s) = Some (enc3 (val3 c + 1))) /\
    (forall q, ~ (104 <= q < 112) -> wm (w_incr w) s q = fst s q).
Proof.
  intros HM H. destruct (incr_good w s HM H) as (c & Ec & _ & G & _). exists c.
  refine (conj Ec (conj G _)). intros q Hq. apply (touches_incr w s). exact Hq.
Qed.

(** ** The receive counter, full update. *)
Lemma updateRX_good w loc new s : Zlen new = 6 -> wr_ (w_updateRX w loc new) s = true ->
  rdctr (wm (w_updateRX w loc new) s) loc = Some new.
Proof.
  intros H6. unfold w_updateRX, wr_, wm. unfold wbind at 1 5. destruct (w_clear w (loc + 6) 127 s) as [s1 []]. cbv zeta.
  unfold wbind at 1 4. pose proof (save_good w new loc s1) as G. unfold wr_, wm in G.
  destruct (w_save w loc new s1) as [s2 ok]. cbn [fst snd] in G.
  destruct ok; cbn [negb]; [|cbn; discriminate]. specialize (G eq_refl). rewrite H6 in G.
  unfold wbind, w_read, wret.
  pose proof (touches_update w (loc + 6) (inv8 (crc7_run 0 new)) s2) as [T _]. unfold wm in T.
  destruct (w_update w (loc + 6) (inv8 (crc7_run 0 new)) s2) as [s3 []]. cbn [fst snd] in *. intros H.
  apply Z.eqb_eq in H. unfold rdctr.
  assert (HN : map inv8 (block (fst s3) loc 6) = new).
  { apply zlist_ext.
    - unfold Zlen. rewrite map_length, block_len. unfold Zlen in H6. lia.
    - unfold Zlen. rewrite map_length, block_len. intros i Hi.
      rewrite znth_inv8 by (unfold Zlen; rewrite block_len; lia). rewrite block_znth by lia.
      rewrite T by lia. rewrite G by lia. apply inv8_inv. }
  rewrite HN, <- H, inv8_inv, Z.eqb_refl. reflexivity.
Qed.
Lemma touches_updateRX w loc new : Zlen new = 6 -> touches (w_updateRX w loc new) loc (loc + 7).
Proof.
  intros H6. unfold w_updateRX. apply touches_bind.
  - apply (touches_weak _ (loc + 6) (loc + 6 + 1)); [lia|lia|apply touches_clear].
  - intros []. cbv zeta. apply touches_bind.
    + apply (touches_weak _ loc (loc + Zlen new)); [lia|lia|apply touches_save].
    + intros [|]; cbn [negb]; [|apply touches_ret]. apply touches_bind.
      * apply (touches_weak _ (loc + 6) (loc + 6 + 1)); [lia|lia|apply touches_update].
      * intros []. apply touches_read. intros v. apply touches_ret.
Qed.

(** Acceptance by the full update: both copies of the counter read back as the accepted value. *)
Theorem wear_receive_full_partial w id new s s' : Zlen id = 8 -> Zlen new = 6 -> Forall byte new -> bytes_mem (fst s) ->
  w_accept w id new s = (s', (true, false)) ->
  exists a, row_of (fst s) id = Some a /\
    (exists last, last_of (fst s) a = Some last /\ be last < be new) /\
    rdctr (fst s') (a + 8) = Some new /\ rdctr (fst s') (a + 16) = Some new /\
    (forall q, ~ (a + 8 <= q < a + 24) -> fst s' q = fst s q).
Proof.
  intros H8 H6 HN HM. unfold w_accept, wbind at 1, w_peek at 1.
  rewrite (peek_does _ _ _ (does_validate id new (mkEE (fst s) []) H8 H6 HN HM)). cbn [mem].
  destruct (newer (fst s) id new) eqn:EN; [|intros H; apply pair_inj in H; destruct H as [_ H]; discriminate H].
  unfold wbind at 1, w_peek at 1.
  rewrite (peek_does _ _ _ (does_lookup id (mkEE (fst s) []) H8)). cbn [mem].
  destruct (scan (fst s) id 0 8) as [[i x]|] eqn:ES; [|intros H; apply pair_inj in H; destruct H as [_ H]; discriminate H].
  cbv zeta. rewrite row_addr_eq. set (a := 768 + 32 * i) in *.
  unfold wbind at 1, w_peek at 1.
  rewrite (peek_does _ _ _ (does_readBase a (mkEE (fst s) []))). cbn [mem].
  destruct (base_of (fst s) a) as [b|] eqn:EB; [|intros H; apply pair_inj in H; destruct H as [_ H]; discriminate H].
  destruct (msgcounteradd b 16) as [[[|] mx]|]; try (intros H; apply pair_inj in H; destruct H as [_ H]; discriminate H).
  destruct (msgcountercmp mx new) as [r|]; [|intros H; apply pair_inj in H; destruct H as [_ H]; discriminate H].
  assert (HR : row_of (fst s) id = Some a) by (unfold row_of; rewrite ES; reflexivity).
  assert (HLast : exists last, last_of (fst s) a = Some last /\ be last < be new).
  { unfold newer, lookup_last in EN. rewrite HR in EN. destruct (last_of (fst s) a) as [l|]; [|discriminate EN].
    exists l. split; [reflexivity|]. lia. }
  clear EN EB HM HN H8. destruct (r >=? 0).
  - unfold wbind at 1, w_peek. destruct (unary_find b new _ 17); cbv zeta.
    + unfold wbind. destruct (w_update w (a + CNT1 + 7) _ s) as [s1 []]. destruct (w_update w (a + CNT0 + 7) _ s1) as [s2 []].
      intros H; apply pair_inj in H; destruct H as [_ H]; discriminate H.
    + intros H; apply pair_inj in H; destruct H as [_ H]; discriminate H.
  - unfold CNT0, CNT1. unfold wbind at 1.
    pose proof (updateRX_good w (a + 8) new s H6) as G1. destruct (touches_updateRX w (a + 8) new H6 s) as [T1 _].
    unfold wr_, wm in G1, T1. destruct (w_updateRX w (a + 8) new s) as [s1 [|]]; cbn [negb fst snd] in *;
      [|intros H; apply pair_inj in H; destruct H as [_ H]; discriminate H].
    unfold wbind at 1.
    pose proof (updateRX_good w (a + 16) new s1 H6) as G2. destruct (touches_updateRX w (a + 16) new H6 s1) as [T2 _].
    unfold wr_, wm in G2, T2. destruct (w_updateRX w (a + 16) new s1) as [s2 [|]]; cbn [negb fst snd] in *;
      [|intros H; apply pair_inj in H; destruct H as [_ H]; discriminate H].
    unfold wbind. destruct (touches_erase w (a + 16 + 7) s2) as [T3 _]. unfold wm in T3.
    destruct (w_erase w (a + 16 + 7) s2) as [s3 []]. cbn [fst] in T3.
    destruct (touches_erase w (a + 8 + 7) s3) as [T4 _]. unfold wm in T4.
    destruct (w_erase w (a + 8 + 7) s3) as [s4 []]. cbn [fst] in T4.
    unfold wret. intros H; apply pair_inj in H; destruct H as [H _]. subst s'.
    specialize (G1 eq_refl). specialize (G2 eq_refl).
    exists a. refine (conj HR (conj HLast (conj _ (conj _ _)))).
    + rewrite <- G1. apply rdctr_ext. intros q Hq. rewrite T4, T3, T2 by lia. reflexivity.
    + rewrite <- G2. apply rdctr_ext. intros q Hq. rewrite T4, T3 by lia. reflexivity.
    + intros q Hq. rewrite T4, T3, T2, T1 by lia. reflexivity.
Qed.

(** ** The building key. *)
Theorem wear_key w k s s' : Zlen k = 16 -> w_setKey w (Some k) s = (s', true) ->
  block (fst s') KEY_START KEY_LEN = k.
Proof.
  intros H16. unfold w_setKey, wbind at 1. destruct (w_update_bytes w KEY_START k s) as [s1 []].
  unfold wbind, w_peek.
  rewrite (peek_does _ _ _ (does_check_bytes k KEY_START (mkEE (fst s1) []))). cbn [mem].
  unfold wret. intros H. apply pair_inj in H. destruct H as [<- H]. apply list_eqb_eq in H.
  replace (length k) with KEY_LEN in H by (unfold Zlen in H16; unfold KEY_LEN; lia). symmetry. exact H.
Qed.

(** ** What is not promised. *)
Definition id8 : list Z := [129; 130; 131; 132; 133; 134; 135; 136].
(** One associated node, receive counter [c] in both copies. *)
Definition row0 (c : list Z) : Z -> Z := fun q =>
  let o := q - 768 in
  if (0 <=? o) && (o <? 8) then znth id8 o else
  if (8 <=? o) && (o <? 14) then inv8 (znth c (o - 8)) else
  if (16 <=? o) && (o <? 22) then inv8 (znth c (o - 16)) else
  if (o =? 14) || (o =? 22) then inv8 (crc7_run 0 c) else 255.
Definition acc1 (x : WM (bool * bool)) (m : Z -> Z) : bool * bool := snd (x (m, 0%nat)).
Definition twice (w : Wear) (c : list Z) : WM (bool * bool) :=
  wdo a <- w_accept w id8 c; wdo b <- w_accept w id8 c; wret (fst a, fst b).
(** A unary counter byte stuck erased: the same message counter is accepted again. *)
Theorem wear_replay_refuted : exists w c m, bytes_mem m /\
  (forall t p old good, p <> 791 -> w t p old good = good) /\ acc1 (twice w c) m = (true, true).
Proof.
  exists (fun _ p _ good => if p =? 791 then 255 else good), [0; 0; 0; 0; 0; 1], (row0 [0; 0; 0; 0; 0; 0]).
  split; [|split].
  - intros q. unfold row0, byte. cbv zeta.
    assert (HZ : forall i, znth [0; 0; 0; 0; 0; 0] i = 0).
    { intros i. unfold znth. destruct (Z.to_nat i) as [|[|[|[|[|[|n]]]]]]; try reflexivity. destruct n; reflexivity. }
    rewrite !HZ. change (inv8 0) with 255.
    destruct ((0 <=? q - 768) && (q - 768 <? 8)) eqn:E.
    + apply (znth_byte id8). unfold id8. repeat (constructor; [unfold byte; lia|]). constructor.
    + clear E. destruct (_ && _); [lia|]. destruct (_ && _); [lia|]. destruct ((q - 768 =? 14) || (q - 768 =? 22)); [|idtac].
      { let v := eval vm_compute in (inv8 (crc7_run 0 [0; 0; 0; 0; 0; 0])) in change (inv8 (crc7_run 0 [0; 0; 0; 0; 0; 0])) with v. lia. }
      lia.
  - intros t p old good Hp. replace (p =? 791) with false by lia. reflexivity.
  - vm_compute. reflexivity.
Qed.
Example wear_replay_good_cells : acc1 (twice fresh [0; 0; 0; 0; 0; 1]) (row0 [0; 0; 0; 0; 0; 0]) = (true, false).
Proof. vm_compute. reflexivity. Qed.

(** The store stuck erased: the reset made when it is found empty is not checked, so the prefix stays zero and the
    same counter can be issued again after a restart. *)
Theorem wear_reset_refuted : exists w r, exists c, w_issued w [WCall r; WRestart; WCall r] TxRam0 (fun _ => 255, 0%nat) = [c; c].
Proof.
  exists (fun _ p _ good => if (104 <=? p) && (p <? 112) then 255 else good), (mkRnd (1, 2, 3) (4, 5, 6)).
  eexists. vm_compute. reflexivity.
Qed.
Example wear_reset_good_cells : w_issued fresh [WCall (mkRnd (1, 2, 3) (4, 5, 6)); WRestart; WCall (mkRnd (1, 2, 3) (4, 5, 6))]
  TxRam0 (fun _ => 255, 0%nat) = [[1; 2; 3; 4; 5; 7]; [1; 2; 4; 4; 5; 7]].
Proof. vm_compute. reflexivity. Qed.

(** A key erased on request may still be there though success is reported. *)
Theorem wear_key_clear_refuted : exists w m, snd (w_setKey w None (m, 0%nat)) = true /\
  block (fst (fst (w_setKey w None (m, 0%nat)))) KEY_START KEY_LEN = repeat 7 16.
Proof. exists (fun _ _ old _ => old), (fun _ => 7). split; vm_compute; reflexivity. Qed.

(** ** The theorems' hypotheses are met. *)
(** A store holding prefix 00 00 09. *)
Definition tx9 : Z -> Z := fun q =>
  if (104 <=? q) && (q <? 112) then inv8 (znth (two_copies (0, 0, 9)) (q - 104)) else 255.
Example wear_prefix9 : rd3 tx9 = Some (0, 0, 9).
Proof. vm_compute. reflexivity. Qed.
(** The cell at 106, low byte of the primary copy, fails at its second programming: the second restart gets nothing. *)
Example wear_counters_case :
  w_issued (fun t p old good => if (p =? 106) && (Z.of_nat t >? 3) then old else good)
    [WCall (mkRnd (1, 2, 3) (4, 5, 6)); WCall (mkRnd (1, 2, 3) (4, 5, 6)); WRestart; WCall (mkRnd (1, 2, 3) (4, 5, 6))]
    TxRam0 (tx9, 0%nat) = [[0; 0; 10; 4; 5; 7]; [0; 0; 10; 4; 5; 8]].
Proof. vm_compute. reflexivity. Qed.
Example wear_receive_full_case : acc1 (w_accept fresh id8 [0; 0; 0; 0; 1; 0]) (row0 [0; 0; 0; 0; 0; 0]) = (true, false)
  /\ acc1 (w_accept (fun _ p old good => if p =? 777 then old else good) id8 [0; 1; 0; 0; 1; 0]) (row0 [0; 0; 0; 0; 0; 0]) = (false, false).
Proof. split; vm_compute; reflexivity. Qed.
Example wear_key_case : snd (w_setKey fresh (Some (repeat 9 16)) (fun _ => 255, 0%nat)) = true
  /\ snd (w_setKey (fun _ p old good => if p =? 120 then old else good) (Some (repeat 9 16)) (fun _ => 255, 0%nat)) = false.
Proof. split; vm_compute; reflexivity. Qed.
