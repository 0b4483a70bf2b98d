(** The RFM23B link: invariant, sending, listening. *)
From Verif Require Import Base RxQueueModel RxQueueProps RfmModel RfmProps.

(** Counting observations. *)
Definition isDrop (o : obs) : bool := match o with ODropped => true | _ => false end.
Definition isAban (o : obs) : bool := match o with OAbandoned => true | _ => false end.
Definition num (p : obs -> bool) (os : list obs) : Z := Zlen (List.filter p os).

(** What holds of the driver apart from the receiver's state. *)
Record base (s : link) (fs : list (list Z)) : Prop := Base_ {
  b_q : sinv QC (qs s) fs;
  b_seen : fifo [] (seen s) = Some fs;
  b_blk : Forall block_ok (cfgs s);
  b_n : nCh s <= 127;
  b_cur : 0 <= cur s < nCh s;
  b_conf : configured (nth (Z.to_nat (cur s)) (cfgs s) []) (regs (ch s));
  b_filt : filter_ok (filt s);
  b_max : 1 <= maxTyp s <= 63;
  b_drop : dropped s = num isDrop (seen s) mod 256;
  b_aban : filtered s = num isAban (seen s) mod 256;
  b_lis : lis s = -1 \/ 0 <= lis s < nCh s }.
(** Receiving on the channel listened to (or, with the packet handler, holding a packet). *)
Definition receiving (s : link) : Prop :=
  cur s = lis s /\ regs (ch s) 6 = 0 /\ regs (ch s) 5 = enables (ch s) /\ (fixedp (ch s) = true -> 1 <= regs (ch s) 62 <= 63) /\
  ((regs (ch s) 7 = 5 /\ (bit (regs (ch s) 48) 7 = true -> bit (st1 (ch s)) 1 = false)) \/ (bit (regs (ch s) 48) 7 = true /\ bit (st1 (ch s)) 1 = true /\ regs (ch s) 7 = 1 /\ byte (regs (ch s) 75))).
Record good (s : link) (fs : list (list Z)) : Prop := Good {
  g_base : base s fs;
  g_rxf : Zlen (rxf (ch s)) = 64 /\ Forall byte (rxf (ch s));
  g_off : lis s = -1 -> quiet (ch s);
  g_on : lis s <> -1 -> receiving s;
  g_irq : hasIRQ s = true -> lis s <> -1 -> irq (ch s) = false }.

Lemma configured_ext b g g' : (forall r, managed r = false -> g' r = g r) -> configured b g -> configured b g'.
Proof. intros H HC r v Hr Hs. rewrite H by exact Hr. apply HC; assumption. Qed.
Lemma unmanaged r : managed r = false -> r <> 5 /\ r <> 6 /\ r <> 7 /\ r <> 8 /\ r <> 62 /\ r <> 126 /\ r <> 75.
Proof. unfold managed. intros H. repeat (apply orb_false_iff in H as [H ?]). repeat split; apply Z.eqb_neq; assumption. Qed.
Lemma base_ch s fs c : base s fs -> (forall r, managed r = false -> regs c r = regs (ch s) r) -> base (on (fun _ => c) s) fs.
Proof. intros [] H. constructor; cbn [on qs seen cfgs cur ch filt maxTyp dropped filtered lis]; try assumption. eapply configured_ext; eassumption. Qed.
Lemma on_const f s : on f s = on (fun _ => f (ch s)) s. Proof. reflexivity. Qed.
Lemma base_todo s fs t : base s fs -> base (set_todo t s) fs.
Proof. intros []. constructor; assumption. Qed.
Lemma base_later s s' fs : base s fs -> later s s' -> base s' fs.
Proof.
  intros H (A1 & _ & A3 & _). rewrite A1. apply (base_ch (set_todo (todo s') s)).
  - apply base_todo. exact H.
  - intros r Hr. apply A3. apply unmanaged in Hr. tauto.
Qed.
Lemma standby_regs c r : r <> 5 -> r <> 6 -> r <> 7 -> r <> 8 -> regs (standbyClear c) r = regs c r.
Proof. intros. rewrite standbyClear_eq. cbn [regs]. rewrite !upd_other by assumption. reflexivity. Qed.
Lemma base_standby s fs : base s fs -> base (on standbyClear s) fs.
Proof. intros H. rewrite on_const. apply base_ch; [exact H|]. intros r Hr. apply unmanaged in Hr. apply standby_regs; tauto. Qed.
(** Changing channel. *)
Lemma setChannel_ok c s fs : base s fs -> quiet (ch s) -> 0 <= c < nCh s -> let s' := setChannel c s in
  s' = set_cur c (on (fun _ => ch s') s) /\ base s' fs /\ quiet (ch s') /\ configured (nth (Z.to_nat c) (cfgs s) []) (regs (ch s')) /\
  st1 (ch s') = st1 (ch s) /\ rxf (ch s') = rxf (ch s) /\ txf (ch s') = txf (ch s) /\ por (ch s') = por (ch s) /\ air (ch s') = air (ch s).
Proof.
  intros HB HQ Hc. cbv zeta. unfold setChannel. pose proof (b_n _ _ HB) as HN. rewrite u8_id by (clear -Hc HN; red; lia).
  destruct (cur s =? c) eqn:EC.
  - apply Z.eqb_eq in EC. subst c. split; [destruct s; reflexivity|]. split; [exact HB|]. split; [exact HQ|]. split; [apply HB|]. repeat split; reflexivity.
  - replace (nCh s <=? c) with false by (clear -Hc; lia). set (b := nth (Z.to_nat c) (cfgs s) []).
    assert (Hb : block_ok b).
    { pose proof (b_blk _ _ HB) as HF. rewrite Forall_forall in HF. apply HF. apply nth_In. unfold nCh, Zlen in Hc. clear -Hc. lia. }
    destruct (writeBlock_ok b (ch s) Hb HQ) as (Q & R & S1 & S2 & S3 & S4 & S5 & S6). split; [reflexivity|].
    assert (HC : configured b (regs (writeBlock b (ch s)))) by (intros r v _ Hs; rewrite R, Hs; reflexivity).
    split; [|split; [exact Q|]; split; [exact HC|]; cbn [ch set_cur on]; repeat split; assumption].
    destruct HB. constructor; cbn [set_cur on qs seen cfgs cur ch filt maxTyp dropped filtered lis]; try assumption.
Qed.
(** Starting to receive, in a quiet state. *)
Lemma startRX_good s fs : base s fs -> quiet (ch s) -> 0 <= lis s < nCh s -> cur s = lis s -> let s' := on (startRX (maxTyp s)) s in
  good s' fs /\ regs (ch s') 7 = 5 /\ st1 (ch s') = 0 /\ air (ch s') = air (ch s).
Proof.
  intros HB HQ HL HC. cbv zeta. destruct (startRX_ok (maxTyp s) (ch s)) as (R & R7 & R5 & R6 & R8 & R62 & T1 & T2 & T3 & T4 & T5 & T6).
  split; [|split; [exact R7|split; [exact T1|exact T6]]].
  assert (HB' : base (on (startRX (maxTyp s)) s) fs).
  { rewrite on_const. apply base_ch; [exact HB|]. intros r Hr. apply unmanaged in Hr. apply R; tauto. }
  pose proof (b_max _ _ HB) as HM. constructor; [exact HB'| | | |]; cbn [on ch lis hasIRQ].
  - rewrite T3. split; [reflexivity|]. apply Forall_forall. intros x Hx. apply repeat_spec in Hx as ->. red. lia.
  - intros HX. clear -HX HL. lia.
  - intros _. unfold receiving. cbn [on ch lis cur]. split; [exact HC|]. split; [exact R6|]. split; [rewrite R5; unfold enables; rewrite R by discriminate; reflexivity|]. split; [|left; split; [exact R7|intros _; rewrite T1; reflexivity]].
    unfold fixedp. rewrite !R by discriminate. fold (fixedp (ch s)). intros HF. rewrite HF in R62. rewrite R62. exact HM.
  - intros _ _. unfold irq. rewrite T1, T2. reflexivity.
Qed.
(** Ending listening: quiet with nothing listened to. *)
Lemma quiet_good s fs : base s fs -> quiet (ch s) -> lis s = -1 -> Zlen (rxf (ch s)) = 64 /\ Forall byte (rxf (ch s)) -> good s fs.
Proof. intros HB HQ HL HR. constructor; [exact HB|exact HR|intros _; exact HQ|intros HX; elim HX; exact HL|intros _ HX; elim HX; exact HL]. Qed.
Lemma zeros64 : Zlen (repeat 0 64) = 64 /\ Forall byte (repeat 0 64).
Proof. split; [reflexivity|]. apply Forall_forall. intros x Hx. apply repeat_spec in Hx as ->. red. lia. Qed.
(** What the call changes: chip, current channel. *)
Definition same (s s' : link) : Prop := exists c x t, s' = set_todo t (set_cur x (on (fun _ => c) s)).
Lemma same_trans s1 s2 s3 : same s1 s2 -> same s2 s3 -> same s1 s3.
Proof. intros (c1 & x1 & t1 & ->) (c2 & x2 & t2 & ->). exists c2, x2, t2. reflexivity. Qed.
Lemma same_refl s : same s s. Proof. exists (ch s), (cur s), (todo s). destruct s; reflexivity. Qed.
Lemma same_on f s : same s (on f s). Proof. exists (f (ch s)), (cur s), (todo s). reflexivity. Qed.
Lemma same_later s s' : later s s' -> same s s'. Proof. intros (A & _). exists (ch s'), (cur s), (todo s'). exact A. Qed.
Lemma same_chan s x c : same s (set_cur x (on (fun _ => c) s)). Proof. exists c, x, (todo s). reflexivity. Qed.
Lemma same_f s s' : same s s' -> qs s' = qs s /\ lis s' = lis s /\ cfgs s' = cfgs s /\ dropped s' = dropped s /\ filtered s' = filtered s /\ err s' = err s /\ maxTyp s' = maxTyp s /\ filt s' = filt s /\ hasIRQ s' = hasIRQ s /\ seen s' = seen s.
Proof. intros (c & x & t & ->). repeat split; reflexivity. Qed.
Definition live (s : link) : Prop := lis s <> -1 -> regs (ch s) 7 = 5 /\ st1 (ch s) = 0.
Lemma dolisten_ok s fs : base s fs -> exists s', dolisten s = Some s' /\ good s' fs /\ same s s' /\ live s' /\ air (ch s') = air (ch s).
Proof.
  intros HB. unfold dolisten. pose proof (base_standby _ _ HB) as HB0. destruct (point_later (on standbyClear s) (standbyClear_quiet (ch s))) as (s1 & E1 & L1 & T1 & _). rewrite E1. cbn [bind].
  pose proof (base_later _ _ _ HB0 L1) as HB1. assert (S1 : same s s1) by (eapply same_trans; [apply same_on|apply same_later; exact L1]).
  pose proof (same_f _ _ S1) as (_ & F2 & F3 & _). assert (Q1 : quiet (ch s1)) by apply L1. destruct L1 as (_ & _ & _ & X1 & _ & _ & X4). cbn [on ch] in X1, X4. rewrite standbyClear_eq in X1, X4. cbn [rxf air] in X1, X4.
  destruct (lis s1 =? -1) eqn:EL.
  - apply Z.eqb_eq in EL. exists s1. split; [reflexivity|]. split; [apply quiet_good; [exact HB1|exact Q1|exact EL|rewrite X1; apply zeros64]|]. split; [exact S1|]. split; [intros HX; elim HX; exact EL|exact X4].
  - assert (HL : 0 <= lis s1 < nCh s1) by (destruct (b_lis _ _ HB1) as [HX | HX]; [apply Z.eqb_neq in EL; contradiction|exact HX]).
    destruct (setChannel_ok (lis s1) s1 fs HB1 Q1 HL) as (Y0 & HB2 & Q2 & _ & _ & _ & _ & _ & Y5). set (s2 := setChannel (lis s1) s1) in *.
    assert (S2 : same s s2) by (eapply same_trans; [exact S1|rewrite Y0; apply same_chan]). pose proof (same_f _ _ S2) as (_ & G2 & G3 & _).
    assert (C2 : cur s2 = lis s1) by (rewrite Y0; reflexivity).
    destruct (point_later s2 Q2) as (s3 & E3 & L3 & T3 & _). rewrite E3. cbn [bind]. pose proof (base_later _ _ _ HB2 L3) as HB3.
    assert (S3 : same s s3) by (eapply same_trans; [exact S2|apply same_later; exact L3]). pose proof (same_f _ _ S3) as (_ & K2 & K3 & _).
    assert (C3 : cur s3 = cur s2) by (destruct L3 as (Z1 & _); rewrite Z1; reflexivity). assert (Q3 : quiet (ch s3)) by apply L3.
    destruct (startRX_good s3 fs HB3 Q3) as (G & R7 & R1 & RA).
    + unfold nCh in *. rewrite K2, K3. rewrite F2, F3 in HL. exact HL.
    + rewrite C3, C2, K2. exact F2.
    + eexists. split; [reflexivity|]. split; [exact G|]. split; [eapply same_trans; [exact S3|apply same_on]|]. split; [intros _; split; [exact R7|exact R1]|].
      rewrite RA. destruct L3 as (_ & _ & _ & _ & _ & _ & Z7). rewrite Z7, Y5. exact X4.
Qed.
(** The same with interrupts off. *)
Lemma dolistenA_ok s fs : base s fs -> let s' := dolistenA s in good s' fs /\ same s s' /\ live s' /\ air (ch s') = air (ch s).
Proof.
  intros HB. cbv zeta. unfold dolistenA. cbv zeta. pose proof (base_standby _ _ HB) as HB0. assert (Q0 : quiet (ch (on standbyClear s))) by exact (standbyClear_quiet (ch s)). set (s1 := on standbyClear s) in *.
  assert (X1 : rxf (ch s1) = repeat 0 64) by (unfold s1; cbn [on ch]; rewrite standbyClear_eq; reflexivity).
  assert (X4 : air (ch s1) = air (ch s)) by (unfold s1; cbn [on ch]; rewrite standbyClear_eq; reflexivity).
  assert (S1 : same s s1) by apply same_on. clearbody s1.
  destruct (lis s1 =? -1) eqn:EL.
  - apply Z.eqb_eq in EL. split; [apply quiet_good; [exact HB0|exact Q0|exact EL|rewrite X1; apply zeros64]|]. split; [exact S1|]. split; [intros HX; elim HX; exact EL|exact X4].
  - assert (HL : 0 <= lis s1 < nCh s1) by (destruct (b_lis _ _ HB0) as [HX | HX]; [apply Z.eqb_neq in EL; contradiction|exact HX]).
    destruct (setChannel_ok (lis s1) s1 fs HB0 Q0 HL) as (Y0 & HB2 & Q2 & _ & _ & _ & _ & _ & Y5). set (s2 := setChannel (lis s1) s1) in *.
    assert (S2 : same s1 s2) by (rewrite Y0; apply same_chan). pose proof (same_f _ _ S2) as (_ & G2 & G3 & _).
    assert (C2 : cur s2 = lis s1) by (rewrite Y0; reflexivity).
    destruct (startRX_good s2 fs HB2 Q2) as (G & R7 & R1 & RA).
    + unfold nCh in *. rewrite G2, G3. exact HL.
    + rewrite C2. symmetry. exact G2.
    + split; [exact G|]. split; [eapply same_trans; [exact S1|eapply same_trans; [exact S2|apply same_on]]|]. split; [intros _; split; [exact R7|exact R1]|]. rewrite RA, Y5. exact X4.
Qed.

(** ** Sending *)
Lemma queueFrame_ok buf c : Forall byte buf -> Zlen buf <= 64 -> quiet c -> let c' := queueFrame buf c in
  quiet c' /\ (forall r, r <> 8 -> regs c' r = regs c r) /\ txf c' = buf /\ rxf c' = rxf c /\ por c' = por c /\ air c' = air c.
Proof.
  intros HF HL HQ. cbv zeta. unfold queueFrame.
  assert (E0 : wreg 8 0 (wreg 8 1 c) = Chip (upd (upd (regs c) 8 1) 8 0) (st1 c) (st2 c) (rxf c) [] (por c) (air c)).
  { destruct HQ as (_ & _ & _ & _ & Q5 & Q6). unfold wreg at 2. cbn [Z.eqb Pos.eqb]. rewrite Q5, Q6. cbn [andb]. reflexivity. }
  rewrite E0. set (c0 := Chip _ _ _ _ _ _ _).
  assert (HG : forall l pre, Zlen pre + Zlen l <= 64 -> fold_left (fun c v => wreg 127 v c) l (Chip (regs c0) (st1 c0) (st2 c0) (rxf c0) pre (por c0) (air c0)) = Chip (regs c0) (st1 c0) (st2 c0) (rxf c0) (pre ++ l) (por c0) (air c0)).
  { clear. induction l as [|v l IH]; intros pre H; [rewrite app_nil_r; reflexivity|]. cbn [fold_left]. rewrite Zlen_cons in H. pose proof (Zlen_nonneg l).
    assert (E : wreg 127 v (Chip (regs c0) (st1 c0) (st2 c0) (rxf c0) pre (por c0) (air c0)) = Chip (regs c0) (st1 c0) (st2 c0) (rxf c0) (pre ++ [v]) (por c0) (air c0)).
    { unfold wreg. cbn [Z.eqb Pos.eqb]. cbn [txf]. replace (Zlen pre <? 64) with true by lia. reflexivity. }
    rewrite E, IH by (rewrite Zlen_app; change (Zlen [v]) with 1; lia). rewrite <- app_assoc. reflexivity. }
  specialize (HG buf [] HL). change (Chip (regs c0) (st1 c0) (st2 c0) (rxf c0) [] (por c0) (air c0)) with c0 in HG. rewrite HG. clear HG. unfold c0. cbn [regs st1 rxf txf por air app].
  destruct HQ as (Q1 & Q2 & Q3 & Q4 & Q5 & Q6). split.
  - unfold quiet. cbn [regs st1]. rewrite upd_same, !upd_other by discriminate. rewrite !Z.bits_0. split; [exact Q1|]. split; [exact Q2|]. auto.
  - split; [intros r Hr; rewrite !upd_other by assumption; reflexivity|]. repeat split; reflexivity.
Qed.
Lemma txStart_eq c : txStart c = Chip (upd (upd (upd (regs c) 5 0) 6 0) 7 9) 0 0 (rxf c) (txf c) (por c) (air c ++ [(upd (upd (regs c) 5 0) 6 0, payload c)]).
Proof. reflexivity. Qed.
(** One transmission of what is in the FIFO. *)
Lemma txFIFO_ok s fs : base s fs -> quiet (ch s) -> exists s' g, txFIFO s = Some (fst (confirm 1000 (todo s)), s') /\ base s' fs /\ quiet (ch s') /\
  same s s' /\ cur s' = cur s /\ todo s' = snd (confirm 1000 (todo s)) /\ txf (ch s') = txf (ch s) /\ (forall r, r <> 5 -> r <> 6 -> r <> 7 -> regs (ch s') r = regs (ch s) r) /\
  air (ch s') = air (ch s) ++ [(g, payload (ch s))] /\ (forall r, managed r = false -> g r = regs (ch s) r).
Proof.
  intros HB HQ. unfold txFIFO. set (s1 := on txStart s).
  assert (E1 : ch s1 = txStart (ch s)) by reflexivity. rewrite txStart_eq in E1.
  assert (HB1 : base s1 fs).
  { unfold s1. rewrite on_const. apply base_ch; [exact HB|]. intros r Hr. rewrite txStart_eq. cbn [regs]. apply unmanaged in Hr. rewrite !upd_other by tauto. reflexivity. }
  assert (Q1 : quiet (ch s1)).
  { rewrite E1. destruct HQ as (A1 & A2 & A3 & A4 & A5 & A6). unfold quiet. cbn [regs st1]. rewrite !Z.bits_0. rewrite upd_same, !(upd_other _ _ _ 8), (upd_other _ _ _ 6), upd_same, (upd_other _ 7 9 5), (upd_other _ 6 0 5), upd_same by discriminate.
    repeat split; try reflexivity; try assumption. intros k Hk. rewrite Z.bits_0 in Hk. discriminate. }
  destruct (txWait_ok 1000 s1 Q1) as (s' & EW & L & T); [rewrite E1; reflexivity|rewrite E1; reflexivity|]. change (todo s1) with (todo s) in EW, T.
  exists s', (upd (upd (regs (ch s)) 5 0) 6 0). split; [exact EW|]. split; [eapply base_later; eassumption|]. split; [apply L|].
  assert (S : same s s') by (eapply same_trans; [apply same_on|apply same_later; exact L]). split; [exact S|].
  destruct L as (L1 & _ & L3 & L4 & L5 & L6 & L7). split; [rewrite L1; reflexivity|]. split; [exact T|].
  split; [rewrite L5, E1; reflexivity|]. split; [intros r H5 H6 H7; rewrite L3, E1 by assumption; cbn [regs]; rewrite !upd_other by assumption; reflexivity|].
  split; [rewrite L7, E1; reflexivity|]. intros r Hr. apply unmanaged in Hr. rewrite !upd_other by tauto. reflexivity.
Qed.
(** Whether the chip confirmed each transmission in time. *)
Definition confirmed (power : Z) (l : list env) : bool :=
  let (r1, l1) := confirm 1000 (skipn 5 l) in
  if 4 <=? power then r1 && fst (confirm 1000 (tl l1)) else r1.
Lemma payload_buf c buf : txf c = buf -> (bit (regs c 48) 3 = true -> regs c 62 = Zlen buf) -> payload c = buf.
Proof. intros H1 H2. unfold payload. destruct (bit (regs c 48) 3); [|exact H1]. rewrite (H2 eq_refl), H1. unfold Zlen. rewrite Nat2Z.id. apply firstn_all. Qed.
Lemma skip_tl (l : list env) : tl (tl (tl (tl (tl l)))) = skipn 5 l.
Proof. do 5 (destruct l as [|? l]; [reflexivity|]). reflexivity. Qed.
(** C129: from any state the link can be in, a frame of up to 64 bytes on an existing channel is put on the air
    exactly, once (twice at the highest power), with the registers as that channel's configuration says, whatever
    happens and whatever interrupts come meanwhile; the result says whether the chip confirmed every
    transmission within its 1000 looks; the queue, counters and filter are as before, and if the link
    was listening it is receiving again. *)
Theorem rfm_send : forall s fs buf channel power, good s fs -> Forall byte buf -> Zlen buf <= 64 -> 0 <= channel < nCh s ->
  exists s' sent, sendRaw buf channel power s = Some (confirmed power (todo s), s') /\
    good s' fs /\ same s s' /\ live s' /\
    air (ch s') = air (ch s) ++ sent /\ map snd sent = (if 4 <=? power then [buf; buf] else [buf]) /\
    Forall (fun gb => configured (nth (Z.to_nat channel) (cfgs s) []) (fst gb)) sent.
Proof.
  intros s fs buf channel power HG HF HL HC. pose proof (g_base _ _ HG) as HB. unfold sendRaw, confirmed. set (T := todo s) in *.
  destruct (point_later (on standbyClear s) (standbyClear_quiet (ch s))) as (s1 & E1 & L1 & T1 & _). rewrite E1. cbn [bind]. change (todo (on standbyClear s)) with T in T1.
  pose proof (base_later _ _ _ (base_standby _ _ HB) L1) as B1. assert (S1 : same s s1) by (eapply same_trans; [apply same_on|apply same_later; exact L1]). assert (Q1 : quiet (ch s1)) by apply L1.
  assert (A1 : air (ch s1) = air (ch s)) by (destruct L1 as (_ & _ & _ & _ & _ & _ & ->); cbn [on ch]; rewrite standbyClear_eq; reflexivity). clear L1 E1.
  pose proof (same_f _ _ S1) as (_ & _ & N1 & _).
  destruct (setChannel_ok channel s1 fs B1 Q1) as (Y0 & B1' & Q1' & C1 & _ & _ & _ & _ & A1'); [unfold nCh in *; rewrite N1; exact HC|]. set (t1 := setChannel channel s1) in *.
  assert (S1' : same s t1) by (eapply same_trans; [exact S1|rewrite Y0; apply same_chan]). assert (T1' : todo t1 = tl T) by (rewrite Y0; exact T1). rewrite N1 in C1. rewrite A1 in A1'. clear Y0 A1 T1.
  destruct (point_later t1 Q1') as (s2 & E2 & L2 & T2 & _). rewrite E2. cbn [bind]. rewrite T1' in T2. pose proof (base_later _ _ _ B1' L2) as B2. assert (Q2 : quiet (ch s2)) by apply L2.
  assert (S2 : same s s2) by (eapply same_trans; [exact S1'|apply same_later; exact L2]).
  assert (C2 : configured (nth (Z.to_nat channel) (cfgs s) []) (regs (ch s2))) by (destruct L2 as (_ & _ & R & _); eapply configured_ext; [|exact C1]; intros r Hr; apply R; apply unmanaged in Hr; tauto).
  assert (A2 : air (ch s2) = air (ch s)) by (destruct L2 as (_ & _ & _ & _ & _ & _ & ->); exact A1'). clear L2 E2 C1 A1' Q1' B1' S1' Q1 B1 S1 N1 T1'. clearbody t1.
  destruct (queueFrame_ok buf (ch s2) HF HL Q2) as (Q2' & R2 & X2 & _ & _ & A2').
  set (t2 := on (queueFrame buf) s2). assert (B2' : base t2 fs) by (unfold t2; rewrite on_const; apply base_ch; [exact B2|]; intros r Hr; apply R2; apply unmanaged in Hr; tauto).
  assert (C2' : configured (nth (Z.to_nat channel) (cfgs s) []) (regs (ch t2))) by (eapply configured_ext; [|exact C2]; intros r Hr; apply R2; apply unmanaged in Hr; tauto).
  assert (S2' : same s t2) by (eapply same_trans; [exact S2|apply same_on]). assert (T2' : todo t2 = tl (tl T)) by exact T2. change (quiet (ch t2)) in Q2'. change (txf (ch t2) = buf) in X2. assert (A2'' : air (ch t2) = air (ch s)) by (etransitivity; [exact A2'|exact A2]).
  clearbody t2. clear R2 A2' A2 C2 S2 B2 Q2 T2 s2.
  destruct (point_later t2 Q2') as (s3 & E3 & L3 & T3 & _). rewrite E3. cbn [bind]. rewrite T2' in T3.
  destruct (point_later s3) as (s4 & E4 & L4 & T4 & _); [apply L3|]. rewrite E4. cbn [bind]. rewrite T3 in T4. cbv zeta.
  assert (L : later t2 s4) by (eapply later_trans; eassumption). assert (M3 : regs (ch s4) 48 = regs (ch s3) 48) by (destruct L4 as (_ & _ & R & _); apply R; discriminate). rewrite <- M3. clear L3 L4 E3 E4 M3 T3.
  pose proof (base_later _ _ _ B2' L) as B4. assert (Q4 : quiet (ch s4)) by apply L. assert (S4 : same s s4) by (eapply same_trans; [exact S2'|apply same_later; exact L]).
  assert (C4 : configured (nth (Z.to_nat channel) (cfgs s) []) (regs (ch s4))) by (destruct L as (_ & _ & R & _); eapply configured_ext; [|exact C2']; intros r Hr; apply R; apply unmanaged in Hr; tauto).
  assert (A4 : air (ch s4) = air (ch s)) by (destruct L as (_ & _ & _ & _ & _ & _ & ->); exact A2''). assert (X4 : txf (ch s4) = buf) by (destruct L as (_ & _ & _ & _ & -> & _); exact X2). clear L.
  set (s5 := if bit (regs (ch s4) 48) 3 then on (wreg 62 (Zlen buf)) s4 else s4).
  assert (P5 : base s5 fs /\ quiet (ch s5) /\ same s s5 /\ configured (nth (Z.to_nat channel) (cfgs s) []) (regs (ch s5)) /\ air (ch s5) = air (ch s) /\ txf (ch s5) = buf /\ todo s5 = tl (tl (tl (tl T))) /\ (bit (regs (ch s5) 48) 3 = true -> regs (ch s5) 62 = Zlen buf)).
  { unfold s5. destruct (bit (regs (ch s4) 48) 3) eqn:E48; [|rewrite E48; repeat (split; [assumption|]); discriminate].
    assert (EX : forall r, managed r = false -> regs (wreg 62 (Zlen buf) (ch s4)) r = regs (ch s4) r) by (intros r Hr; rewrite w62; cbn [set_regs regs]; apply unmanaged in Hr; apply upd_other; tauto).
    split; [rewrite on_const; apply base_ch; [exact B4|exact EX]|]. split; [|split; [eapply same_trans; [exact S4|apply same_on]|]; split; [eapply configured_ext; [exact EX|exact C4]|]; split; [exact A4|]; split; [exact X4|]; split; [exact T4|]; intros _; apply upd_same].
    cbn [on ch]. rewrite w62. destruct Q4 as (q1 & q2 & q3 & q4 & q5 & q6). unfold quiet. cbn [set_regs regs st1]. rewrite !upd_other by discriminate. auto 8. }
  clearbody s5. destruct P5 as (B5 & Q5 & S5 & C5 & A5 & X5 & T5 & P5). clear B4 Q4 S4 C4 A4 X4 T4 Q2' B2' S2' C2' A2'' X2 T2' t2.
  destruct (point_later s5 Q5) as (s6 & E6 & L6 & T6 & _). rewrite E6. cbn [bind]. rewrite T5, skip_tl in T6. pose proof (base_later _ _ _ B5 L6) as B6. assert (Q6 : quiet (ch s6)) by apply L6.
  assert (S6 : same s s6) by (eapply same_trans; [exact S5|apply same_later; exact L6]). destruct L6 as (_ & _ & R6 & _ & X6 & _ & A6). rewrite A5 in A6. rewrite X5 in X6.
  assert (C6 : configured (nth (Z.to_nat channel) (cfgs s) []) (regs (ch s6))) by (eapply configured_ext; [|exact C5]; intros r Hr; apply R6; apply unmanaged in Hr; tauto).
  assert (P6 : payload (ch s6) = buf) by (apply payload_buf; [exact X6|rewrite !R6 by discriminate; exact P5]).
  assert (P6' : bit (regs (ch s6) 48) 3 = true -> regs (ch s6) 62 = Zlen buf) by (rewrite !R6 by discriminate; exact P5). clear E6 R6 P5 T5 A5 X5 C5 S5 Q5 B5 s5 s3 s4 s1 t1.
  destruct (txFIFO_ok s6 fs B6 Q6) as (s7 & g & E7 & B7 & Q7 & S7 & _ & T7 & X7 & R7 & A7 & G7). rewrite E7. cbn [bind]. rewrite T6 in T7 |- *. rewrite P6, A6 in A7.
  destruct (confirm 1000 (skipn 5 T)) as [r1 l1]. cbn [fst snd] in T7 |- *.
  assert (CG : configured (nth (Z.to_nat channel) (cfgs s) []) g) by (eapply configured_ext; [exact G7|exact C6]).
  destruct (point_later s7 Q7) as (s8 & E8 & L8 & T8 & _). rewrite E8. cbn [bind]. rewrite T7 in T8. pose proof (base_later _ _ _ B7 L8) as B8. assert (Q8 : quiet (ch s8)) by apply L8.
  assert (S8 : same s s8) by (eapply same_trans; [exact S6|eapply same_trans; [exact S7|apply same_later; exact L8]]). destruct L8 as (_ & _ & R8 & _ & X8 & _ & A8).
  destruct (4 <=? power).
  - destruct (txFIFO_ok s8 fs B8 Q8) as (s9 & g2 & E9 & B9 & Q9 & S9 & _ & T9 & X9 & R9 & A9 & G9). rewrite E9. cbn [bind]. rewrite T8.
    assert (P8 : payload (ch s8) = buf) by (apply payload_buf; [rewrite X8, X7; exact X6|rewrite !R8, !R7 by discriminate; exact P6']). rewrite P8, A8, A7, <- app_assoc in A9.
    assert (CG2 : configured (nth (Z.to_nat channel) (cfgs s) []) g2) by (eapply configured_ext; [|exact C6]; intros r Hr; rewrite G9 by exact Hr; apply unmanaged in Hr; rewrite R8, R7 by tauto; reflexivity).
    destruct (dolisten_ok s9 fs B9) as (s10 & E10 & G10 & S10 & V10 & A10). rewrite E10. cbn [bind]. exists s10, [(g, buf); (g2, buf)].
    split; [reflexivity|]. split; [exact G10|]. split; [eapply same_trans; [exact S8|eapply same_trans; [exact S9|exact S10]]|]. split; [exact V10|]. split; [rewrite A10; exact A9|]. split; [reflexivity|]. repeat (constructor; [assumption|]). constructor.
  - cbn [bind]. destruct (dolisten_ok s8 fs B8) as (s10 & E10 & G10 & S10 & V10 & A10). rewrite E10. cbn [bind]. exists s10, [(g, buf)].
    split; [reflexivity|]. split; [exact G10|]. split; [eapply same_trans; [exact S8|exact S10]|]. split; [exact V10|]. split; [rewrite A10, A8; exact A7|]. split; [reflexivity|]. repeat (constructor; [assumption|]). constructor.
Qed.
