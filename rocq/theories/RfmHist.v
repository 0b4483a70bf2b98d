(** The RFM23B link: frames arriving, listening, whole histories. *)
From Verif Require Import Base RxQueueModel RxQueueProps RfmModel RfmProps RfmLink RfmRx RfmPoll.

(** The length of a frame: with the packet handler as received or, in fixed-length mode, as set; else all 64 bytes. *)
Definition frameLen (c : chip) (len : Z) : Z :=
  if bit (regs c 48) 7 then (if bit (regs c 51) 3 then regs c 62 else len) else 64.
(** C128: with an interrupt line, whenever the link is listening and a frame comes (no overflow being pending), it is
    at once queued, filtered out, or dropped for want of room, as [fate] says, and the link is receiving again. *)
Theorem rfm_frame_arrives : forall s fs e len d, good s fs -> env_ok e -> hasIRQ s = true -> lis s <> -1 -> e_rx e = Some (len, d) ->
  (bit (regs (ch s) 48) 7 = false -> bit (st1 (ch s)) 7 = false) ->
  exists s' fs', outside e s = Some s' /\ good s' fs' /\ kept s s' /\ live s' /\
    seen s' = seen s ++ fate d (frameLen (ch s) len) (frameLen (ch s) len <=? 64) s.
Proof.
  intros s fs e len d HG HE HI HL He HO. pose proof (g_on _ _ HG HL) as (HC & H6 & H5 & HF & HD). pose proof (g_irq _ _ HG HI HL) as HQ.
  assert (H7 : regs (ch s) 7 = 5).
  { destruct HD as [[HD _] | (D1 & D2 & _)]; [exact HD|]. exfalso. unfold irq in HQ. rewrite H5 in HQ. unfold enables in HQ. rewrite D1 in HQ. apply orb_false_iff in HQ as [HQ _]. apply negb_false_iff, Z.eqb_eq in HQ.
    assert (ET : bit (Z.land (st1 (ch s)) 2) 1 = false) by (rewrite HQ; reflexivity). rewrite Z.land_spec, D2 in ET. discriminate. }
  set (c1 := happen e (ch s)).
  assert (E1 : c1 = if bit (regs (ch s) 48) 7 then Chip (upd (upd (regs (ch s)) 75 len) 7 (Z.land (regs (ch s) 7) (-5))) (Z.lor (Z.lor (st1 (ch s)) (Z.land (e_st1 e) 104)) 2) (Z.lor (st2 (ch s)) (e_st2 e)) d (txf (ch s)) (por (ch s)) (air (ch s))
                  else Chip (regs (ch s)) (Z.lor (Z.lor (st1 (ch s)) (Z.land (e_st1 e) 104)) 16) (Z.lor (st2 (ch s)) (e_st2 e)) d (txf (ch s)) (por (ch s)) (air (ch s))).
  { unfold c1, happen. cbv zeta. rewrite H7, He. reflexivity. }
  assert (R48 : regs c1 48 = regs (ch s) 48) by (apply happen_regs; discriminate). assert (R51 : regs c1 51 = regs (ch s) 51) by (apply happen_regs; discriminate). assert (R62 : regs c1 62 = regs (ch s) 62) by (apply happen_regs; discriminate). assert (R5 : regs c1 5 = enables (ch s)) by (rewrite <- H5; apply happen_regs; discriminate).
  apply Z.eqb_neq in HL as HL'.
  assert (P : irq c1 = true /\ handled (on (happen e) s) = true /\ found (on (happen e) s) = fate d (frameLen (ch s) len) (frameLen (ch s) len <=? 64) s).
  { unfold handled, found, frameLen, irq. cbn [on ch lis]. fold c1. rewrite HL', R48, R51, R62, R5. unfold enables. cbn [negb andb].
    destruct (bit (regs (ch s) 48) 7) eqn:E48; rewrite E1; cbn [st1 st2 regs rxf].
    - assert (B1 : bit (Z.lor (Z.lor (st1 (ch s)) (Z.land (e_st1 e) 104)) 2) 1 = true) by (rewrite Z.lor_spec; apply orb_true_r). rewrite B1. split; [|split; [reflexivity|]].
      + apply orb_true_iff. left. apply negb_true_iff, Z.eqb_neq. intros HX. apply (f_equal (fun x => bit x 1)) in HX. rewrite Z.land_spec, B1 in HX. discriminate.
      + cbv zeta. rewrite upd_other, upd_same by discriminate. reflexivity.
    - assert (B4 : bit (Z.lor (Z.lor (st1 (ch s)) (Z.land (e_st1 e) 104)) 16) 4 = true) by (rewrite Z.lor_spec; apply orb_true_r).
      assert (B7 : bit (Z.lor (Z.lor (st1 (ch s)) (Z.land (e_st1 e) 104)) 16) 7 = false) by (rewrite Z.lor_spec, bits104, HO by reflexivity; reflexivity). rewrite B4, B7. split; [|split; reflexivity].
      apply orb_true_iff. left. apply negb_true_iff, Z.eqb_neq. intros HX. apply (f_equal (fun x => bit x 4)) in HX. rewrite Z.land_spec, B4 in HX. discriminate. }
  destruct P as (P1 & P2 & P3). destruct (outside_ok e s fs HE HG) as (s' & fs' & E & G & K & S & _ & V). exists s', fs'. split; [exact E|]. split; [exact G|]. split; [exact K|]. split; [apply V; assumption|]. rewrite <- P3. apply S; assumption.
Qed.

(** ** Listening *)
(** The channel listened to afterwards. *)
Definition target (active : bool) (channel n : Z) : Z := if active && (0 <=? channel) then Z.min channel (n - 1) else -1.
Lemma found_len s : Zlen (found s) <= 1.
Proof.
  assert (H : forall d len room t, Zlen (fate d len room t) <= 1).
  { intros. unfold fate. destruct (negb room || isFull QC (sq (qs t))); [cbv; discriminate|]. destruct (match filt t with Some f => f d len | None => (true, len) end) as [[] l]; [destruct (l =? 0)|]; unfold Zlen; cbn [length]; lia. }
  unfold found. destruct (lis s =? -1); [cbv; discriminate|]. destruct (bit (regs (ch s) 48) 7); [destruct (bit (st1 (ch s)) 1); [apply H|cbv; discriminate]|].
  destruct (bit (st1 (ch s)) 7); [cbv; discriminate|]. destruct (bit (st1 (ch s)) 4); [apply H|cbv; discriminate].
Qed.
Lemma good_todo s fs t : good s fs -> good (set_todo t s) fs.
Proof. intros [HB HF HO HN HI]. constructor; try assumption. apply base_todo. exact HB. Qed.
Lemma set_lis_same s : set_lis (lis s) s = s. Proof. destruct s; reflexivity. Qed.
(** Switching reception to [new], one interrupt perhaps coming in between. *)
Lemma point_lis new s fs : good s fs -> Forall env_ok (todo s) -> new = -1 \/ 0 <= new < nCh s ->
  exists s1 fs1 o, point (set_lis new s) = Some s1 /\ base s1 fs1 /\ kept (set_lis new s) s1 /\ seen s1 = seen s ++ o /\ Zlen o <= 1 /\ (new = lis s -> good s1 fs1).
Proof.
  intros HG HT HN. pose proof (base_lis s fs new (g_base _ _ HG) HN) as HB.
  destruct (Z.eq_dec new (lis s)) as [EN | EN].
  { subst new. rewrite set_lis_same in *. unfold point. destruct (todo s) as [|e r] eqn:ET.
    - exists s, fs, []. rewrite app_nil_r. split; [reflexivity|]. split; [exact HB|]. split; [repeat split; reflexivity|]. split; [reflexivity|]. split; [cbv; discriminate|]. intros _. exact HG.
    - inversion HT as [|? ? HE _]; subst. destruct (outside_ok e (set_todo r s) fs HE (good_todo _ _ _ HG)) as (s' & fs' & E & G & K & S1 & S2 & _).
      destruct (hasIRQ (set_todo r s) && irq (happen e (ch (set_todo r s)))) eqn:EI.
      + apply andb_true_iff in EI as [E1 E2]. destruct (S1 E1 E2) as [S _]. exists s', fs', (found (on (happen e) (set_todo r s))). split; [exact E|]. split; [apply G|]. split; [exact K|]. split; [exact S|]. split; [apply found_len|]. intros _. exact G.
      + specialize (S2 eq_refl). exists s', fs', []. rewrite app_nil_r. split; [exact E|]. split; [apply G|]. split; [exact K|]. split; [rewrite S2; reflexivity|]. split; [cbv; discriminate|]. intros _. exact G. }
  destruct (Z.eq_dec (lis s) (-1)) as [EL | EL].
  - destruct (point_later (set_lis new s) (g_off _ _ HG EL)) as (s1 & E1 & L1 & _ & _). exists s1, fs, []. rewrite app_nil_r. split; [exact E1|]. split; [eapply base_later; eassumption|].
    destruct L1 as (A1 & _ & _ & _ & _ & _ & A7). split; [rewrite A1; repeat split; exact A7|]. split; [rewrite A1; reflexivity|]. split; [cbv; discriminate|contradiction].
  - unfold point. change (todo (set_lis new s)) with (todo s). destruct (todo s) as [|e r] eqn:ET.
    + exists (set_lis new s), fs, []. rewrite app_nil_r. split; [reflexivity|]. split; [exact HB|]. split; [repeat split; reflexivity|]. split; [reflexivity|]. split; [cbv; discriminate|contradiction].
    + inversion HT as [|? ? HE _]; subst. set (t := set_todo r (set_lis new s)). assert (HBt : base t fs) by (apply base_todo; exact HB).
      assert (HR : ready (on (happen e) t)) by (apply ready_happen; [exact HE|]; exact (receiving_ready _ (g_on _ _ HG EL))).
      assert (HF : fifo64 (on (happen e) t)) by (apply fifo64_happen; [exact HE|]; exact (g_rxf _ _ HG)). pose proof (base_happen e t fs HBt) as HB1.
      assert (KK : kept (set_lis new s) (on (happen e) t)) by (repeat split; apply happen_air).
      unfold outside. cbv zeta. destruct (hasIRQ (on (happen e) t)) eqn:EH.
      * unfold poll. rewrite EH. cbn [andb]. destruct (irq (ch (on (happen e) t))); cbn [negb].
        -- destruct (poll0_ok (on (happen e) t) fs HB1 HF) as (s' & fs' & E & K & S & _ & H); [intros _; apply ready_len; exact HR|]. exists s', fs', (found (on (happen e) t)). split; [exact E|].
           split; [destruct (handled (on (happen e) t)); [apply H|]; destruct H as [-> ->]; destruct (lis (on (happen e) t) =? -1); [exact HB1|apply base_clear; exact HB1]|].
           split; [destruct K as (K1 & K2 & K3 & K4 & K5 & K6), KK as (L1 & L2 & L3 & L4 & L5 & L6); repeat split; congruence|]. split; [exact S|]. split; [apply found_len|contradiction].
        -- exists (on (happen e) t), fs, []. rewrite app_nil_r. split; [reflexivity|]. split; [exact HB1|]. split; [exact KK|]. split; [reflexivity|]. split; [cbv; discriminate|contradiction].
      * exists (on (happen e) t), fs, []. rewrite app_nil_r. split; [reflexivity|]. split; [exact HB1|]. split; [exact KK|]. split; [reflexivity|]. split; [cbv; discriminate|contradiction].
Qed.
(** C130: listen() from any state, whatever interrupts come meanwhile: the channel listened to is the one asked for, or the
    last there is, or none; the chip is receiving on it (and in any case if it was not before, afresh); nothing is sent;
    the queue's contents are kept. *)
Theorem rfm_listen_partial : forall s fs active channel, good s fs -> Forall env_ok (todo s) ->
  exists s' fs' o, listen active channel s = Some s' /\ good s' fs' /\ lis s' = target active channel (nCh s) /\
    cfgs s' = cfgs s /\ maxTyp s' = maxTyp s /\ filt s' = filt s /\ hasIRQ s' = hasIRQ s /\ air (ch s') = air (ch s) /\ seen s' = seen s ++ o /\ Zlen o <= 1 /\
    (lis s' <> lis s -> live s').
Proof.
  intros s fs active channel HG HT. unfold listen. cbv zeta. set (new := if negb active then -1 else _).
  assert (EN : new = target active channel (nCh s)).
  { unfold new, target. destruct active; cbn [negb andb]; [|reflexivity]. destruct (Z.leb_spec channel (-1)), (Z.leb_spec 0 channel), (Z.leb_spec (nCh s) channel); lia. }
  pose proof (b_cur _ _ (g_base _ _ HG)) as HC.
  assert (HN : new = -1 \/ 0 <= new < nCh s). { rewrite EN. unfold target. destruct active; cbn [andb]; [|left; reflexivity]. destruct (Z.leb_spec 0 channel); [right|left; reflexivity]. clear -HC H. lia. }
  clearbody new. destruct (point_lis new s fs HG HT HN) as (s1 & fs1 & o & E1 & B1 & (K1 & K2 & K3 & K4 & K5 & K6) & S1 & O1 & G1). rewrite E1. cbn [bind]. cbn [set_lis lis cfgs maxTyp filt hasIRQ ch] in K1, K2, K3, K4, K5, K6.
  destruct ((new =? -1) || negb (lis s =? new)) eqn:EB.
  - destruct (dolisten_ok s1 fs1 B1) as (s' & E' & G' & S' & V' & A'). pose proof (same_f _ _ S') as (_ & F2 & F3 & _ & _ & F6 & F7 & F8 & F9 & F10). exists s', fs1, o. split; [exact E'|]. split; [exact G'|].
    rewrite F2, F3, F7, F8, F9, F10, A', K1. do 7 (split; [congruence|]). split; [exact O1|]. intros _. exact V'.
  - apply orb_false_iff in EB as [_ EB]. apply negb_false_iff, Z.eqb_eq in EB. symmetry in EB. exists s1, fs1, o. split; [reflexivity|]. split; [apply G1; exact EB|].
    rewrite K1. do 7 (split; [congruence|]). split; [exact O1|]. intros HX. elim HX. rewrite <- EB. reflexivity.
Qed.

(** ** Whole histories *)
(** What can happen between calls, and the calls: [envs] happen during them. *)
Inductive act :=
| AOut (e : env)                                              (* something outside; the interrupt routine may run *)
| APoll
| ASend (buf : list Z) (channel power : Z) (envs : list env)
| AListen (active : bool) (channel : Z) (envs : list env)
| AMax (n : Z) | AErr | AFilt (f : option (list Z -> Z -> bool * Z))
| AQ (e : event).                                             (* a step of the application's reading of the queue *)
Definition perform (a : act) (s : link) : option link :=
  match a with
  | AOut e => outside e s
  | APoll => poll s
  | ASend buf channel power envs => do (_, s') <- sendRaw buf channel power (set_todo envs s) ; Some s'
  | AListen active channel envs => listen active channel (set_todo envs s)
  | AMax n => Some (setMaxTypicalFrameBytes n s)
  | AErr => Some (snd (getRXErr s))
  | AFilt f => Some (set_filt f s)
  | AQ e => do (q, os) <- step QC e (qs s) ; Some (see os (with_q q s))
  end.
Fixpoint history (l : list act) (s : link) : option link :=
  match l with [] => Some s | a :: l => do s1 <- perform a s ; history l s1 end.
Definition act_ok (n : Z) (a : act) : Prop :=
  match a with
  | AOut e => env_ok e
  | ASend buf channel _ _ => Forall byte buf /\ Zlen buf <= 64 /\ 0 <= channel < n
  | AListen _ _ envs => Forall env_ok envs
  | AFilt f => filter_ok f
  | AQ (EFrame _ _) => False
  | _ => True
  end.
Definition sentBy (a : act) : list (list Z) :=
  match a with ASend buf _ power _ => if 4 <=? power then [buf; buf] else [buf] | _ => [] end.
Lemma app_step e q q' os : (match e with EFrame _ _ => False | _ => True end) -> step QC e q = Some (q', os) -> num isDrop os = 0 /\ num isAban os = 0.
Proof.
  intros HE H. assert (HX : forall o : obs, isDrop o = false -> isAban o = false -> num isDrop [o] = 0 /\ num isAban [o] = 0) by (intros o A B; unfold num; cbn [List.filter]; rewrite A, B; split; reflexivity).
  assert (H0 : num isDrop [] = 0 /\ num isAban [] = 0) by (split; reflexivity).
  destruct e; [contradiction|..]; unfold step in H.
  - destruct (spc q); try destruct (isEmpty (sq q)); apply some_pair_inj in H as [_ <-]; try exact H0; apply HX; reflexivity.
  - destruct (spc q); apply some_pair_inj in H as [_ <-]; try exact H0; apply HX; reflexivity.
  - destruct (spc q) as [| |p|]; try (apply some_pair_inj in H as [_ <-]; exact H0). destruct (rd (vbuf (sq q)) (p - 1)) as [l|]; [|discriminate]. cbn [bind] in H. destruct ((0 <=? i) && (i <=? l)); [|apply some_pair_inj in H as [_ <-]; exact H0].
    destruct (rd (vbuf (sq q)) (p - 1 + i)) as [v|]; [|discriminate]. cbn [bind] in H. apply some_pair_inj in H as [_ <-]. apply HX; reflexivity.
  - destruct (spc q); try destruct (isEmpty (sq q)); apply some_pair_inj in H as [_ <-]; try exact H0; apply HX; reflexivity.
  - destruct (spc q); try (apply some_pair_inj in H as [_ <-]; exact H0). destruct (remove_body QC (sq q)) as [z|]; [|discriminate]. cbn [bind] in H. apply some_pair_inj in H as [_ <-]. apply HX; reflexivity.
  - apply some_pair_inj in H as [_ <-]. apply HX; reflexivity.
Qed.
Lemma good_upd s s' fs fs' : good s fs -> base s' fs' -> ch s' = ch s -> cur s' = cur s -> lis s' = lis s -> hasIRQ s' = hasIRQ s -> good s' fs'.
Proof. intros [HB HF HO HN HI] HB' E1 E2 E3 E4. constructor; unfold receiving in *; rewrite ?E1, ?E2, ?E3, ?E4; assumption. Qed.
Lemma perform_ok a s fs : good s fs -> act_ok (nCh s) a -> exists s' fs', perform a s = Some s' /\ good s' fs' /\ nCh s' = nCh s /\
  map snd (air (ch s')) = map snd (air (ch s)) ++ sentBy a.
Proof.
  intros HG HA. assert (KA : forall s', kept s s' -> nCh s' = nCh s /\ map snd (air (ch s')) = map snd (air (ch s)) ++ []) by (intros s' (_ & K2 & _ & _ & _ & K6); unfold nCh; rewrite K2, K6, app_nil_r; split; reflexivity).
  pose proof (g_base _ _ HG) as HB. destruct a as [e| |buf channel power envs|active channel envs|n| |f|e]; cbn [perform act_ok sentBy] in *.
  - destruct (outside_ok e s fs HA HG) as (s' & fs' & E & G & K & _). exists s', fs'. split; [exact E|]. split; [exact G|]. apply KA. exact K.
  - destruct (rfm_poll s fs HG) as (s' & fs' & E & G & K & _). exists s', fs'. split; [exact E|]. split; [exact G|]. apply KA. exact K.
  - destruct HA as (H1 & H2 & H3). destruct (rfm_send (set_todo envs s) fs buf channel power (good_todo _ _ _ HG) H1 H2 H3) as (s' & sent & E & G & S & _ & A & M & _). rewrite E. cbn [bind]. exists s', fs. split; [reflexivity|]. split; [exact G|].
    pose proof (same_f _ _ S) as (_ & _ & F3 & _). split; [unfold nCh; rewrite F3; reflexivity|]. rewrite A, map_app, M. reflexivity.
  - destruct (rfm_listen_partial (set_todo envs s) fs active channel (good_todo _ _ _ HG) HA) as (s' & fs' & o & E & G & _ & F3 & _ & _ & _ & A & _). exists s', fs'. split; [exact E|]. split; [exact G|]. rewrite app_nil_r, A. split; [unfold nCh; rewrite F3; reflexivity|reflexivity].
  - eexists _, fs. split; [reflexivity|]. split; [|rewrite app_nil_r; split; reflexivity]. apply (good_upd s _ fs); try reflexivity; [exact HG|]. destruct HB. constructor; try assumption. cbn [setMaxTypicalFrameBytes set_max maxTyp]. clear. lia.
  - eexists _, fs. split; [reflexivity|]. split; [|rewrite app_nil_r; split; reflexivity]. apply (good_upd s _ fs); try reflexivity; [exact HG|]. apply (base_err s fs 0 HB).
  - eexists _, fs. split; [reflexivity|]. split; [|rewrite app_nil_r; split; reflexivity]. apply (good_upd s _ fs); try reflexivity; [exact HG|]. destruct HB. constructor; try assumption.
  - assert (HE : match e with EFrame _ _ => False | _ => True end) by exact HA.
    destruct (step_ok QC e (qs s) fs QC_ok) as (q' & os & fs' & E & F & SI); [destruct e; [contradiction|exact I..]|apply HB|]. rewrite E. cbn [bind]. eexists _, fs'. split; [reflexivity|]. split; [|rewrite app_nil_r; split; reflexivity].
    apply (good_upd s _ fs); try reflexivity; [exact HG|]. destruct (app_step e _ _ _ HE E) as [N1 N2]. apply (base_qsee s fs fs' (ch s) q' os _ _ HB SI F); [reflexivity| |].
    + change (dropped s = (dropped s + num isDrop os) mod 256). rewrite N1, Z.add_0_r, (b_drop _ _ HB), Z.mod_mod by discriminate. reflexivity.
    + change (filtered s = (filtered s + num isAban os) mod 256). rewrite N2, Z.add_0_r, (b_aban _ _ HB), Z.mod_mod by discriminate. reflexivity.
Qed.
Lemma history_ok : forall l s fs, good s fs -> Forall (act_ok (nCh s)) l -> exists s' fs', history l s = Some s' /\ good s' fs' /\ map snd (air (ch s')) = map snd (air (ch s)) ++ flat_map sentBy l.
Proof.
  induction l as [|a l IH]; intros s fs HG HA.
  - exists s, fs. cbn [flat_map]. rewrite app_nil_r. split; [reflexivity|split; [exact HG|reflexivity]].
  - inversion HA as [|? ? H1 H2]; subst. destruct (perform_ok a s fs HG H1) as (s1 & fs1 & E1 & G1 & N1 & A1). cbn [history]. rewrite E1. cbn [bind]. rewrite <- N1 in H2.
    destruct (IH s1 fs1 G1 H2) as (s' & fs' & E & G & A). exists s', fs'. split; [exact E|]. split; [exact G|]. rewrite A, A1, <- app_assoc. reflexivity.
Qed.

(** ** Starting *)
Lemma wreg_regs r v c : pair_ok (r, v) -> (forall x, regs (wreg r v c) x = if x =? r then v else regs c x) /\ air (wreg r v c) = air c.
Proof.
  intros (Hr & _ & _ & _ & _ & H7 & _). unfold wreg. destruct (r =? 7) eqn:E7.
  - apply Z.eqb_eq in E7. subst r. destruct (H7 eq_refl) as (-> & -> & _). split; reflexivity.
  - destruct (r =? 8) eqn:E8; [apply Z.eqb_eq in E8; subst r; split; reflexivity|]. replace (r =? 127) with false by (clear -Hr; lia). split; reflexivity.
Qed.
Lemma writeBlock_regs b c : block_ok b -> (forall x, regs (writeBlock b c) x = match setting b x with Some v => v | None => regs c x end) /\ air (writeBlock b c) = air c.
Proof.
  intros HB. induction b as [|rv b IH] using rev_ind; [split; reflexivity|]. unfold block_ok in HB. apply Forall_app in HB as [HB H1]. inversion H1 as [|? ? Hrv _]; subst. destruct (IH HB) as [R A].
  rewrite writeBlock_snoc. destruct rv as [r v]. destruct (wreg_regs r v (writeBlock b c) Hrv) as [R' A']. split; [|etransitivity; [exact A'|exact A]]. intros x. rewrite setting_snoc. etransitivity; [apply R'|]. cbn [fst snd]. rewrite (Z.eqb_sym r x). destruct (x =? r); [reflexivity|apply R].
Qed.
(** A link as constructed and configured, with [junk] in its queue's buffer, on any chip, before begin(): OTRFM23BLink .h 379-398, 466. *)
Definition fresh (c : chip) (junk : list Z) (bs : list block) (f : option (list Z -> Z -> bool * Z)) (irqLine : bool) : link :=
  Link c (Sys (vq_init junk) Idle) 0 (-1) bs 0 0 0 63 f irqLine [] [].
Lemma begin_ok c junk bs f i : Zlen junk = bufsiz QC -> Forall block_ok bs -> 1 <= Zlen bs <= 127 -> filter_ok f -> regs c 0 = 8 -> regs c 1 = 6 ->
  exists s, begin (fresh c junk bs f i) = (true, s) /\ good s [] /\ nCh s = Zlen bs /\ air (ch s) = air c.
Proof.
  intros HJ HB HN HF H0 H1. unfold begin. cbn [fresh ch]. rewrite H0, H1. cbn [Z.eqb Pos.eqb andb]. eexists. split; [reflexivity|].
  set (b := nth 0 bs []). assert (Hb : block_ok b) by (rewrite Forall_forall in HB; apply HB; apply nth_In; unfold Zlen in HN; lia).
  destruct (writeBlock_regs b c Hb) as [R A]. change (nth 0 (cfgs (fresh c junk bs f i)) []) with b. split; [|split; [reflexivity|cbn [on ch fresh]; rewrite standbyClear_eq; exact A]].
  apply quiet_good; [|apply standbyClear_quiet|reflexivity|cbn [on ch]; rewrite standbyClear_eq; apply zeros64].
  constructor; cbn [on fresh qs seen cfgs cur ch filt maxTyp dropped filtered lis]; try assumption; try reflexivity.
  - split; [apply inv_init; [exact QC_ok|exact HJ]|exact I].
  - apply HN.
  - change (0 <= 0 < Zlen bs). clear -HN. lia.
  - intros r v Hr Hs. apply unmanaged in Hr. cbn [on ch fresh]. rewrite standby_regs by tauto. rewrite R. unfold b. change (Z.to_nat 0) with 0%nat in Hs. rewrite Hs. reflexivity.
  - lia.
  - left. reflexivity.
Qed.
(** C128: the whole link.  A chip that is there, up to 127 sensible configurations, any filter that does not lengthen
    frames; then any history of things happening outside, polling, sending (frames that fit, on channels that
    exist), listening, and reading the queue, interrupts coming wherever they can: nothing is accessed outside the queue's
    buffer; what the application gets from the queue is what was put there, in order, each once; both
    counters count; exactly the frames sent are on the air; and when listening the chip is receiving
    on that channel, or holds a packet to be polled for. *)
Theorem rfm_link_partial : forall c junk bs f irqLine l, Zlen junk = bufsiz QC -> Forall block_ok bs -> 1 <= Zlen bs <= 127 -> filter_ok f ->
  regs c 0 = 8 -> regs c 1 = 6 -> air c = [] -> Forall (act_ok (Zlen bs)) l ->
  exists s0 s, begin (fresh c junk bs f irqLine) = (true, s0) /\ history l s0 = Some s /\
    (exists left, fifo [] (seen s) = Some left /\ count (sq (qs s)) = Zlen left) /\
    dropped s = num isDrop (seen s) mod 256 /\ filtered s = num isAban (seen s) mod 256 /\
    map snd (air (ch s)) = flat_map sentBy l /\
    (lis s = -1 \/ 0 <= lis s < Zlen (cfgs s) /\ configured (nth (Z.to_nat (lis s)) (cfgs s) []) (regs (ch s)) /\
       (regs (ch s) 7 = 5 \/ hasIRQ s = false /\ bit (st1 (ch s)) 1 = true)).
Proof.
  intros c junk bs f i l HJ HB HN HF H0 H1 HA HL. destruct (begin_ok c junk bs f i HJ HB HN HF H0 H1) as (s0 & E0 & G0 & N0 & A0). rewrite <- N0 in HL.
  destruct (history_ok l s0 [] G0 HL) as (s & fs & E & G & A). exists s0, s. split; [exact E0|]. split; [exact E|]. pose proof (g_base _ _ G) as [].
  split; [exists fs; split; [exact b_seen|apply b_q]|]. split; [exact b_drop|]. split; [exact b_aban|]. split; [rewrite A, A0, HA; reflexivity|].
  destruct (Z.eq_dec (lis s) (-1)) as [EL | EL]; [left; exact EL|right]. destruct (g_on _ _ G EL) as (HC & H6 & H5 & HX & HD). rewrite HC in b_conf. split; [rewrite <- HC; exact b_cur|]. split; [exact b_conf|].
  destruct HD as [[HD _] | (D1 & D2 & _)]; [left; exact HD|right]. split; [|exact D2]. destruct (hasIRQ s) eqn:EI; [|reflexivity]. exfalso. pose proof (g_irq _ _ G EI EL) as HQ.
  unfold irq in HQ. rewrite H5 in HQ. unfold enables in HQ. rewrite D1 in HQ. apply orb_false_iff in HQ as [HQ _]. apply negb_false_iff, Z.eqb_eq in HQ.
  assert (ET : bit (Z.land (st1 (ch s)) 2) 1 = false) by (rewrite HQ; reflexivity). rewrite Z.land_spec, D2 in ET. discriminate.
Qed.
