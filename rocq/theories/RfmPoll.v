(** The RFM23B link: polling, interrupts, listening. *)
From Verif Require Import Base RxQueueModel RxQueueProps RfmModel RfmProps RfmLink RfmRx.

(** ** Looking at the chip *)
(** As [receiving], but perhaps no longer on the right channel. *)
Definition ready (s : link) : Prop :=
  regs (ch s) 6 = 0 /\ regs (ch s) 5 = enables (ch s) /\ (fixedp (ch s) = true -> 1 <= regs (ch s) 62 <= 63) /\
  ((regs (ch s) 7 = 5 /\ (bit (regs (ch s) 48) 7 = true -> bit (st1 (ch s)) 1 = false)) \/ (bit (regs (ch s) 48) 7 = true /\ bit (st1 (ch s)) 1 = true /\ regs (ch s) 7 = 1 /\ byte (regs (ch s) 75))).
Definition fifo64 (s : link) : Prop := Zlen (rxf (ch s)) = 64 /\ Forall byte (rxf (ch s)).
(** In packet mode the packet's length has been received. *)
Definition len_ok (s : link) : Prop := bit (regs (ch s) 48) 7 = true -> bit (st1 (ch s)) 1 = true -> bit (regs (ch s) 51) 3 = false -> byte (regs (ch s) 75).
(** There is something to deal with. *)
Definition handled (s : link) : bool :=
  negb (lis s =? -1) && (if bit (regs (ch s) 48) 7 then bit (st1 (ch s)) 1 else bit (st1 (ch s)) 7 || bit (st1 (ch s)) 4).
(** Without packet handler, an overflow. *)
Definition overflowed (s : link) : bool := negb (lis s =? -1) && negb (bit (regs (ch s) 48) 7) && bit (st1 (ch s)) 7.

Lemma base_clear s fs : base s fs -> base (on clearst s) fs.
Proof. intros H. rewrite on_const. apply base_ch; [exact H|]. reflexivity. Qed.
Lemma base_err s fs e : base s fs -> base (set_err e s) fs.
Proof. intros []. constructor; assumption. Qed.
Lemma base_lis s fs l : base s fs -> l = -1 \/ 0 <= l < nCh s -> base (set_lis l s) fs.
Proof. intros [] H. constructor; try assumption. Qed.
Definition errAfter (s : link) : Z := if overflowed s then 2 else if num isDrop (found s) =? 0 then err s else 4.
Lemma poll0_ok s fs : base s fs -> fifo64 s -> (lis s <> -1 -> (fixedp (ch s) = true -> 1 <= regs (ch s) 62 <= 63) /\ len_ok s) ->
  exists s' fs', poll0 s = Some s' /\ kept s s' /\ seen s' = seen s ++ found s /\ err s' = errAfter s /\
    (if handled s then good s' fs' /\ live s' else s' = (if lis s =? -1 then s else on clearst s) /\ fs' = fs).
Proof.
  intros HB [H64 HBy] HR. unfold poll0, handled, found, errAfter, overflowed, found. destruct (lis s =? -1) eqn:EL.
  - exists s, fs. split; [reflexivity|]. cbn [negb andb]. change (num isDrop []) with 0. cbn [Z.eqb]. rewrite app_nil_r. repeat split; reflexivity.
  - cbv zeta. apply Z.eqb_neq in EL. destruct (HR EL) as [HF HL]. cbn [negb andb]. cbn [on ch clearst regs st1 rxf].
    pose proof (base_clear _ _ HB) as HB1.
    assert (HK : kept s (on clearst s)) by (repeat split; reflexivity).
    assert (HI : forall x, kept (on clearst s) x -> kept s x) by (intros x (A1 & A2 & A3 & A4 & A5 & A6); repeat split; assumption).
    destruct (bit (regs (ch s) 48) 7) eqn:E48.
    + cbn [andb negb]. destruct (bit (st1 (ch s)) 1) eqn:E1.
      * set (len := if bit (regs (ch s) 51) 3 then regs (ch s) 62 else regs (ch s) 75).
        assert (Hlen : 0 <= len). { unfold len. destruct (bit (regs (ch s) 51) 3) eqn:E51; [|apply HL; assumption]. unfold fixedp in HF. rewrite E48, E51 in HF. specialize (HF eq_refl). clear -HF. lia. }
        destruct (rxFrame_ok (on clearst s) fs len (len <=? 64) HB1 H64 HBy) as (s' & fs' & E' & G & K & V & S & R); [intros HX; clear -HX Hlen; lia|].
        exists s', fs'. split; [exact E'|]. split; [apply HI; exact K|]. split; [exact S|]. split; [exact R|split; [exact G|exact V]].
      * exists (on clearst s), fs. split; [reflexivity|]. split; [exact HK|]. change (num isDrop []) with 0. cbn [Z.eqb]. rewrite app_nil_r. repeat split; reflexivity.
    + cbn [andb negb]. destruct (bit (st1 (ch s)) 7) eqn:E7; cbn [orb].
      * destruct (dolistenA_ok (set_err 2 (on clearst s)) fs) as (G & S & V & A); [apply base_err; exact HB1|]. pose proof (same_f _ _ S) as (_ & F2 & F3 & _ & _ & F6 & F7 & F8 & F9 & F10).
        eexists _, fs. split; [reflexivity|]. split; [repeat split; assumption|]. rewrite app_nil_r. split; [exact F10|]. split; [exact F6|split; [exact G|exact V]].
      * destruct (bit (st1 (ch s)) 4) eqn:E4.
        -- destruct (rxFrame_ok (on clearst s) fs 64 true HB1 H64 HBy) as (s' & fs' & E' & G & K & V & S & R); [intros _; lia|].
           exists s', fs'. split; [exact E'|]. split; [apply HI; exact K|]. split; [exact S|]. split; [exact R|split; [exact G|exact V]].
        -- exists (on clearst s), fs. split; [reflexivity|]. split; [exact HK|]. change (num isDrop []) with 0. cbn [Z.eqb]. rewrite app_nil_r. repeat split; reflexivity.
Qed.
(** [good] but for the interrupt line. *)
Record near (s : link) (fs : list (list Z)) : Prop := Near {
  n_base : base s fs; n_rxf : fifo64 s; n_off : lis s = -1 -> quiet (ch s); n_on : lis s <> -1 -> receiving s }.
Lemma good_near s fs : good s fs -> near s fs. Proof. intros []. constructor; assumption. Qed.
Lemma ready_len s : ready s -> (fixedp (ch s) = true -> 1 <= regs (ch s) 62 <= 63) /\ len_ok s.
Proof. intros (_ & _ & HF & [[_ H] | H]); (split; [exact HF|]). - intros A B. rewrite (H A) in B. discriminate. - intros _ _ _. apply H. Qed.
Lemma receiving_ready s : receiving s -> ready s. Proof. intros (_ & H). exact H. Qed.
Lemma clear_irq c : irq (clearst c) = false. Proof. reflexivity. Qed.
Lemma ready_clear s : ready s -> handled s = false -> lis s <> -1 -> ready (on clearst s).
Proof.
  intros (A & B & C & D) HH HL. unfold ready. cbn [on ch clearst regs st1]. split; [exact A|]. split; [exact B|]. split; [exact C|]. left.
  unfold handled in HH. apply Z.eqb_neq in HL. rewrite HL in HH. cbn [negb andb] in HH. split; [|reflexivity].
  destruct D as [[D _] | (D1 & D2 & _)]; [exact D|]. rewrite D1, D2 in HH. discriminate.
Qed.
(** A look at the chip. *)
Lemma poll0_near s fs : near s fs -> exists s' fs', poll0 s = Some s' /\ good s' fs' /\ kept s s' /\ seen s' = seen s ++ found s /\ err s' = errAfter s /\ (handled s = true -> live s').
Proof.
  intros [HB HF HO HN]. destruct (poll0_ok s fs HB HF) as (s' & fs' & E & K & S & R & H); [intros HL; apply ready_len, receiving_ready, HN, HL|].
  exists s', fs'. split; [exact E|]. destruct (handled s) eqn:EH.
  - destruct H as [G V]. split; [exact G|]. split; [exact K|]. split; [exact S|]. split; [exact R|]. intros _. exact V.
  - destruct H as [-> ->]. split; [|split; [exact K|]; split; [exact S|]; split; [exact R|discriminate]].
    destruct (lis s =? -1) eqn:EL.
    + apply Z.eqb_eq in EL. apply quiet_good; [exact HB|apply HO; exact EL|exact EL|exact HF].
    + apply Z.eqb_neq in EL. constructor; [apply base_clear; exact HB|exact HF|intros HX; elim EL; exact HX| |intros _ _; apply clear_irq].
      intros _. destruct (HN EL) as [HC HRd]. split; [exact HC|]. apply ready_clear; assumption.
Qed.
(** C128: polling, which may be done in any state, without and with interrupts: a frame found in the chip is dealt with as [fate] says. *)
Theorem rfm_poll : forall s fs, good s fs -> exists s' fs', poll s = Some s' /\ good s' fs' /\ kept s s' /\
  seen s' = seen s ++ (if hasIRQ s then [] else found s) /\ err s' = (if hasIRQ s then err s else errAfter s) /\ (hasIRQ s = false -> handled s = true -> live s').
Proof.
  intros s fs HG. unfold poll. destruct (hasIRQ s) eqn:EH.
  - cbn [andb]. destruct (irq (ch s)) eqn:EI; cbn [negb].
    + destruct (Z.eq_dec (lis s) (-1)) as [EL | EL].
      * unfold poll0. rewrite EL. cbn [Z.eqb Pos.eqb]. exists s, fs. rewrite app_nil_r. split; [reflexivity|]. split; [exact HG|]. split; [repeat split; reflexivity|]. repeat split; discriminate.
      * rewrite (g_irq _ _ HG EH EL) in EI. discriminate.
    + exists s, fs. rewrite app_nil_r. split; [reflexivity|]. split; [exact HG|]. split; [repeat split; reflexivity|]. repeat split; discriminate.
  - cbn [andb]. destruct (poll0_near s fs (good_near _ _ HG)) as (s' & fs' & E & G & K & S & R & V). exists s', fs'. repeat (split; [assumption|]). intros _. exact V.
Qed.

(** ** Something happens *)
Lemma happen_regs e c r : r <> 7 -> r <> 75 -> regs (happen e c) r = regs c r.
Proof.
  intros H7 H75. unfold happen. cbv zeta. destruct (bit (regs c 7) 2).
  - destruct (e_rx e) as [[len d]|]; [destruct (bit (regs c 48) 7)|]; cbn [regs]; rewrite ?upd_other by assumption; reflexivity.
  - destruct (bit (regs c 7) 3); [destruct (e_done e)|]; cbn [regs]; rewrite ?upd_other by assumption; reflexivity.
Qed.
Lemma happen_air e c : air (happen e c) = air c.
Proof. unfold happen. cbv zeta. destruct (bit (regs c 7) 2); [destruct (e_rx e) as [[len d]|]; [destruct (bit (regs c 48) 7)|]|destruct (bit (regs c 7) 3); [destruct (e_done e)|]]; reflexivity. Qed.
Lemma base_happen e s fs : base s fs -> base (on (happen e) s) fs.
Proof. intros H. rewrite on_const. apply base_ch; [exact H|]. intros r Hr. apply unmanaged in Hr. apply happen_regs; tauto. Qed.
Lemma fifo64_happen e s : env_ok e -> fifo64 s -> fifo64 (on (happen e) s).
Proof.
  intros HE HF. unfold fifo64, env_ok, happen in *. cbv zeta. cbn [on ch].
  destruct (bit (regs (ch s) 7) 2); [destruct (e_rx e) as [[len d]|]; [destruct (bit (regs (ch s) 48) 7)|]|destruct (bit (regs (ch s) 7) 3); [destruct (e_done e)|]]; cbn [rxf]; tauto.
Qed.
Lemma bits104 x y k : bit 104 k = false -> bit (Z.lor x (Z.land y 104)) k = bit x k.
Proof. intros H. rewrite Z.lor_spec, Z.land_spec, H, andb_false_r. apply orb_false_r. Qed.
Lemma ready_happen e s : env_ok e -> ready s -> ready (on (happen e) s).
Proof.
  intros HE (A & B & C & D). unfold ready. cbn [on ch]. unfold enables, fixedp. rewrite !(happen_regs e (ch s)) by discriminate. split; [exact A|]. split; [exact B|]. split; [exact C|].
  unfold happen. cbv zeta. destruct D as [[D1 D2] | (D1 & D2 & D3 & D4)].
  - rewrite D1. change (bit 5 2) with true. cbv iota. unfold env_ok in HE. destruct (e_rx e) as [[len d]|].
    + destruct HE as [HE _]. destruct (bit (regs (ch s) 48) 7) eqn:E48; cbn [regs st1].
      * right. split; [reflexivity|]. split; [rewrite Z.lor_spec; apply orb_true_r|]. rewrite upd_same, upd_other, upd_same by discriminate. split; [reflexivity|exact HE].
      * left. split; [exact D1|discriminate].
    + cbn [regs st1]. left. split; [exact D1|]. intros E48. rewrite E48, Z.lor_spec, bits104, (D2 E48), Z.land_spec by reflexivity. apply andb_false_r.
  - rewrite D3. change (bit 1 2) with false. change (bit 1 3) with false. cbv iota. cbn [regs st1]. right. rewrite bits104 by reflexivity. auto.
Qed.
Lemma near_happen e s fs : env_ok e -> near s fs -> near (on (happen e) s) fs.
Proof.
  intros HE [HB HF HO HN]. constructor; [apply base_happen; exact HB|apply fifo64_happen; assumption|intros HL; apply happen_quiet, HO, HL|].
  intros HL. destruct (HN HL) as [HC HR]. split; [exact HC|]. apply ready_happen; assumption.
Qed.
(** Everything that can happen outside, with the interrupt routine if there is one. *)
Lemma outside_ok e s fs : env_ok e -> good s fs -> exists s' fs', outside e s = Some s' /\ good s' fs' /\ kept s s' /\
  (hasIRQ s = true -> irq (happen e (ch s)) = true -> seen s' = seen s ++ found (on (happen e) s) /\ err s' = errAfter (on (happen e) s)) /\
  (hasIRQ s && irq (happen e (ch s)) = false -> s' = on (happen e) s) /\
  (hasIRQ s = true -> irq (happen e (ch s)) = true -> handled (on (happen e) s) = true -> live s').
Proof.
  intros HE HG. pose proof (near_happen e s fs HE (good_near _ _ HG)) as HN. unfold outside. cbv zeta. cbn [on hasIRQ].
  assert (KK : kept s (on (happen e) s)) by (repeat split; apply happen_air).
  destruct (hasIRQ s) eqn:EH.
  - unfold poll. cbn [on hasIRQ ch]. rewrite EH. cbn [andb]. destruct (irq (happen e (ch s))) eqn:EI; cbn [negb].
    + destruct (poll0_near _ _ HN) as (s' & fs' & E & G & K & S & R & V). exists s', fs'. split; [exact E|]. split; [exact G|].
      split; [destruct K as (K1 & K2 & K3 & K4 & K5 & K6), KK as (L1 & L2 & L3 & L4 & L5 & L6); repeat split; congruence|]. split; [intros _ _; split; [exact S|exact R]|]. split; [discriminate|intros _ _; exact V].
    + exists (on (happen e) s), fs. split; [reflexivity|]. split; [destruct HN; constructor; [assumption..|intros _ _; exact EI]|]. split; [exact KK|]. split; [discriminate|]. split; [reflexivity|].
      discriminate.
  - exists (on (happen e) s), fs. split; [reflexivity|]. split; [destruct HN; constructor; [assumption..|cbn [on hasIRQ]; rewrite EH; discriminate]|]. split; [exact KK|]. split; [discriminate|]. split; [reflexivity|discriminate].
Qed.
