(** The RFM23B link: receiving, and histories. *)
From Verif Require Import Base RxQueueModel RxQueueProps RfmModel RfmProps RfmLink.

(** ** Specification of what becomes of a frame *)
(** [d] what is in the chip, [len] its stated length. *)
Definition fate (d : list Z) (len : Z) (room : bool) (s : link) : list obs :=
  if negb room || isFull QC (sq (qs s)) then [ODropped]
  else match match filt s with Some f => f d len | None => (true, len) end with
       | (true, l) => if l =? 0 then [] else [OQueued (firstn (Z.to_nat l) d)]
       | (false, _) => [OAbandoned]
       end.
(** What a look at the chip finds: without packet handler overflow (nothing usable) or a full FIFO. *)
Definition found (s : link) : list obs :=
  let c := ch s in
  if lis s =? -1 then []
  else if bit (regs c 48) 7 then
    (if bit (st1 c) 1 then let len := if bit (regs c 51) 3 then regs c 62 else regs c 75 in fate (rxf c) len (len <=? 64) s else [])
  else if bit (st1 c) 7 then [] else if bit (st1 c) 4 then fate (rxf c) 64 true s else [].

Lemma rx_regs n c r : r <> 5 -> r <> 6 -> r <> 7 -> r <> 8 -> regs (snd (rxFIFO n c)) r = regs c r.
Proof. intros. unfold rxFIFO. rewrite w7_0, w8_30, w5, w6. unfold set_regs, clearst. cbn [snd regs]. rewrite !upd_other by assumption. reflexivity. Qed.
Lemma rx_air n c : air (snd (rxFIFO n c)) = air c.
Proof. unfold rxFIFO. rewrite w7_0, w8_30, w5, w6. reflexivity. Qed.
Lemma rx_data c : Zlen (rxf c) = 64 -> fst (rxFIFO 64 c) = rxf c.
Proof. intros H. unfold rxFIFO. rewrite w7_0. cbn [fst set_regs rxf]. apply firstn_all2. unfold Zlen in H. lia. Qed.
Lemma num_app p a b : num p (a ++ b) = num p a + num p b.
Proof. unfold num. rewrite filter_app, Zlen_app. reflexivity. Qed.
Lemma mod_add a b : (a mod 256 + b) mod 256 = (a + b) mod 256. Proof. apply Z.add_mod_idemp_l. lia. Qed.
Lemma QC_ok : cfg_ok QC. Proof. unfold cfg_ok, QC. cbn [maxRX target]. lia. Qed.
(** Fields other than the chip, queue, counters, error and observations are as before. *)
Definition kept (s s' : link) : Prop := lis s' = lis s /\ cfgs s' = cfgs s /\ maxTyp s' = maxTyp s /\ filt s' = filt s /\ hasIRQ s' = hasIRQ s /\ air (ch s') = air (ch s).
Lemma base_qsee s fs fs' c q o ndrop nfilt : base s fs -> sinv QC q fs' -> fifo fs o = Some fs' -> (forall r, managed r = false -> regs c r = regs (ch s) r) ->
  ndrop = (dropped s + num isDrop o) mod 256 -> nfilt = (filtered s + num isAban o) mod 256 -> forall e,
  base (Link c q (cur s) (lis s) (cfgs s) ndrop nfilt e (maxTyp s) (filt s) (hasIRQ s) (todo s) (seen s ++ o)) fs'.
Proof.
  intros [] HQ HF HR -> -> e. constructor; cbn [qs seen cfgs cur ch filt maxTyp dropped filtered lis]; try assumption.
  - rewrite (fifo_app _ _ _ _ b_seen). exact HF.
  - eapply configured_ext; eassumption.
  - rewrite b_drop, num_app. apply mod_add.
  - rewrite b_aban, num_app. apply mod_add.
Qed.
Lemma inv_sinv q q' p fs fs' : sinv QC (Sys q p) fs -> inv QC q' fs' -> oldest q' = oldest q -> (exists x, fs' = fs ++ x) -> sinv QC (Sys q' p) fs'.
Proof.
  intros [_ HP] HI HO [x ->]. split; [exact HI|]. cbn [spc sq] in *. destruct p; auto.
  - destruct fs; [contradiction|discriminate].
  - destruct HP as [HP ->]. rewrite HO. split; [destruct fs; [contradiction|discriminate]|reflexivity].
  - destruct fs; [contradiction|discriminate].
Qed.
Lemma rxFrame_ok s fs len room : base s fs -> Zlen (rxf (ch s)) = 64 -> Forall byte (rxf (ch s)) -> (room = true -> 0 <= len <= 64) ->
  exists s' fs', rxFrame len room s = Some s' /\ good s' fs' /\ kept s s' /\ live s' /\ seen s' = seen s ++ fate (rxf (ch s)) len room s /\
    err s' = (if num isDrop (fate (rxf (ch s)) len room s) =? 0 then err s else 4).
Proof.
  intros HB H64 HBy HL. unfold rxFrame, fate. assert (HS : sinv QC (qs s) fs) by apply HB. destruct (qs s) as [q p] eqn:Eq. cbn [sq spc] in *.
  pose proof (proj1 HS) as HI. cbn [sq] in HI.
  assert (HF : forall c q' o ndrop nfilt e fs', base (Link c (Sys q' p) (cur s) (lis s) (cfgs s) ndrop nfilt e (maxTyp s) (filt s) (hasIRQ s) (todo s) (seen s ++ o)) fs' -> air c = air (ch s) ->
     let s1 := Link c (Sys q' p) (cur s) (lis s) (cfgs s) ndrop nfilt e (maxTyp s) (filt s) (hasIRQ s) (todo s) (seen s ++ o) in
     good (dolistenA s1) fs' /\ kept s (dolistenA s1) /\ live (dolistenA s1) /\ seen (dolistenA s1) = seen s ++ o /\ err (dolistenA s1) = e).
  { intros c q' o nd nf e fs' HX HA s1. destruct (dolistenA_ok s1 fs' HX) as (G & S & V & A). pose proof (same_f _ _ S) as (_ & F2 & F3 & _ & _ & F6 & F7 & F8 & F9 & F10).
    split; [exact G|]. split; [|split; [exact V|split; [exact F10|exact F6]]]. unfold kept. rewrite F2, F3, F7, F8, F9, A. repeat split; try reflexivity. exact HA. }
  assert (ED : forall room' : bool, (if room' then getRXBufForInbound QC q else None) = if negb room' || isFull QC q then None else Some (next q + 1)) by (intros []; [unfold getRXBufForInbound; reflexivity|reflexivity]).
  rewrite ED. destruct (negb room || isFull QC q) eqn:EF.
  - destruct (rxFIFO 1 (ch s)) as [d1 c1] eqn:E1. assert (R1 : forall r, managed r = false -> regs c1 r = regs (ch s) r) by (intros r Hr; replace c1 with (snd (rxFIFO 1 (ch s))) by (rewrite E1; reflexivity); apply unmanaged in Hr; apply rx_regs; tauto).
    assert (A1 : air c1 = air (ch s)) by (replace c1 with (snd (rxFIFO 1 (ch s))) by (rewrite E1; reflexivity); apply rx_air).
    eexists _, fs. split; [reflexivity|]. unfold see, count_drop, on. cbn [ch qs cur lis cfgs dropped filtered err maxTyp filt hasIRQ todo seen]. rewrite Eq.
    destruct (HF c1 q [ODropped] (u8 (dropped s + 1)) (filtered s) 4 fs) as (G & K & V & S & R); [|exact A1|].
    + apply (base_qsee s fs fs c1 (Sys q p) [ODropped] _ _ HB HS eq_refl R1); [reflexivity|]. change (num isAban [ODropped]) with 0. rewrite Z.add_0_r, (b_aban _ _ HB), Z.mod_mod by discriminate. reflexivity.
    + split; [exact G|]. split; [exact K|]. split; [exact V|]. split; [exact S|exact R].
  - apply orb_false_iff in EF as [ER EF]. apply negb_false_iff in ER. specialize (HL ER). subst room.
    assert (Ed : fst (rxFIFO 64 (ch s)) = rxf (ch s)) by (apply rx_data; exact H64).
    destruct (rxFIFO 64 (ch s)) as [d c1] eqn:E1. cbn [fst] in Ed. subst d.
    assert (R1 : forall r, managed r = false -> regs c1 r = regs (ch s) r) by (intros r Hr; replace c1 with (snd (rxFIFO 64 (ch s))) by (rewrite E1; reflexivity); apply unmanaged in Hr; apply rx_regs; tauto).
    assert (A1 : air c1 = air (ch s)) by (replace c1 with (snd (rxFIFO 64 (ch s))) by (rewrite E1; reflexivity); apply rx_air).
    set (d := rxf (ch s)) in *. set (fo := match filt s with Some f => f d len | None => (true, len) end).
    assert (Hfo : 0 <= snd fo <= len) by (unfold fo; pose proof (b_filt _ _ HB) as HX; destruct (filt s) as [f|]; [apply HX; lia|cbn [snd]; lia]). clearbody fo. destruct fo as [ok l]. cbn [snd] in Hfo.
    set (l' := if ok then l else 0).
    destruct (isr_ok QC q fs d l' QC_ok HI) as (q' & ra & EI & HR & HO); [split; [exact HBy|]; rewrite H64; unfold QC, l'; cbn [maxRX]; destruct ok; lia|].
    unfold isr, getRXBufForInbound in EI. rewrite EF in EI. destruct (blit (vbuf q) (next q + 1) d) as [b|]; [|discriminate]. cbn [bind] in EI |- *.
    destruct (loadedBuf QC l' (VQ b (oldest q) (next q) (count q))) as [q2|] eqn:EL; [|discriminate]. cbn [bind] in EI. apply some_inj in EI. apply pair_inj in EI as [-> Era]. subst ra.
    assert (HD : dropped s = (dropped s + 0) mod 256) by (rewrite Z.add_0_r, (b_drop _ _ HB), Z.mod_mod by discriminate; reflexivity).
    assert (HA : filtered s = (filtered s + 0) mod 256) by (rewrite Z.add_0_r, (b_aban _ _ HB), Z.mod_mod by discriminate; reflexivity).
    destruct ok; unfold l' in *.
    + rewrite EL. cbn [bind]. unfold see, with_q, on. cbn [ch qs cur lis cfgs dropped filtered err maxTyp filt hasIRQ todo seen]. destruct (l =? 0) eqn:E0.
      * destruct HR as [_ HR]. destruct (HF c1 q' [] (dropped s) (filtered s) (err s) fs) as (G & K & V & S & R); [|exact A1|].
        -- apply (base_qsee s fs fs c1 (Sys q' p) [] _ _ HB); try assumption; [|reflexivity]. apply (inv_sinv q _ _ fs); [exact HS|exact HR|exact HO|exists []; symmetry; apply app_nil_r].
        -- eexists _, fs. split; [reflexivity|]. split; [exact G|]. split; [exact K|]. split; [exact V|]. split; [exact S|exact R].
      * destruct HR as [_ HR]. destruct (HF c1 q' [OQueued (firstn (Z.to_nat l) d)] (dropped s) (filtered s) (err s) (fs ++ [firstn (Z.to_nat l) d])) as (G & K & V & S & R); [|exact A1|].
        -- apply (base_qsee s fs _ c1 (Sys q' p) [OQueued (firstn (Z.to_nat l) d)] _ _ HB); try assumption; [|reflexivity]. apply (inv_sinv q _ _ fs); [exact HS|exact HR|exact HO|eexists; reflexivity].
        -- eexists _, _. split; [reflexivity|]. split; [exact G|]. split; [exact K|]. split; [exact V|]. split; [exact S|exact R].
    + rewrite EL. cbn [bind]. unfold see, with_q, count_filt, on. cbn [ch qs cur lis cfgs dropped filtered err maxTyp filt hasIRQ todo seen].
      destruct HR as [_ HR]. destruct (HF c1 q' [OAbandoned] (dropped s) (u8 (filtered s + 1)) (err s) fs) as (G & K & V & S & R); [|exact A1|].
      * apply (base_qsee s fs fs c1 (Sys q' p) [OAbandoned] _ _ HB); try assumption; try reflexivity. apply (inv_sinv q _ _ fs); [exact HS|exact HR|exact HO|exists []; symmetry; apply app_nil_r].
      * eexists _, fs. split; [reflexivity|]. split; [exact G|]. split; [exact K|]. split; [exact V|]. split; [exact S|exact R].
Qed.
