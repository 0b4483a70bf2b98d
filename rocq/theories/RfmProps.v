(** Properties of the RFM23B link. *)
From Verif Require Import Base RxQueueModel RxQueueProps RfmModel.

(** ** Specification *)
(** What a channel's configuration says of a register: the last value given. *)
Definition setting (b : block) (r : Z) : option Z := fold_left (fun a rv => if fst rv =? r then Some (snd rv) else a) b None.
(** Registers the driver itself manages: interrupt enables, operating mode, packet length, RX FIFO threshold. *)
Definition managed (r : Z) : bool := (r =? 5) || (r =? 6) || (r =? 7) || (r =? 8) || (r =? 62) || (r =? 126) || (r =? 75).
(** The registers are as the configuration of the channel says. *)
Definition configured (b : block) (g : Z -> Z) : Prop := forall r v, managed r = false -> setting b r = Some v -> g r = v.
(** Sensible configurations: ordinary registers; does not itself start RX or TX, reset the chip or clear
    FIFOs; enables no interrupts other than CRC error, packet valid and RX FIFO almost full. *)
Definition pair_ok (rv : Z * Z) : Prop :=
  let (r, v) := rv in 2 <= r <= 126 /\ r <> 3 /\ r <> 4 /\ r <> 75 /\ byte v /\
  (r = 7 -> bit v 7 = false /\ bit v 3 = false /\ bit v 2 = false) /\ (r = 8 -> bit v 0 = false /\ bit v 1 = false) /\
  (r = 5 -> forall k, bit v k = true -> k = 0 \/ k = 1 \/ k = 4) /\ (r = 6 -> v = 0).
Definition block_ok (b : block) : Prop := Forall pair_ok b.
Definition env_ok (e : env) : Prop := match e_rx e with Some (len, d) => byte len /\ Zlen d = 64 /\ Forall byte d | None => True end.
(** Filters may shorten frames, not lengthen them (OTRadioLink.h 103-104). *)
Definition filter_ok (f : option (list Z -> Z -> bool * Z)) : Prop :=
  match f with Some f => forall d len, 0 <= len -> 0 <= snd (f d len) <= len | None => True end.

(** ** Registers *)
Lemma upd_same f r v : upd f r v r = v. Proof. unfold upd. rewrite Z.eqb_refl. reflexivity. Qed.
Lemma upd_other f r v x : x <> r -> upd f r v x = f x. Proof. intros H. unfold upd. replace (x =? r) with false by lia. reflexivity. Qed.
Lemma standbyClear_eq c : standbyClear c = Chip (upd (upd (upd (upd (upd (regs c) 7 0) 8 3) 8 0) 5 0) 6 0) 0 0 (repeat 0 64) [] (por c) (air c).
Proof. reflexivity. Qed.
(** A chip left alone while the driver works: not receiving, no enabled interrupt can come. *)
Definition quiet (c : chip) : Prop :=
  bit (regs c 7) 2 = false /\ (bit (st1 c) 0 = false /\ bit (st1 c) 1 = false /\ bit (st1 c) 4 = false) /\ regs c 6 = 0 /\
  (forall k, bit (regs c 5) k = true -> k = 0 \/ k = 1 \/ k = 4) /\ bit (regs c 8) 0 = false /\ bit (regs c 8) 1 = false.
Lemma standbyClear_quiet c : quiet (standbyClear c).
Proof.
  rewrite standbyClear_eq. unfold quiet. cbn [regs st1]. unfold upd. cbn [Z.eqb Pos.eqb]. rewrite !Z.bits_0.
  repeat split; try reflexivity. intros k Hk. rewrite Z.bits_0 in Hk. discriminate.
Qed.
Lemma setting_snoc b rv r : setting (b ++ [rv]) r = if fst rv =? r then Some (snd rv) else setting b r.
Proof. unfold setting. rewrite fold_left_app. reflexivity. Qed.
Lemma writeBlock_snoc b rv c : writeBlock (b ++ [rv]) c = wreg (fst rv) (snd rv) (writeBlock b c).
Proof. unfold writeBlock. rewrite fold_left_app. reflexivity. Qed.
Lemma wreg_ok r v c : pair_ok (r, v) -> quiet c -> let c' := wreg r v c in
  quiet c' /\ (forall x, regs c' x = if x =? r then v else regs c x) /\ st1 c' = st1 c /\ st2 c' = st2 c /\ rxf c' = rxf c /\ txf c' = txf c /\ por c' = por c /\ air c' = air c.
Proof.
  intros (Hr & H3 & H4 & H75 & Hv & H7 & H8 & H5 & H6) (Q1 & Q2 & Q3 & Q4 & Q5 & Q6). cbv zeta. unfold wreg.
  destruct (r =? 7) eqn:E7.
  - apply Z.eqb_eq in E7. subst r. destruct (H7 eq_refl) as (-> & -> & HB). unfold set_regs, quiet. cbn [regs st1 st2 rxf txf por air].
    rewrite upd_same, !upd_other by discriminate. split; [split; [exact HB|auto]|repeat split; reflexivity].
  - destruct (r =? 8) eqn:E8.
    + apply Z.eqb_eq in E8. subst r. destruct (H8 eq_refl) as [HB1 HB2]. unfold quiet. cbn [regs st1 st2 rxf txf por air]. rewrite Q5, Q6. cbn [andb].
      rewrite upd_same, !upd_other by discriminate. split; [auto 8|repeat split; reflexivity].
    + assert (E127 : (r =? 127) = false) by (clear -Hr; lia). rewrite E127. unfold set_regs, quiet. cbn [regs st1 st2 rxf txf por air]. apply Z.eqb_neq in E7, E8.
      rewrite (upd_other _ _ _ 7), (upd_other _ _ _ 8) by congruence. split; [|repeat split; reflexivity].
      split; [exact Q1|]. split; [exact Q2|]. split; [|split; [|auto]].
      * unfold upd. destruct (6 =? r) eqn:E6; [apply Z.eqb_eq in E6; apply H6; congruence|exact Q3].
      * unfold upd. destruct (5 =? r) eqn:E5; [apply Z.eqb_eq in E5; apply H5; congruence|exact Q4].
Qed.
Lemma writeBlock_ok b c : block_ok b -> quiet c -> let c' := writeBlock b c in
  quiet c' /\ (forall x, regs c' x = match setting b x with Some v => v | None => regs c x end) /\ st1 c' = st1 c /\ st2 c' = st2 c /\ rxf c' = rxf c /\ txf c' = txf c /\ por c' = por c /\ air c' = air c.
Proof.
  intros HB HQ. cbv zeta. induction b as [|rv b IH] using rev_ind; [repeat split; try reflexivity; apply HQ|].
  unfold block_ok in HB. apply Forall_app in HB as [HB H1]. inversion H1 as [|? ? Hrv _]; subst. destruct (IH HB) as (Q & R & S1 & S2 & S3 & S4 & S5 & S6).
  rewrite writeBlock_snoc. destruct rv as [r v]. cbn [fst snd]. destruct (wreg_ok r v _ Hrv Q) as (Q' & R' & T1 & T2 & T3 & T4 & T5 & T6).
  split; [exact Q'|]. split; [|repeat split; congruence]. intros x. rewrite R', setting_snoc. cbn [fst snd]. rewrite (Z.eqb_sym r x). destruct (x =? r); [reflexivity|apply R].
Qed.
(** Starting reception. *)
Definition enables (c : chip) : Z := if bit (regs c 48) 7 then 2 else 16.
Definition fixedp (c : chip) : bool := bit (regs c 48) 7 && bit (regs c 51) 3.
Lemma w5 v c : wreg 5 v c = set_regs (upd (regs c) 5 v) c. Proof. reflexivity. Qed.
Lemma w6 v c : wreg 6 v c = set_regs (upd (regs c) 6 v) c. Proof. reflexivity. Qed.
Lemma w62 v c : wreg 62 v c = set_regs (upd (regs c) 62 v) c. Proof. reflexivity. Qed.
Lemma w126 v c : wreg 126 v c = set_regs (upd (regs c) 126 v) c. Proof. reflexivity. Qed.
Lemma w7_0 c : wreg 7 0 c = set_regs (upd (regs c) 7 0) c. Proof. reflexivity. Qed.
Lemma w7_5 c : wreg 7 5 c = set_regs (upd (regs c) 7 5) c. Proof. reflexivity. Qed.
Lemma w8_30 c : wreg 8 0 (wreg 8 3 c) = Chip (upd (upd (regs c) 8 3) 8 0) (st1 c) (st2 c) (repeat 0 64) [] (por c) (air c). Proof. reflexivity. Qed.
Lemma startRX_ok mx c : let c' := startRX mx c in
  (forall x, x <> 5 -> x <> 6 -> x <> 7 -> x <> 8 -> x <> 62 -> x <> 126 -> regs c' x = regs c x) /\ regs c' 7 = 5 /\ regs c' 5 = enables c /\ regs c' 6 = 0 /\ regs c' 8 = 0 /\
  (if fixedp c then regs c' 62 = mx else regs c' 62 = regs c 62) /\ st1 c' = 0 /\ st2 c' = 0 /\ rxf c' = repeat 0 64 /\ txf c' = [] /\ por c' = por c /\ air c' = air c.
Proof.
  cbv zeta. unfold startRX, enables, fixedp. rewrite w8_30, w126, w7_5. unfold enableIRQLine, set_regs, clearst. cbn [regs st1 st2 rxf txf por air]. rewrite !(upd_other _ _ _ 48) by discriminate.
  destruct (bit (regs c 48) 7) eqn:E48; cbn [andb].
  - rewrite w6, w5. unfold set_regs. cbn [regs st1 st2 rxf txf por air]. rewrite !(upd_other _ _ _ 51) by discriminate. destruct (bit (regs c 51) 3) eqn:E51.
    + rewrite w62. unfold set_regs. cbn [regs st1 st2 rxf txf por air].
      repeat split; try reflexivity. intros x ? ? ? ? ? ?. rewrite !upd_other by assumption. reflexivity.
    + cbn [regs st1 st2 rxf txf por air]. repeat split; try reflexivity. intros x ? ? ? ? ? ?. rewrite !upd_other by assumption. reflexivity.
  - rewrite w6, w5. unfold set_regs. cbn [regs st1 st2 rxf txf por air]. repeat split; try reflexivity. intros x ? ? ? ? ? ?. rewrite !upd_other by assumption. reflexivity.
Qed.

(** ** Quiet time *)
Lemma happen_quiet e c : quiet c -> let c' := happen e c in
  quiet c' /\ (forall r, r <> 7 -> regs c' r = regs c r) /\ rxf c' = rxf c /\ txf c' = txf c /\ por c' = por c /\ air c' = air c /\
  (bit (regs c 7) 3 = true -> bit (st1 c) 2 = false -> bit (st1 c') 2 = e_done e /\ bit (regs c' 7) 3 = negb (e_done e)).
Proof.
  intros (Q1 & (Q2a & Q2b & Q2c) & Q3 & Q4 & Q5 & Q6). cbv zeta. unfold happen. cbv zeta. rewrite Q1.
  assert (HO : forall k x, bit 104 k = false -> bit (Z.lor (st1 c) (Z.land x 104)) k = bit (st1 c) k) by (intros k x Hk; rewrite Z.lor_spec, Z.land_spec, Hk, andb_false_r, orb_false_r; reflexivity).
  destruct (bit (regs c 7) 3) eqn:E3; [destruct (e_done e) eqn:ED|]; unfold quiet; cbn [regs st1 st2 rxf txf por air].
  - rewrite !upd_same, !upd_other by discriminate. rewrite !(Z.lor_spec _ 4), !HO by reflexivity. rewrite Q2a, Q2b, Q2c, !Z.land_spec, Q1. repeat split; auto.
    + intros r Hr. rewrite upd_other by assumption. reflexivity.
    + change (bit 4 2) with true. apply orb_true_r.
    + change (bit (-9) 3) with false. apply andb_false_r.
  - rewrite !HO by reflexivity. repeat split; auto.
  - rewrite !HO by reflexivity. repeat split; auto; discriminate.
Qed.
Lemma quiet_irq c : quiet c -> irq c = false.
Proof.
  intros (_ & (A & B & D) & H6 & H5 & _). unfold irq. rewrite H6, Z.land_0_r. cbn [negb Z.eqb orb].
  assert (E : Z.land (st1 c) (regs c 5) = 0); [|rewrite E; reflexivity]. apply Z.bits_inj'. intros k Hk. rewrite Z.land_spec, Z.bits_0.
  destruct (bit (regs c 5) k) eqn:EK; [|apply andb_false_r]. destruct (H5 k EK) as [-> | [-> | ->]]; rewrite ?A, ?B, ?D; reflexivity.
Qed.
(** [s'] is [s] some quiet time later. *)
Definition later (s s' : link) : Prop :=
  s' = on (fun _ => ch s') (set_todo (todo s') s) /\ quiet (ch s') /\ (forall r, r <> 7 -> regs (ch s') r = regs (ch s) r) /\
  rxf (ch s') = rxf (ch s) /\ txf (ch s') = txf (ch s) /\ por (ch s') = por (ch s) /\ air (ch s') = air (ch s).
Lemma later_trans s1 s2 s3 : later s1 s2 -> later s2 s3 -> later s1 s3.
Proof.
  intros (A1 & _ & A3 & A4 & A5 & A6 & A7) (B1 & B2 & B3 & B4 & B5 & B6 & B7). split; [rewrite B1 at 1; rewrite A1; reflexivity|].
  split; [exact B2|]. split; [intros r Hr; rewrite B3, A3 by assumption; reflexivity|]. repeat split; congruence.
Qed.
Lemma point_later s : quiet (ch s) -> exists s', point s = Some s' /\ later s s' /\ todo s' = tl (todo s) /\
  (bit (regs (ch s) 7) 3 = true -> bit (st1 (ch s)) 2 = false ->
   let d := match todo s with e :: _ => e_done e | [] => false end in bit (st1 (ch s')) 2 = d /\ bit (regs (ch s') 7) 3 = negb d).
Proof.
  intros HQ. unfold point. destruct (todo s) as [|e r] eqn:ET.
  - exists s. split; [reflexivity|]. split; [|split; [rewrite ET; reflexivity|intros A B; cbv zeta; split; assumption]].
    split; [destruct s; cbn in ET; subst; reflexivity|]. split; [exact HQ|]. repeat split; reflexivity.
  - set (s1 := set_todo r s). destruct (happen_quiet e (ch s) HQ) as (Q & R & X1 & X2 & X3 & X4 & X5).
    assert (EP : outside e s1 = Some (on (happen e) s1)).
    { unfold outside. cbv zeta. destruct (hasIRQ (on (happen e) s1)) eqn:EH; [|reflexivity]. unfold poll. rewrite EH. cbn [ch on s1 set_todo]. rewrite (quiet_irq _ Q). reflexivity. }
    exists (on (happen e) s1). split; [exact EP|]. split; [|split; [reflexivity|exact X5]]. split; [reflexivity|]. split; [exact Q|]. split; [exact R|]. repeat split; assumption.
Qed.

(** Whether the chip confirms in time, and what is left to happen. *)
Fixpoint confirm (n : nat) (l : list env) : bool * list env :=
  match n, l with
  | O, _ => (false, l)
  | S _, [] => (false, [])
  | S n, e :: l => if e_done e then (true, l) else confirm n l
  end.
Lemma txWait_ok : forall n s, quiet (ch s) -> bit (regs (ch s) 7) 3 = true -> bit (st1 (ch s)) 2 = false ->
  exists s', txWait n s = Some (fst (confirm n (todo s)), s') /\ later s s' /\ todo s' = snd (confirm n (todo s)).
Proof.
  induction n as [|n IH]; intros s HQ H7 H1.
  - exists s. split; [reflexivity|]. split; [|reflexivity]. split; [destruct s; reflexivity|]. split; [exact HQ|]. repeat split; reflexivity.
  - cbn [txWait]. destruct (point_later s HQ) as (s1 & E1 & L1 & T1 & D1). rewrite E1. cbn [bind]. cbv zeta in D1. destruct (D1 H7 H1) as [D2 D3].
    set (s2 := on _ s1).
    assert (HQ1 : quiet (ch s1)) by apply L1.
    assert (L2 : later s s2).
    { destruct L1 as (A1 & A2 & A3 & A4 & A5 & A6 & A7). split; [unfold s2; rewrite A1; reflexivity|]. split; [|unfold s2; cbn [ch on regs rxf txf por air]; auto].
      destruct A2 as (B1 & _ & B3). unfold s2, quiet. cbn [ch on regs st1]. rewrite !Z.bits_0. auto. }
    rewrite D2. destruct (todo s) as [|e r] eqn:ET.
    + cbn [tl] in T1. destruct (IH s2) as (s' & E' & L' & T'); [apply L2|exact D3|cbn [ch on s2 st1]; apply Z.bits_0|]. exists s'. rewrite E'. change (todo s2) with (todo s1). rewrite T1.
      assert (EC : confirm n (@nil env) = (false, [])) by (destruct n; reflexivity). rewrite EC. split; [reflexivity|]. split; [eapply later_trans; eassumption|].
      change (todo s2) with (todo s1) in T'. rewrite T1, EC in T'. exact T'.
    + cbn [confirm tl] in *. destruct (e_done e) eqn:ED.
      * exists s2. split; [reflexivity|]. split; [exact L2|exact T1].
      * destruct (IH s2) as (s' & E' & L' & T'); [apply L2|exact D3|cbn [ch on s2 st1]; apply Z.bits_0|]. exists s'. change (todo s2) with (todo s1) in *. rewrite T1 in *. split; [exact E'|]. split; [eapply later_trans; eassumption|exact T'].
Qed.
