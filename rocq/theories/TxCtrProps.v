(** C14, C15, C16: the transmit message counter. *)
From Coq Require Sorted.
From Verif Require Import Base CrcSpec CrcLin EepromModel EepromProofs TxCtrModel TxCtrProofs TxCtrWindow TxCtrSix.

Lemma be_out6 c e : bytes3 c -> bytes3 e -> be (out6 c e) = val3 c * 16777216 + val3 e.
Proof.
  destruct c as [[a b] l], e as [[x y] z]. intros (A & B & C) (D & E & F). unfold out6, val3.
  unfold byte in *. unfold be. cbn [fold_left]. lia.
Qed.

(** A call either crashes having done a prefix of its updates, or completes. *)
Lemma tx_call_does ram r s ws res ram' f : does (getNextTXMsgCtr ram r) s ws (res, ram') ->
  (exists s' k, tx_step (s, ram) (TxCall r f) = ((s', TxRam0), Crashed) /\ (f < length ws)%nat /\
      meq (mem s') (applyw (firstn k ws) (mem s))) \/
  (exists s', tx_step (s, ram) (TxCall r f) =
      ((s', ram'), match res with Some c => Issued c | None => Refused end) /\
      meq (mem s') (applyw ws (mem s))).
Proof.
  intros H. unfold tx_step. destruct (H f) as [(s' & k & E & H1 & _ & H2)|(s' & f' & E & _ & H2)]; rewrite E.
  - left. exists s', k. auto.
  - right. exists s'. destruct res; auto.
Qed.

Lemma W_bytes c w : bytes3 c -> In w (W c) -> byte (snd w).
Proof.
  intros Hc Hw. unfold W in Hw. apply at_addr_in in Hw. destruct Hw as [_ Hw].
  apply in_map_iff in Hw. destruct Hw as (x & <- & Hx). apply inv8_byte.
  destruct c as [[a b] l]. destruct Hc as (A & B & C). pose proof (crc8_3_byte a b l).
  unfold two_copies in Hx. cbv zeta in Hx. cbn [In] in Hx.
  repeat (destruct Hx as [<- | Hx]; [assumption|]). destruct Hx.
Qed.
Lemma bytes_meq a b : meq a b -> bytes_mem b -> bytes_mem a.
Proof. intros H HB q. rewrite H. apply HB. Qed.
Lemma bytes_applyW c k m : bytes3 c -> bytes_mem m -> bytes_mem (applyw (firstn k (W c)) m).
Proof.
  intros Hc Hm. apply applyw_bytes; [auto|]. intros w Hw. apply (W_bytes c); auto.
  rewrite <- (firstn_skipn k (W c)). apply in_or_app. auto.
Qed.
Lemma bytes_applyW_all c m : bytes3 c -> bytes_mem m -> bytes_mem (applyw (W c) m).
Proof. intros Hc Hm. apply applyw_bytes; [auto|]. intros w Hw. apply (W_bytes c); auto. Qed.

(** The node has issued a counter with persistent part [m] and ephemeral part
    [e] and has [n] crashes behind it since. *)
Definition dead (s : EE) : Prop := rd3 (mem s) = None.
Definition running (m e : Z) (s : EE) (ram : TxRam) : Prop :=
  inited ram = true /\ win m 0 (mem s) /\ 1 <= m < 16777215 /\ bytes3 (eph ram) /\ val3 (eph ram) = e.
Definition Inv (m e n : Z) (st : EE * TxRam) : Prop :=
  let (s, ram) := st in
  bytes_mem (mem s) /\ 1 <= m < 16777215 /\ 0 <= n /\ 0 <= e < 16777216 /\
  (dead s \/ (inited ram = false /\ R m n (mem s)) \/ (n = 0 /\ running m e s ram)).
Definition GInv (st : EE * TxRam) : Prop :=
  let (s, ram) := st in
  bytes_mem (mem s) /\ (dead s \/ inited ram = false \/ exists m e, running m e s ram).

Lemma Inv_GInv m e n st : Inv m e n st -> GInv st.
Proof.
  destruct st as [s ram]. intros (HB & _ & _ & _ & H). split; [exact HB|].
  destruct H as [H|[[H _]|[_ H]]]; eauto 6.
Qed.

Lemma dead_step s ram r f : bytes_mem (mem s) -> dead s ->
  exists s' ram', tx_step (s, ram) (TxCall r f) = ((s', ram'), Refused) /\ meq (mem s') (mem s).
Proof.
  intros HB HD.
  assert (exists ram', does (getNextTXMsgCtr ram r) s [] (None, ram')) as (ram' & HP).
  { destruct (inited ram) eqn:EI.
    - destruct (snd (eph_next ram r)) eqn:EO.
      + eexists. apply does_next_roll_none; auto.
      + eexists. pose proof (does_next_plain ram r s EI EO) as H. rewrite HD in H. exact H.
    - eexists. apply does_next_init_none; auto. }
  destruct (tx_call_does _ _ _ _ _ _ f HP) as [(s' & k & _ & Hf & _)|(s' & E & Hm)].
  - simpl in Hf. lia.
  - exists s', ram'. split; [exact E|exact Hm].
Qed.

(** What a call does from a live state. *)
Definition issue_ok (c : list Z) (st : EE * TxRam) (m e : Z) : Prop :=
  be c = m * 16777216 + e /\ (Zlen c = 6 /\ Forall byte c) /\ Inv m e 0 st.
Lemma out6_six c e : bytes3 c -> bytes3 e -> Zlen (out6 c e) = 6 /\ Forall byte (out6 c e).
Proof.
  destruct c as [[a b] l], e as [[x y] z]. intros (A & B & C) (D & E & F). split; [reflexivity|].
  unfold out6. repeat (constructor; [assumption|]). constructor.
Qed.

(** Completion of an increment from readable value [v]. *)
Lemma after_inc_state v s s' e : 0 <= v < 16777215 -> bytes_mem (mem s) -> bytes3 e ->
  meq (mem s') (applyw (W (enc3 (v + 1))) (mem s)) ->
  match next_result (after_inc v) e with
  | Some c => issue_ok c (s', mkTxRam true e) (v + 1) (val3 e)
  | None => dead s' /\ bytes_mem (mem s')
  end.
Proof.
  intros Hv HB He Hm.
  assert (HB' : bytes_mem (mem s')).
  { eapply bytes_meq; [exact Hm|]. apply bytes_applyW_all; auto. apply enc3_bytes; lia. }
  unfold after_inc. destruct (v + 1 =? 16777215) eqn:E; cbn [next_result].
  - split; [|exact HB']. unfold dead. rewrite (rd3_meq _ _ (fun q _ => Hm q)).
    rewrite rd3_W by (apply enc3_bytes; lia). rewrite val3_enc, E by lia. reflexivity.
  - split.
    + rewrite be_out6 by (auto; apply enc3_bytes; lia). rewrite val3_enc by lia. reflexivity.
    + split; [apply out6_six; auto; apply enc3_bytes; lia|].
      pose proof (val3_range e He). split; [exact HB'|]. split; [lia|]. split; [lia|]. split; [lia|].
      right. right. split; [reflexivity|]. split; [reflexivity|]. split.
      * eapply win_meq; [apply meq_sym; exact Hm|]. apply win_W_all. lia.
      * cbn [eph]. split; [lia|]. auto.
Qed.

(** One call from [GInv]. *)
Lemma GInv_call st r f : GInv st ->
  match tx_step st (TxCall r f) with
  | (st', Issued c) => exists m e, issue_ok c st' m e
  | (st', _) => GInv st'
  end.
Proof.
  destruct st as [s ram]. intros (HB & H).
  destruct (rd3 (mem s)) as [c|] eqn:ER.
  2:{ destruct (dead_step s ram r f HB ER) as (s' & ram' & E & Hm). rewrite E.
      split; [eapply bytes_meq; eauto|]. left. unfold dead. rewrite (rd3_meq _ _ (fun q _ => Hm q)). exact ER. }
  destruct H as [H|H]; [unfold dead in H; congruence|].
  destruct (rd3_bytes _ _ HB ER) as [HC HV]. pose proof (val3_range c HC) as HC0.
  destruct (inited ram) eqn:EI.
  - destruct H as [H|(m & e & Hr)]; [discriminate|]. destruct Hr as (_ & HW & Hm & He & Hv).
    assert (HN : bytes3 (fst (eph_next ram r))).
    { unfold eph_next. rewrite EI. apply bump3_num. exact He. }
    pose proof (win_read0 m (mem s) ltac:(lia) HW) as HR0. rewrite ER in HR0. apply some_inj in HR0.
    destruct (snd (eph_next ram r)) eqn:EO.
    + destruct (tx_call_does _ _ _ _ _ _ f (does_next_roll ram r s c EI EO HB ER))
        as [(s' & k & E & _ & Hm')|(s' & E & Hm')]; rewrite E.
      * split; [|auto]. eapply bytes_meq; [exact Hm'|]. apply bytes_applyW; auto. apply enc3_bytes; lia.
      * pose proof (after_inc_state (val3 c) s s' (fst (eph_next ram r)) ltac:(lia) HB HN Hm') as HA.
        destruct (next_result _ _); [eauto|]. destruct HA as [HA1 HA2]. split; auto.
    + destruct (tx_call_does _ _ _ _ _ _ f (does_next_plain ram r s EI EO))
        as [(s' & k & E & Hlt & Hm')|(s' & E & Hm')]; [simpl in Hlt; lia|]. rewrite E, ER.
      cbn [next_result]. exists m, (val3 (fst (eph_next ram r))). split.
      * rewrite be_out6 by auto. subst c. rewrite val3_enc by lia. reflexivity.
      * split; [apply out6_six; auto|]. pose proof (val3_range _ HN). split; [eapply bytes_meq; eauto|]. split; [lia|]. split; [lia|]. split; [lia|].
        right. right. split; [reflexivity|]. split; [reflexivity|]. split; [|auto].
        eapply win_meq; [apply meq_sym; exact Hm'|exact HW].
  - destruct (eph_next_init ram r EI) as [_ HN].
    destruct (Z.eq_dec (val3 c) 0) as [Ez|Ez].
    + assert (c = (0, 0, 0)) as -> by (rewrite <- (enc3_val c HC), Ez; reflexivity).
      destruct (reset_noise_bytes (rn r)) as [HRB HRV].
      destruct (tx_call_does _ _ _ _ _ _ f (does_next_reset ram r s EI ER))
        as [(s' & k & E & _ & Hm')|(s' & E & Hm')]; rewrite E.
      * split; [|auto]. eapply bytes_meq; [exact Hm'|]. apply bytes_applyW; auto.
      * exists (val3 (reset_noise (rn r))), (val3 (fst (eph_next ram r))). split; [apply be_out6; auto|].
        split; [apply out6_six; auto|]. pose proof (val3_range _ HN).
        split; [eapply bytes_meq; [exact Hm'|]; apply bytes_applyW_all; auto|]. split; [lia|]. split; [lia|]. split; [lia|].
        right. right. split; [reflexivity|]. split; [reflexivity|]. split; [|split; [lia|auto]].
        eapply win_meq; [apply meq_sym; exact Hm'|]. rewrite <- (enc3_val _ HRB) at 2. apply win_W_all. lia.
    + destruct (tx_call_does _ _ _ _ _ _ f (does_next_inc ram r s c EI HB ER Ez))
        as [(s' & k & E & _ & Hm')|(s' & E & Hm')]; rewrite E.
      * split; [|auto]. eapply bytes_meq; [exact Hm'|]. apply bytes_applyW; auto. apply enc3_bytes; lia.
      * pose proof (after_inc_state (val3 c) s s' (fst (eph_next ram r)) ltac:(lia) HB HN Hm') as HA.
        destruct (next_result _ _); [eauto|]. destruct HA as [HA1 HA2]. split; auto.
Qed.

(** One call from [Inv] with at most six crashes so far. *)
Lemma Inv_call m e n st r f : Inv m e n st -> n <= 6 ->
  match tx_step st (TxCall r f) with
  | (st', Issued c) => be c > m * 16777216 + e
  | (st', Crashed) => Inv m e (n + 1) st'
  | (st', _) => Inv m e n st'
  end.
Proof.
  destruct st as [s ram]. intros (HB & HM & Hn & Hee & H) Hn6.
  destruct (rd3 (mem s)) as [c|] eqn:ER.
  2:{ destruct (dead_step s ram r f HB ER) as (s' & ram' & E & Hm). rewrite E.
      split; [eapply bytes_meq; eauto|]. repeat (split; [lia|]). left. unfold dead.
      rewrite (rd3_meq _ _ (fun q _ => Hm q)). exact ER. }
  destruct H as [H|H]; [unfold dead in H; congruence|].
  destruct (rd3_bytes _ _ HB ER) as [HC HV]. pose proof (val3_range c HC) as HC0.
  destruct H as [[EI HW]|[-> (EI & HW & _ & He & Hv)]].
  - destruct (eph_next_init ram r EI) as [_ HN].
    pose proof (R_read m n (mem s) c ltac:(lia) Hn6 HW ER) as Hc.
    destruct (tx_call_does _ _ _ _ _ _ f (does_next_inc ram r s c EI HB ER ltac:(lia)))
        as [(s' & k & E & _ & Hm')|(s' & E & Hm')]; rewrite E.
    + split; [eapply bytes_meq; [exact Hm'|]; apply bytes_applyW; auto; apply enc3_bytes; lia|].
      repeat (split; [lia|]). right. left. split; [reflexivity|].
      apply (R_step m n (mem s) (mem s') (Z.of_nat k) c); [lia|lia|exact HW|exact ER|]. apply wr_W; [lia|exact Hm'].
    + pose proof (after_inc_state (val3 c) s s' (fst (eph_next ram r)) ltac:(lia) HB HN Hm') as HA.
      pose proof (val3_range _ HN).
      destruct (next_result _ _); [destruct HA as [-> _]; lia|]. destruct HA as [HA1 HA2].
      split; [auto|]. repeat (split; [lia|]). auto.
  - assert (HN : bytes3 (fst (eph_next ram r))).
    { unfold eph_next. rewrite EI. apply bump3_num. exact He. }
    pose proof (val3_range _ HN).
    pose proof (win_read0 m (mem s) ltac:(lia) HW) as HR0. rewrite ER in HR0. apply some_inj in HR0.
    assert (Hcm : val3 c = m) by (subst c; apply val3_enc; lia).
    destruct (snd (eph_next ram r)) eqn:EO.
    + destruct (tx_call_does _ _ _ _ _ _ f (does_next_roll ram r s c EI EO HB ER))
        as [(s' & k & E & _ & Hm')|(s' & E & Hm')]; rewrite E.
      * split; [eapply bytes_meq; [exact Hm'|]; apply bytes_applyW; auto; apply enc3_bytes; lia|].
        repeat (split; [lia|]). right. left. split; [reflexivity|].
        apply (R_step m 0 (mem s) (mem s') (Z.of_nat k) c); [lia|lia| |exact ER|apply wr_W; [lia|exact Hm']].
        left. split; [lia|apply win_T; exact HW].
      * pose proof (after_inc_state (val3 c) s s' (fst (eph_next ram r)) ltac:(lia) HB HN Hm') as HA.
        destruct (next_result _ _); [destruct HA as [-> _]; lia|]. destruct HA as [HA1 HA2].
        split; [auto|]. repeat (split; [lia|]). auto.
    + destruct (tx_call_does _ _ _ _ _ _ f (does_next_plain ram r s EI EO))
        as [(s' & k & E & Hlt & Hm')|(s' & E & Hm')]; [simpl in Hlt; lia|]. rewrite E, ER.
      cbn [next_result]. rewrite be_out6 by auto. rewrite Hcm.
      assert (val3 (fst (eph_next ram r)) = e + 1); [|lia].
      unfold eph_next in *. rewrite EI in *. cbn [negb] in *. destruct (bump3_num _ He) as (_ & _ & B3 & _).
      rewrite B3 by auto. lia.
Qed.

Lemma GInv_restart st : GInv st -> GInv (fst (tx_step st TxRestart)).
Proof. destruct st as [s ram]. intros [HB H]. split; [exact HB|]. right. left. reflexivity. Qed.
Lemma Inv_restart m e n st : Inv m e n st -> Inv m e n (fst (tx_step st TxRestart)).
Proof.
  destruct st as [s ram]. intros (HB & HM & Hn & He & H). split; [exact HB|]. repeat (split; [lia|]).
  destruct H as [H|[[_ H]|[-> (_ & H & _)]]]; [auto| |]; right; left; (split; [reflexivity|]); [exact H|].
  left. split; [lia|apply win_T; exact H].
Qed.

(** ** C14 *)
Fixpoint crashes (os : list TxOut) : Z :=
  match os with [] => 0 | Crashed :: r => 1 + crashes r | _ :: r => crashes r end.
Definition no_issue (os : list TxOut) : Prop := forall c, ~ In (Issued c) os.

Lemma crashes_nonneg os : 0 <= crashes os.
Proof. induction os as [|[]]; cbn [crashes]; lia. Qed.

Lemma after_issue m e b evs : forall n st mid post, Inv m e n st ->
  tx_life st evs = mid ++ Issued b :: post -> no_issue mid -> n + crashes mid <= 6 ->
  m * 16777216 + e < be b.
Proof.
  induction evs as [|ev evs IH]; intros n st mid post HI HL HN HC; cbn [tx_life] in HL.
  { destruct mid; discriminate. }
  destruct (tx_step st ev) as [st' o] eqn:ES.
  destruct mid as [|o' mid].
  - simpl in HL. injection HL as Ho _. subst o.
    destruct ev as [r f|].
    + pose proof (Inv_call m e n st r f HI ltac:(cbn [crashes] in HC; lia)) as H. rewrite ES in H. lia.
    + destruct st as [s ram]. cbn [tx_step] in ES. discriminate.
  - simpl in HL. injection HL as Ho HL. subst o'. pose proof (crashes_nonneg mid) as HCN.
    assert (HN' : no_issue mid) by (intros c Hc; apply (HN c); right; auto).
    assert (HNo : forall c, o <> Issued c) by (intros c ->; apply (HN c); left; auto).
    destruct ev as [r f|].
    + pose proof (Inv_call m e n st r f HI ltac:(destruct o; cbn [crashes] in HC; lia)) as H. rewrite ES in H.
      destruct o; cbn [crashes] in HC.
      * exfalso. eapply HNo. reflexivity.
      * eapply (IH n); eauto.
      * eapply (IH (n + 1)); eauto. lia.
      * eapply (IH n); eauto.
    + pose proof (Inv_restart m e n st HI) as H. destruct st as [s ram]. cbn [tx_step] in ES.
      injection ES as <- <-. cbn [crashes] in HC. eapply (IH n); eauto.
Qed.

Lemma first_issue a b evs : forall st pre mid post, GInv st ->
  tx_life st evs = pre ++ Issued a :: mid ++ Issued b :: post ->
  no_issue mid -> crashes mid <= 6 -> be a < be b.
Proof.
  induction evs as [|ev evs IH]; intros st pre mid post HI HL HN HC; cbn [tx_life] in HL.
  { destruct pre; discriminate. }
  destruct (tx_step st ev) as [st' o] eqn:ES.
  destruct pre as [|o' pre]; simpl in HL; injection HL as Ho HL.
  - subst o. destruct ev as [r f|].
    + pose proof (GInv_call st r f HI) as H. rewrite ES in H. destruct H as (m & e & -> & _ & H).
      eapply (after_issue m e b evs 0); eauto.
    + destruct st as [s ram]. cbn [tx_step] in ES. discriminate.
  - subst o'. assert (GInv st').
    { destruct ev as [r f|].
      - pose proof (GInv_call st r f HI) as H. rewrite ES in H.
        destruct o; auto. destruct H as (m & e & _ & _ & H). eapply Inv_GInv; eauto.
      - pose proof (GInv_restart st HI) as H. rewrite ES in H. exact H. }
    eapply IH; eauto.
Qed.

(** In any life of a node that starts with arbitrary EEPROM contents, two
    successive transmit counters are strictly increasing if at most six power
    failures interrupt EEPROM updates between them.  Missing from the full
    claim: seven or more such failures in a row, where it is false (see
    [C14_seven_refuted]). *)
Theorem C14_tx_counter_partial : forall (s0 : EE) (evs : list TxEv) pre a mid b post,
  (forall q, byte (mem s0 q)) ->
  tx_life (s0, TxRam0) evs = pre ++ Issued a :: mid ++ Issued b :: post ->
  no_issue mid -> crashes mid <= 6 ->
  be a < be b.
Proof.
  intros s0 evs pre a mid b post HB. apply first_issue. split; [exact HB|]. right. left. reflexivity.
Qed.

(** Whole-life form: if no more than six power failures occur between two
    issues, no counter is ever repeated, even across any number of restarts. *)
Fixpoint issued (os : list TxOut) : list (list Z) :=
  match os with [] => [] | Issued c :: r => c :: issued r | _ :: r => issued r end.
Lemma issued_split os c r : issued os = c :: r ->
  exists mid post, os = mid ++ Issued c :: post /\ no_issue mid /\ issued post = r.
Proof.
  induction os as [|o os IH]; cbn [issued]; [discriminate|].
  destruct o as [x| | |].
  1:{ intros H. injection H as <- <-. exists [], os. repeat split. intros c' []. }
  all: intros H; destruct (IH H) as (mid & post & -> & HN & HP); eexists (_ :: mid), post;
    (split; [reflexivity|]); (split; [|exact HP]); intros c' [Hc|Hc]; [discriminate|apply (HN c' Hc)].
Qed.
Definition gaps_ok (os : list TxOut) : Prop :=
  forall pre a mid b post, os = pre ++ Issued a :: mid ++ Issued b :: post -> no_issue mid -> crashes mid <= 6.

Theorem C14_tx_counter_unique_partial : forall (s0 : EE) (evs : list TxEv),
  (forall q, byte (mem s0 q)) ->
  gaps_ok (tx_life (s0, TxRam0) evs) ->
  Sorted.StronglySorted (fun a b => be a < be b) (issued (tx_life (s0, TxRam0) evs)).
Proof.
  intros s0 evs HB HG. apply Sorted.Sorted_StronglySorted.
  { intros x y z. lia. }
  assert (HA : forall pre a mid b post, tx_life (s0, TxRam0) evs = pre ++ Issued a :: mid ++ Issued b :: post ->
            no_issue mid -> be a < be b).
  { intros pre a mid b post HL HN. eapply C14_tx_counter_partial; eauto. }
  clear HG. set (os := tx_life (s0, TxRam0) evs) in *. clearbody os.
  assert (HS : forall l os1 os2, os = os1 ++ os2 -> issued os2 = l -> Sorted.Sorted (fun a b => be a < be b) l).
  { induction l as [|c l IH]; intros os1 os2 E1 E2; [constructor|].
    destruct (issued_split _ _ _ E2) as (mid & post & -> & HN & HP).
    assert (E3 : os = (os1 ++ mid ++ [Issued c]) ++ post)
      by (rewrite E1, <- !app_assoc; reflexivity).
    constructor; [eapply IH; [exact E3|exact HP]|].
    destruct l as [|b l]; constructor.
    destruct (issued_split _ _ _ HP) as (mid2 & post2 & -> & HN2 & _).
    apply (HA (os1 ++ mid) c mid2 b post2); [|exact HN2].
    rewrite E1, <- !app_assoc. reflexivity. }
  apply (HS _ [] os); auto.
Qed.

(** No counter handed out has an all-zero persistent part (so never all zero). *)
Theorem C14_never_zero : forall (s0 : EE) (evs : list TxEv) c,
  (forall q, byte (mem s0 q)) -> In (Issued c) (tx_life (s0, TxRam0) evs) ->
  be c >= 16777216 /\ be c < 281474976710656.
Proof.
  intros s0 evs c HB.
  assert (HG : GInv (s0, TxRam0)) by (split; [exact HB|right; left; reflexivity]).
  revert HG. generalize (s0, TxRam0). induction evs as [|ev evs IH]; intros st HI HIn; cbn [tx_life] in HIn; [destruct HIn|].
  destruct (tx_step st ev) as [st' o] eqn:ES.
  assert (GInv st' /\ (o = Issued c -> be c >= 16777216 /\ be c < 281474976710656)) as [HI' Ho].
  { destruct ev as [r f|].
    - pose proof (GInv_call st r f HI) as H. rewrite ES in H. destruct o; try (split; [exact H|discriminate]).
      destruct H as (m & e & HE & _ & H). split; [eapply Inv_GInv; eauto|]. intros E. injection E as ->.
      destruct st' as [s' ram']. destruct H as (_ & Hm & _ & He & _). lia.
    - pose proof (GInv_restart st HI) as H. rewrite ES in H. split; [exact H|].
      destruct st as [s ram]. cbn [tx_step] in ES. injection ES as <- <-. discriminate. }
  destruct HIn as [H|H]; [auto|]. eapply IH; eauto.
Qed.

(** An EEPROM whose two stored copies both hold [v], with matching check bytes. *)
Definition stored_tx (v : Z) : EE :=
  mkEE (fun q => if (104 <=? q) && (q <? 112) then inv8 (znth (two_copies (enc3 v)) (q - 104)) else 255) [].

(** Refutation of the unconditional claim: with seven power failures between
    two issues the very same 6-byte counter is handed out twice. *)
Definition rnd1 : Rnd := mkRnd (0, 0, 0) (1, 2, 3).
Definition bad_life : list TxEv :=
  TxCall rnd1 99 :: concat (repeat [TxRestart; TxCall rnd1 99] 249) ++
  [TxRestart; TxCall rnd1 2; TxCall rnd1 3; TxCall rnd1 2; TxCall rnd1 2; TxCall rnd1 2;
   TxCall rnd1 1; TxCall rnd1 1; TxCall rnd1 99].
Definition reuse (os : list TxOut) : bool :=
  match os with
  | Issued a :: r => match rev r with Issued b :: _ => list_eqb a b | _ => false end
  | _ => false
  end.
Theorem C14_tx_counter_refuted :
  exists (s0 : EE) (evs : list TxEv), (forall q, byte (mem s0 q)) /\
  exists c mid, tx_life (s0, TxRam0) evs = Issued c :: mid ++ [Issued c].
Proof.
  exists (stored_tx (256 * 256 + 2 * 256 + 4)), bad_life. split.
  - intros q. cbn [mem stored_tx]. destruct ((104 <=? q) && (q <? 112)) eqn:E; [|unfold byte; lia].
    apply inv8_byte. apply znth_byte. vm_compute. repeat constructor; discriminate.
  - assert (reuse (tx_life (stored_tx (256 * 256 + 2 * 256 + 4), TxRam0) bad_life) = true) as H
      by (vm_compute; reflexivity).
    revert H. generalize (tx_life (stored_tx (256 * 256 + 2 * 256 + 4), TxRam0) bad_life). intros os H.
    destruct os as [|[c| | |] r]; try discriminate H. cbn [reuse] in H.
    destruct (rev r) as [|[b| | |] r'] eqn:ER; try discriminate H.
    apply list_eqb_eq in H. subst b. exists c, (rev r'). f_equal.
    rewrite <- (rev_involutive r), ER. reflexivity.
Qed.

(** Six is the most: seven power failures between two successive issues can take the counter back. *)
Definition seven (os : list TxOut) : bool :=
  match rev os with
  | Issued b :: r =>
      match skipn 7 r with
      | Restarted :: Issued a :: _ => forallb (fun o => match o with Crashed => true | _ => false end) (firstn 7 r) && (be b <? be a)
      | _ => false end
  | _ => false end.
Lemma all_crashed l : forallb (fun o => match o with Crashed => true | _ => false end) l = true -> l = repeat Crashed (length l).
Proof.
  induction l as [|o l IH]; cbn [forallb length repeat]; [reflexivity|]. intros H. apply andb_prop in H. destruct H as [H1 H2].
  destruct o; try discriminate. f_equal. auto.
Qed.
Theorem C14_seven_refuted :
  exists (s0 : EE) (evs : list TxEv) pre a mid b, (forall q, byte (mem s0 q)) /\
    tx_life (s0, TxRam0) evs = pre ++ Issued a :: mid ++ [Issued b] /\ no_issue mid /\ crashes mid = 7 /\ be b < be a.
Proof.
  exists (stored_tx (256 * 256 + 2 * 256 + 4)), bad_life.
  assert (seven (tx_life (stored_tx (256 * 256 + 2 * 256 + 4), TxRam0) bad_life) = true) as H by (vm_compute; reflexivity).
  revert H. generalize (tx_life (stored_tx (256 * 256 + 2 * 256 + 4), TxRam0) bad_life). intros os H. unfold seven in H.
  destruct (rev os) as [|[b| | |] r] eqn:ER; try discriminate H. rewrite <- (firstn_skipn 7 r) in ER.
  assert (HL : length (firstn 7 r) = 7%nat).
  { destruct (skipn 7 r) as [|x y] eqn:ES; [discriminate H|]. rewrite firstn_length. pose proof (skipn_length 7 r) as HS. rewrite ES in HS. cbn [length] in HS. lia. }
  destruct (skipn 7 r) as [|[| | |] [|[a| | |] q]]; try discriminate H. apply andb_prop in H. destruct H as [H1 H2].
  apply all_crashed in H1. rewrite HL in H1. rewrite H1 in ER.
  exists (rev q), a, (Restarted :: repeat Crashed 7), b. split; [|split; [|split; [|split; [reflexivity|lia]]]].
  - intros p. cbn [mem stored_tx]. destruct ((104 <=? p) && (p <? 112)) eqn:E; [|unfold byte; lia].
    apply inv8_byte. apply znth_byte. vm_compute. repeat constructor; discriminate.
  - rewrite <- (rev_involutive os), ER. cbn [rev app repeat]. rewrite <- !app_assoc. reflexivity.
  - intros c Hc. cbn [repeat In] in Hc. repeat (destruct Hc as [Hc | Hc]; [discriminate|]). exact Hc.
Qed.

(** Non-vacuity of C14: restarts, six crashes, and still increasing. *)
Example C14_nonvacuous :
  tx_life (stored_tx 66300, TxRam0)
    [TxCall rnd1 99; TxCall rnd1 99; TxRestart; TxCall rnd1 2; TxCall rnd1 2; TxCall rnd1 3; TxCall rnd1 2; TxCall rnd1 2; TxCall rnd1 2; TxCall rnd1 99] =
  [Issued [1; 2; 253; 1; 2; 4]; Issued [1; 2; 253; 1; 2; 5]; Restarted; Crashed; Crashed; Crashed; Crashed; Crashed; Crashed;
   Issued [1; 3; 4; 1; 2; 4]].
Proof. vm_compute. reflexivity. Qed.

(** ** C15 *)
(** Once getTXNVCtrPrefix() fails (persistent part at its maximum, or neither
    copy valid), every later request fails, for ever, and nothing is written. *)
Theorem C15_exhaustion_is_final : forall (s : EE) (ram : TxRam) (evs : list TxEv),
  (forall q, byte (mem s q)) ->
  (forall f, snd (getTXNVCtrPrefix s f) = Some (None, f)) ->
  issued (tx_life (s, ram) evs) = [] /\
  forall q, mem (fst (tx_end (s, ram) evs)) q = mem s q.
Proof.
  intros s ram evs HB HR.
  assert (HD : dead s).
  { specialize (HR 0%nat). destruct (does_getPrefix s 0%nat) as [(s' & k & _ & Hf & _)|(s' & f' & E & _)]; [simpl in Hf; lia|].
    rewrite E in HR. cbn [snd] in HR. unfold dead. apply some_inj in HR. apply pair_inj in HR. tauto. }
  clear HR. revert s ram HB HD. induction evs as [|ev evs IH]; intros s ram HB HD; cbn [tx_life tx_end issued]; [auto|].
  destruct ev as [r f|].
  - destruct (dead_step s ram r f HB HD) as (s' & ram' & E & Hm). rewrite E. cbn [fst issued].
    destruct (IH s' ram' (bytes_meq _ _ Hm HB)) as [H1 H2].
    + unfold dead. rewrite (rd3_meq _ _ (fun q _ => Hm q)). exact HD.
    + split; [exact H1|]. intros q. rewrite H2. apply Hm.
  - cbn [tx_step fst issued]. apply IH; auto.
Qed.

(** A granted counter's persistent part is the stored one, or that plus one (or
    fresh noise below 2^20 in place of zero); it never wraps and never is the
    maximum. *)
Theorem C15_no_wrap : forall s ram r f st' c,
  (forall q, byte (mem s q)) -> bytes3 (eph ram) ->
  tx_step (s, ram) (TxCall r f) = (st', Issued c) ->
  exists p, snd (getTXNVCtrPrefix s f) = Some (Some p, f) /\
    let v := val3 p in
    0 <= v < 16777215 /\ be (firstn 3 c) < 16777215 /\
    (be (firstn 3 c) = v \/ be (firstn 3 c) = v + 1 \/ (v = 0 /\ 1 <= be (firstn 3 c) < 1048576)).
Proof.
  intros s ram r f st' c HB He HS.
  assert (H3 : forall p e, bytes3 p -> be (firstn 3 (out6 p e)) = val3 p).
  { intros [[a b] l] [[x y] z] _. unfold be, val3. cbn [firstn out6 fold_left]. lia. }
  destruct (rd3 (mem s)) as [p|] eqn:ER.
  2:{ destruct (dead_step s ram r f HB ER) as (s' & ram' & E & Hm). congruence. }
  destruct (rd3_bytes _ _ HB ER) as [HC HV]. pose proof (val3_range p HC) as HC0.
  exists p. split.
  { destruct (does_getPrefix s f) as [(s' & k & _ & Hf & _)|(s' & f' & E & Hf & _)]; [simpl in Hf; lia|].
    rewrite E, ER. cbn [snd]. simpl in Hf. do 2 f_equal. lia. }
  cbv zeta. split; [lia|].
  assert (HINC : forall e, next_result (after_inc (val3 p)) e = Some c ->
     be (firstn 3 c) = val3 p + 1 /\ val3 p + 1 < 16777215).
  { intros e. unfold after_inc. destruct (val3 p + 1 =? 16777215) eqn:E; cbn [next_result]; [discriminate|].
    intros H. apply some_inj in H. subst c. rewrite H3 by (apply enc3_bytes; lia). rewrite val3_enc by lia. lia. }
  destruct (inited ram) eqn:EI.
  - destruct (snd (eph_next ram r)) eqn:EO.
    + destruct (tx_call_does _ _ _ _ _ _ f (does_next_roll ram r s p EI EO HB ER))
        as [(s' & k & E & _ & Hm')|(s' & E & Hm')]; rewrite E in HS; [discriminate|].
      destruct (next_result _ _) eqn:EN; [|discriminate]. injection HS as _ ->.
      destruct (HINC _ EN). lia.
    + destruct (tx_call_does _ _ _ _ _ _ f (does_next_plain ram r s EI EO))
        as [(s' & k & E & Hlt & Hm')|(s' & E & Hm')]; [simpl in Hlt; lia|]. rewrite E, ER in HS.
      cbn [next_result] in HS. injection HS as _ <-. rewrite H3 by auto. lia.
  - destruct (Z.eq_dec (val3 p) 0) as [Ez|Ez].
    + assert (p = (0, 0, 0)) as -> by (rewrite <- (enc3_val p HC), Ez; reflexivity).
      destruct (reset_noise_bytes (rn r)) as [HRB HRV].
      destruct (tx_call_does _ _ _ _ _ _ f (does_next_reset ram r s EI ER))
        as [(s' & k & E & _ & Hm')|(s' & E & Hm')]; rewrite E in HS; [discriminate|].
      injection HS as _ <-. rewrite H3 by auto. lia.
    + destruct (tx_call_does _ _ _ _ _ _ f (does_next_inc ram r s p EI HB ER Ez))
        as [(s' & k & E & _ & Hm')|(s' & E & Hm')]; rewrite E in HS; [discriminate|].
      destruct (next_result _ _) eqn:EN; [|discriminate]. injection HS as _ ->.
      destruct (HINC _ EN). lia.
Qed.

Example C15_nonvacuous :
  tx_life (stored_tx 16777213, TxRam0)
    [TxCall rnd1 99; TxRestart; TxCall rnd1 99; TxRestart; TxCall rnd1 99; TxCall rnd1 99] =
  [Issued [255; 255; 254; 1; 2; 4]; Restarted; Refused; Restarted; Refused; Refused] /\
  snd (getTXNVCtrPrefix (stored_tx 16777215) 0%nat) = Some (None, 0%nat).
Proof. vm_compute. split; reflexivity. Qed.

(** ** C16 *)
(** Both copies hold [v] with matching check bytes. *)
Definition both_hold (s : EE) (v : Z) : Prop :=
  map (fun b => Z.lxor b 255) (block (mem s) 104 8) =
  let a := v / 65536 in let b := (v / 256) mod 256 in let l := v mod 256 in
  [a; b; l; crc8_3 a b l; a; b; l; crc8_3 a b l].

Lemma both_hold_win s v : 0 <= v < 16777216 -> both_hold s v -> win v 0 (mem s).
Proof.
  intros Hv H. unfold both_hold in H.
  change (map (fun b => Z.lxor b 255) (block (mem s) 104 8)) with
    [raw (mem s) 0; raw (mem s) 1; raw (mem s) 2; raw (mem s) 3; raw (mem s) 4; raw (mem s) 5; raw (mem s) 6; raw (mem s) 7] in H.
  cbv zeta in H. injection H as H0 H1 H2 H3 H4 H5 H6 H7.
  intros j Hj. exists 0. rewrite Z.add_0_r. split; [lia|]. split; [lia|].
  assert (j = 0 \/ j = 1 \/ j = 2 \/ j = 3 \/ j = 4 \/ j = 5 \/ j = 6 \/ j = 7) as HJ by lia.
  destruct HJ as [-> |[-> |[-> |[-> |[-> |[-> |[-> | ->]]]]]]]; assumption.
Qed.

#[local] Opaque crc8_3 crc8_update crc8_bit.
Lemma partial_W_readable v m k : 0 <= v < 16777214 -> win v 0 m ->
  rd3 (applyw (firstn k (W (enc3 (v + 1)))) m) <> None.
Proof.
  intros Hv HW H.
  assert (HR : forall j, 0 <= j < 8 -> raw m j = fld (j mod 4) v).
  { intros j Hj. destruct (HW j Hj) as (i & A & B & C). replace (v + i) with v in C by lia. exact C. }
  rewrite rd3_raw in H.
  destruct (le_lt_dec 4 k) as [Hk|Hk].
  - assert (HP : forall j, 0 <= j < 4 -> raw (applyw (firstn k (W (enc3 (v + 1)))) m) j = fld (j mod 4) (v + 1)).
    { intros j Hj. unfold W. rewrite firstn_at_addr. unfold raw. rewrite applyw_at. unfold TXC_START.
      assert (HL : Zlen (firstn k (map inv8 (two_copies (enc3 (v + 1))))) >= 4)
        by (unfold Zlen; rewrite firstn_length, map_length, two_copies_len; lia).
      replace ((104 <=? 104 + j) && _) with true by lia. replace (104 + j - 104) with j by lia.
      rewrite znth_firstn by lia. rewrite znth_inv8 by (unfold Zlen; rewrite two_copies_len; lia).
      rewrite inv8_inv, two_copies_fld by (try lia; apply enc3_bytes; lia). rewrite val3_enc by lia. reflexivity. }
    rewrite !HP in H by lia.
    pose proof (readOne_good (enc3 (v + 1)) (enc3_bytes (v + 1) ltac:(lia))) as HG. unfold enc3 in HG.
    change (fld (0 mod 4) (v + 1)) with ((v + 1) / 65536) in H.
    change (fld (1 mod 4) (v + 1)) with (((v + 1) / 256) mod 256) in H.
    change (fld (2 mod 4) (v + 1)) with ((v + 1) mod 256) in H.
    change (fld (3 mod 4) (v + 1)) with (crc8_3 ((v + 1) / 65536) (((v + 1) / 256) mod 256) ((v + 1) mod 256)) in H.
    rewrite HG in H. change ((v + 1) / 65536, (v + 1) / 256 mod 256, (v + 1) mod 256) with (enc3 (v + 1)) in H.
    rewrite val3_enc in H by lia. replace (v + 1 =? 16777215) with false in H by lia. discriminate.
  - assert (HP : forall j, 4 <= j < 8 -> raw (applyw (firstn k (W (enc3 (v + 1)))) m) j = fld (j mod 4) v).
    { intros j Hj. unfold W. rewrite firstn_at_addr. unfold raw. rewrite applyw_at. unfold TXC_START.
      assert (HL : Zlen (firstn k (map inv8 (two_copies (enc3 (v + 1))))) <= 4)
        by (unfold Zlen; rewrite firstn_length, map_length, two_copies_len; lia).
      replace ((104 <=? 104 + j) && _) with false by lia. apply (HR j). lia. }
    rewrite (HP 4), (HP 5), (HP 6), (HP 7) in H by lia.
    pose proof (readOne_good (enc3 v) (enc3_bytes v ltac:(lia))) as HG. unfold enc3 in HG.
    change (fld (4 mod 4) v) with (v / 65536) in H.
    change (fld (5 mod 4) v) with ((v / 256) mod 256) in H.
    change (fld (6 mod 4) v) with (v mod 256) in H.
    change (fld (7 mod 4) v) with (crc8_3 (v / 65536) ((v / 256) mod 256) (v mod 256)) in H.
    rewrite HG in H. change (v / 65536, v / 256 mod 256, v mod 256) with (enc3 v) in H.
    rewrite val3_enc in H by lia. replace (v =? 16777215) with false in H by lia.
    destruct (readOne _ _ _ _); discriminate.
Qed.

(** From both copies holding [v], a power failure anywhere in a call leaves a
    store that reads back as [v] or [v+1], and the next undisturbed call after
    the restart is granted a counter with a larger persistent part. *)
Theorem C16_single_power_failure : forall s ram r f st' v,
  (forall q, byte (mem s q)) -> bytes3 (eph ram) -> 1 <= v < 16777213 -> both_hold s v ->
  tx_step (s, ram) (TxCall r f) = (st', Crashed) ->
  (exists p, (forall f', snd (getTXNVCtrPrefix (fst st') f') = Some (Some p, f')) /\
             (val3 p = v \/ val3 p = v + 1)) /\
  (forall r' f', (8 <= f')%nat -> exists st2 c,
     tx_step st' (TxCall r' f') = (st2, Issued c) /\
     (be (firstn 3 c) = v + 1 \/ be (firstn 3 c) = v + 2)).
Proof.
  intros s ram r f st' v HB He Hv HH HS.
  pose proof (both_hold_win s v ltac:(lia) HH) as HW.
  pose proof (win_read0 v (mem s) ltac:(lia) HW) as HR0.
  assert (exists s' k, st' = (s', TxRam0) /\ meq (mem s') (applyw (firstn k (W (enc3 (v + 1)))) (mem s))) as (s' & k & -> & Hm).
  { pose proof (val3_enc v ltac:(lia)) as HVE.
    assert (HX : forall ws res ram', does (getNextTXMsgCtr ram r) s ws (res, ram') -> ws = W (enc3 (v + 1)) \/ ws = [] ->
        exists s' k, st' = (s', TxRam0) /\ meq (mem s') (applyw (firstn k (W (enc3 (v + 1)))) (mem s))).
    { intros ws res ram' HD Hws.
      destruct (tx_call_does _ _ _ _ _ _ f HD) as [(s' & k & E & Hlt & Hm')|(s' & E & Hm')]; rewrite E in HS.
      - injection HS as <-. destruct Hws as [-> | ->]; [|simpl in Hlt; lia]. exists s', k. auto.
      - destruct res; discriminate. }
    destruct (inited ram) eqn:EI.
    - destruct (snd (eph_next ram r)) eqn:EO.
      + eapply HX; [apply (does_next_roll ram r s _ EI EO HB HR0)|]. left. rewrite HVE. reflexivity.
      + eapply HX; [apply (does_next_plain ram r s EI EO)|]. auto.
    - eapply HX; [apply (does_next_inc ram r s _ EI HB HR0)|]; rewrite HVE; [lia|auto]. }
  assert (HB' : bytes_mem (mem s')).
  { eapply bytes_meq; [exact Hm|]. apply bytes_applyW; auto. apply enc3_bytes; lia. }
  assert (HW1 : win v 1 (mem s')).
  { eapply win_meq; [apply meq_sym; exact Hm|]. apply (win_W v 0); auto; lia. }
  destruct (rd3 (mem s')) as [p|] eqn:ER.
  2:{ exfalso. apply (partial_W_readable v (mem s) k ltac:(lia) HW).
      rewrite <- ER. apply rd3_meq. intros. symmetry. apply Hm. }
  destruct (win_read v 1 (mem s') p ltac:(lia) ltac:(lia) HW1 ER) as (HPB & HPV & HPV2).
  split.
  - exists p. split; [|lia]. intros f'. cbn [fst].
    destruct (does_getPrefix s' f') as [(s2 & k2 & _ & Hf & _)|(s2 & f2 & E & Hf & _)]; [simpl in Hf; lia|].
    rewrite E, ER. cbn [snd]. simpl in Hf. do 2 f_equal. lia.
  - intros r' f' Hf'.
    destruct (tx_call_does _ _ _ _ _ _ f' (does_next_inc TxRam0 r' s' p eq_refl HB' ER ltac:(lia)))
        as [(s2 & k2 & E & Hlt & _)|(s2 & E & Hm2)].
    + rewrite W_len in Hlt. lia.
    + rewrite E. unfold after_inc. replace (val3 p + 1 =? 16777215) with false by lia. cbn [next_result].
      eexists _, _. split; [reflexivity|].
      destruct (fst (eph_next TxRam0 r')) as [[x y] z]. unfold enc3, out6, be. cbn [firstn fold_left]. lia.
Qed.

#[local] Transparent crc8_3 crc8_update crc8_bit.
(** Two power failures can destroy both copies: then no counter is ever issued. *)
Theorem C16_two_power_failures_refuted :
  exists s st', both_hold s 66302 /\ (forall q, byte (mem s q)) /\
    tx_end (s, TxRam0) [TxCall rnd1 3; TxCall rnd1 1] = st' /\
    tx_life (s, TxRam0) [TxCall rnd1 3; TxCall rnd1 1] = [Crashed; Crashed] /\
    forall evs, issued (tx_life st' evs) = [].
Proof.
  eexists (stored_tx 66302), _. split; [vm_compute; reflexivity|].
  assert (HB : bytes_mem (mem (stored_tx 66302))).
  { intros q. cbn [mem stored_tx]. destruct ((104 <=? q) && (q <? 112)) eqn:E; [|unfold byte; lia].
    apply inv8_byte. apply znth_byte. vm_compute. repeat constructor; discriminate. }
  split; [exact HB|]. split; [reflexivity|]. split; [vm_compute; reflexivity|].
  intros evs. set (st' := tx_end _ _).
  assert (HG : GInv st').
  { subst st'. cbn [tx_end].
    assert (H0 : GInv (stored_tx 66302, TxRam0)) by (split; [exact HB|right; left; reflexivity]).
    assert (HC : forall st f, GInv st -> GInv (fst (tx_step st (TxCall rnd1 f)))).
    { intros st f H. pose proof (GInv_call st rnd1 f H) as HX. destruct (tx_step st (TxCall rnd1 f)) as [st1 o].
      destruct o; auto. destruct HX as (m & e & _ & _ & HX). eapply Inv_GInv; eauto. }
    auto. }
  assert (HD : rd3 (mem (fst st')) = None) by (vm_compute; reflexivity).
  destruct st' as [s' ram']. destruct HG as [HBB _].
  apply (C15_exhaustion_is_final s' ram' evs); [exact HBB|].
  intros f. destruct (does_getPrefix s' f) as [(s2 & k2 & _ & Hf & _)|(s2 & f2 & E & Hf & _)]; [simpl in Hf; lia|].
  rewrite E. cbn [fst] in HD. rewrite HD. cbn [snd]. simpl in Hf. do 2 f_equal. lia.
Qed.

Example C16_nonvacuous :
  both_hold (stored_tx 66302) 66302 /\
  tx_life (stored_tx 66302, TxRam0) [TxCall rnd1 3; TxCall rnd1 99] = [Crashed; Issued [1; 3; 0; 1; 2; 4]].
Proof. split; vm_compute; reflexivity. Qed.

Print Assumptions C14_tx_counter_partial.
Print Assumptions C14_tx_counter_unique_partial.
Print Assumptions C14_never_zero.
Print Assumptions C14_tx_counter_refuted.
Print Assumptions C14_seven_refuted.
Print Assumptions C15_exhaustion_is_final.
Print Assumptions C15_no_wrap.
Print Assumptions C16_single_power_failure.
Print Assumptions C16_two_power_failures_refuted.
