(** Lemmas about the receive counter store. *)
From Verif Require Import Base CrcModel CrcSpec CrcLin SecureModel SecureProps EepromModel EepromProofs EepromProps AssocProps TxCtrModel TxCtrProofs RxCtrModel.

(** ** Pure views of the memory. *)
Definition rdctr (m : Z -> Z) (loc : Z) : option (list Z) :=
  let c := map inv8 (block m loc 6) in
  if crc7_run 0 c =? inv8 (m (loc + 6)) then Some c else None.
Definition base_of (m : Z -> Z) (a : Z) : option (list Z) :=
  match rdctr m (a + 8) with Some c => Some c | None => rdctr m (a + 16) end.
Definition incr_of (m : Z -> Z) (a : Z) : Z := u8 (unary2_decode (m (a + 15)) (m (a + 23))).
Definition last_of (m : Z -> Z) (a : Z) : option (list Z) :=
  match base_of m a with
  | None => None
  | Some c => match msgcounteradd c (incr_of m a) with Some (true, c') => Some c' | _ => None end
  end.
(** The row address for a node: the first row with that ID. *)
Definition row_of (m : Z -> Z) (id : list Z) : option Z :=
  match scan m id 0 8 with None => None | Some (i, _) => Some (768 + 32 * i) end.

Lemma rdctr_ext m m' loc : (forall q, loc <= q < loc + 7 -> m q = m' q) -> rdctr m loc = rdctr m' loc.
Proof.
  intros H. unfold rdctr. rewrite (block_ext m m' 6 loc) by (intros; apply H; lia).
  rewrite (H (loc + 6)) by lia. reflexivity.
Qed.
Lemma base_ext m m' a : (forall q, a + 8 <= q < a + 24 -> m q = m' q) -> base_of m a = base_of m' a.
Proof.
  intros H. unfold base_of. rewrite (rdctr_ext m m' (a + 8)), (rdctr_ext m m' (a + 16)) by (intros; apply H; lia).
  reflexivity.
Qed.
Lemma incr_ext m m' a : (forall q, a + 8 <= q < a + 24 -> m q = m' q) -> incr_of m a = incr_of m' a.
Proof. intros H. unfold incr_of. rewrite !H by lia. reflexivity. Qed.
Lemma last_ext m m' a : (forall q, a + 8 <= q < a + 24 -> m q = m' q) -> last_of m a = last_of m' a.
Proof. intros H. unfold last_of. rewrite (base_ext m m' a H), (incr_ext m m' a H). reflexivity. Qed.

Lemma map_inv8_bytes l : Forall byte l -> Forall byte (map inv8 l).
Proof. intros H. apply Forall_map. revert H. apply Forall_impl. intros. apply inv8_byte. auto. Qed.
Lemma rdctr_six m loc c : bytes_mem m -> rdctr m loc = Some c -> Zlen c = 6 /\ Forall byte c.
Proof.
  intros HB. unfold rdctr. destruct (_ =? _); [|discriminate]. intros H. apply some_inj in H. subst c.
  split; [unfold Zlen; rewrite map_length, block_len; reflexivity|].
  apply map_inv8_bytes, block_bytes. exact HB.
Qed.
Lemma base_six m a c : bytes_mem m -> base_of m a = Some c -> Zlen c = 6 /\ Forall byte c.
Proof.
  intros HB. unfold base_of. destruct (rdctr m (a + 8)) eqn:E.
  - intros H. apply some_inj in H. subst. eapply rdctr_six; eauto.
  - apply rdctr_six. exact HB.
Qed.
Lemma incr_byte m a : byte (incr_of m a).
Proof. apply u8_byte. Qed.
Lemma last_six m a c : bytes_mem m -> last_of m a = Some c -> Zlen c = 6 /\ Forall byte c.
Proof.
  intros HB. unfold last_of. destruct (base_of m a) as [b|] eqn:E; [|discriminate].
  destruct (base_six _ _ _ HB E) as [H6 Hb].
  destruct (C09_add_behaviour b (incr_of m a) H6 Hb (incr_byte m a)) as (ok & c' & -> & A & B & _).
  destruct ok; [|discriminate]. intros H. apply some_inj in H. subst. auto.
Qed.

(** ** Reads *)
Lemma does_readCtr loc s : does (readCtr loc) s [] (rdctr (mem s) loc).
Proof.
  unfold readCtr. eapply does_bind0; [apply does_read_block|]. intros s1 H1. cbv beta zeta.
  eapply does_bind0; [apply does_read|]. intros s2 H2. cbv beta. unfold rdctr.
  rewrite (H1 (loc + 6)). destruct (_ =? _); cbn [negb]; apply does_ret.
Qed.
Lemma does_readBase row s : does (readBase row) s [] (base_of (mem s) row).
Proof.
  unfold readBase, base_of, CNT0, CNT1. eapply does_bind0; [apply does_readCtr|]. intros s1 H1. cbv beta.
  destruct (rdctr (mem s) (row + 8)); [apply does_ret|].
  rewrite (rdctr_ext (mem s) (mem s1) (row + 16)) by (intros; symmetry; apply H1). apply does_readCtr.
Qed.
Lemma does_readIncr row s : does (readIncr row) s [] (incr_of (mem s) row).
Proof.
  unfold readIncr, incr_of, CNT0, CNT1. eapply does_bind0; [apply does_read|]. intros s1 H1. cbv beta.
  eapply does_bind0; [apply does_read|]. intros s2 H2. cbv beta.
  replace (row + 8 + 7) with (row + 15) by lia. replace (row + 16 + 7) with (row + 23) by lia.
  rewrite (H1 (row + 23)). apply does_ret.
Qed.
Lemma does_lookup id s : Zlen id = 8 ->
  does (getNextMatchingNodeID 0 (Some id) 8) s [] (scan (mem s) id 0 8).
Proof.
  intros H. unfold getNextMatchingNodeID. change (0 >=? ASSOC_MAX) with false. change (8 >? 8) with false. cbv iota.
  change (Z.to_nat (ASSOC_MAX - 0)) with 8%nat.
  rewrite firstn_all2 by (unfold Zlen in H; lia).
  apply does_match_rows. lia.
Qed.
Definition lookup_last (m : Z -> Z) (id : list Z) : option (list Z) :=
  match row_of m id with None => None | Some a => last_of m a end.
Lemma does_getLast id s : Zlen id = 8 -> does (getLastRXMsgCtr id) s [] (lookup_last (mem s) id).
Proof.
  intros H. unfold getLastRXMsgCtr, lookup_last, row_of.
  eapply does_bind0; [apply does_lookup; auto|]. intros s1 H1. cbv beta.
  destruct (scan (mem s) id 0 8) as [[i x]|]; [|apply does_ret]. cbv zeta. rewrite row_addr_eq.
  eapply does_bind0; [apply does_readIncr|]. intros s2 H2. cbv beta.
  eapply does_bind0; [apply does_readBase|]. intros s3 H3. cbv beta. unfold last_of.
  rewrite (base_ext (mem s2) (mem s)) by (intros; rewrite H2; apply H1).
  rewrite (incr_ext (mem s1) (mem s)) by (intros; apply H1).
  destruct (base_of (mem s) _); [|apply does_ret].
  destruct (msgcounteradd _ _) as [[[|] c']|]; apply does_ret.
Qed.
Definition newer (m : Z -> Z) (id new : list Z) : bool :=
  match lookup_last m id with None => false | Some cur => be new >? be cur end.
Lemma lookup_last_six m id c : bytes_mem m -> lookup_last m id = Some c -> Zlen c = 6 /\ Forall byte c.
Proof. unfold lookup_last. destruct (row_of m id); [|discriminate]. apply last_six. Qed.
Lemma does_validate id new s : Zlen id = 8 -> Zlen new = 6 -> Forall byte new -> bytes_mem (mem s) ->
  does (validateRX id new) s [] (newer (mem s) id new).
Proof.
  intros H H6 HN HB. unfold validateRX, newer.
  eapply does_bind0; [apply does_getLast; auto|]. intros s1 H1. cbv beta.
  destruct (lookup_last (mem s) id) as [cur|] eqn:E; [|apply does_ret].
  destruct (lookup_last_six _ _ _ HB E) as [C6 CB].
  destruct (C08_cmp_numeric new cur H6 C6 HN CB) as (r & -> & A & B & C).
  replace (be new >? be cur) with (r >? 0); [apply does_ret|].
  destruct (r >? 0) eqn:E1, (be new >? be cur) eqn:E2; try reflexivity; exfalso; lia.
Qed.

(** ** Writes *)
Definition upd_ws (m : Z -> Z) (loc : Z) (new : list Z) : list (Z * Z) :=
  (loc + 6, Z.land (m (loc + 6)) 127) :: at_addr loc (map inv8 new) ++ [(loc + 6, inv8 (crc7_run 0 new))].
Lemma does_update loc new s : Zlen new = 6 ->
  does (updateRXMessageCount loc new) s (upd_ws (mem s) loc new) true.
Proof.
  intros H6. unfold updateRXMessageCount, upd_ws.
  change ((loc + 6, Z.land (mem s (loc + 6)) 127) :: at_addr loc (map inv8 new) ++ [(loc + 6, inv8 (crc7_run 0 new))])
    with ([(loc + 6, Z.land (mem s (loc + 6)) 127)] ++ at_addr loc (map inv8 new) ++ [(loc + 6, inv8 (crc7_run 0 new))]).
  eapply does_bind; [apply does_smart_clear|]. intros s1 H1. cbv beta zeta.
  eapply does_bind; [apply does_save_checked|]. intros s2 H2. cbv beta. cbn [negb].
  rewrite <- (app_nil_r [(loc + 6, inv8 (crc7_run 0 new))]).
  eapply does_bind; [apply does_smart_update|]. intros s3 H3. cbv beta.
  eapply does_bind0; [apply does_read|]. intros s4 H4. cbv beta.
  rewrite (H3 (loc + 6)). cbn [applyw fold_left fst snd]. unfold upd. rewrite !Z.eqb_refl. apply does_ret.
Qed.
Definition full_ws (m : Z -> Z) (a : Z) (new : list Z) : list (Z * Z) :=
  upd_ws m (a + 8) new ++ upd_ws m (a + 16) new ++ [(a + 23, 255); (a + 15, 255)].
Definition unary_ws (a n : Z) : list (Z * Z) :=
  [(a + 23, u8 (unary2_encode n)); (a + 15, u8 (Z.shiftr (unary2_encode n) 8))].

(** The updates made by a request to move row [a] to [new]; None if refused. *)
Definition plan (m : Z -> Z) (a : Z) (new : list Z) : option (list (Z * Z)) :=
  match base_of m a with
  | None => None
  | Some b =>
    match msgcounteradd b 16 with
    | Some (true, mx) =>
      if be mx >=? be new then
        match unary_find b new (incr_of m a) 17 with None => None | Some n => Some (unary_ws a n) end
      else Some (full_ws m a new)
    | _ => None
    end
  end.
Definition auth_plan (m : Z -> Z) (id new : list Z) : option (list (Z * Z)) :=
  if newer m id new then
    match row_of m id with None => None | Some a => plan m a new end
  else None.
Lemma upd_ws_other m loc new w : Zlen new = 6 -> In w (upd_ws m loc new) -> loc <= fst w < loc + 7.
Proof.
  intros H6. unfold upd_ws. intros [<-|H]; [cbn [fst]; lia|].
  apply in_app_or in H. destruct H as [H|[<-|[]]]; [|cbn [fst]; lia].
  apply at_addr_in in H. unfold Zlen in *. rewrite map_length in H. lia.
Qed.
Lemma base_meq m m' a : meq m m' -> base_of m a = base_of m' a.
Proof. intros H. apply base_ext. intros. apply H. Qed.
Lemma row_of_meq m m' id : meq m m' -> row_of m id = row_of m' id.
Proof. intros H. unfold row_of. rewrite (scan_meq m m' id H). reflexivity. Qed.
Lemma upd_ws_meq m m' loc new : m (loc + 6) = m' (loc + 6) -> upd_ws m loc new = upd_ws m' loc new.
Proof. intros H. unfold upd_ws. rewrite H. reflexivity. Qed.

Lemma does_auth id new s : Zlen id = 8 -> Zlen new = 6 -> Forall byte new -> bytes_mem (mem s) ->
  does (authAndUpdateRXMsgCtr id new) s
    (match auth_plan (mem s) id new with None => [] | Some ws => ws end)
    (match auth_plan (mem s) id new with None => false | Some _ => true end).
Proof.
  intros H8 H6 HN HB. unfold authAndUpdateRXMsgCtr, auth_plan, row_of.
  eapply does_bind0; [apply does_validate; auto|]. intros s1 H1. cbv beta.
  destruct (newer (mem s) id new); cbn [negb]; [|apply does_ret].
  eapply does_bind0; [apply does_lookup; auto|]. intros s2 H2. cbv beta.
  rewrite (scan_meq (mem s1) (mem s) id H1).
  destruct (scan (mem s) id 0 8) as [[i x]|]; [|apply does_ret]. cbv zeta. rewrite row_addr_eq.
  set (a := 768 + 32 * i).
  eapply does_bind0; [apply does_readBase|]. intros s3 H3. cbv beta.
  assert (H2' : meq (mem s2) (mem s)) by (eapply meq_trans; eauto).
  assert (H3' : meq (mem s3) (mem s)) by (eapply meq_trans; eauto).
  rewrite (base_meq _ _ a H2'). unfold plan.
  destruct (base_of (mem s) a) as [b|] eqn:EB; [|apply does_ret].
  destruct (base_six _ _ _ HB EB) as [B6 BB].
  destruct (C09_add_behaviour b 16 B6 BB ltac:(unfold byte; lia)) as (ok & mx & -> & M6 & MB & _).
  destruct ok; [|apply does_ret].
  destruct (C08_cmp_numeric mx new M6 H6 MB HN) as (r & -> & A & B & C).
  replace (be mx >=? be new) with (r >=? 0)
    by (destruct (r >=? 0) eqn:E1, (be mx >=? be new) eqn:E2; try reflexivity; exfalso; lia).
  destruct (r >=? 0).
  - eapply does_bind0; [apply does_readIncr|]. intros s4 H4. cbv beta.
    rewrite (incr_ext (mem s3) (mem s)) by (intros; apply H3').
    destruct (unary_find b new (incr_of (mem s) a) 17) as [n|]; [|apply does_ret].
    cbv zeta. unfold unary_ws, CNT0, CNT1.
    replace (a + 16 + 7) with (a + 23) by lia. replace (a + 8 + 7) with (a + 15) by lia.
    change [(a + 23, u8 (unary2_encode n)); (a + 15, u8 (Z.shiftr (unary2_encode n) 8))]
      with ([(a + 23, u8 (unary2_encode n))] ++ [(a + 15, u8 (Z.shiftr (unary2_encode n) 8))] ++ []).
    eapply does_bind; [apply does_smart_update|]. intros s5 _. cbv beta.
    eapply does_bind; [apply does_smart_update|]. intros s6 _. apply does_ret.
  - unfold full_ws, CNT0, CNT1.
    rewrite (upd_ws_meq (mem s) (mem s3) (a + 8)) by (symmetry; apply H3').
    eapply does_bind; [apply does_update; auto|]. intros s4 H4. cbv beta. cbn [negb].
    rewrite (upd_ws_meq (mem s) (mem s4) (a + 16)).
    2:{ rewrite H4, applyw_other; [symmetry; apply H3'|]. intros w Hw. apply upd_ws_other in Hw; auto. lia. }
    eapply does_bind; [apply does_update; auto|]. intros s5 H5. cbv beta. cbn [negb].
    replace (a + 16 + 7) with (a + 23) by lia. replace (a + 8 + 7) with (a + 15) by lia.
    change [(a + 23, 255); (a + 15, 255)] with ([(a + 23, 255)] ++ [(a + 15, 255)] ++ []).
    eapply does_bind; [apply does_smart_erase|]. intros s6 _. cbv beta.
    eapply does_bind; [apply does_smart_erase|]. intros s7 _. apply does_ret.
Qed.
