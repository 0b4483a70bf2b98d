(** C53, C54: the whole transmitter. *)
From Coq Require Sorted.
From Verif Require Import Base CrcSpec FrameModel FrameSpec FrameProofs SecureModel SecureSpec SecureProps SecureProofs SecureRawProps EepromModel EepromProofs TxCtrModel TxCtrProofs TxCtrWindow TxCtrProps SecureTxModel.

Lemma wr_0 a q v : wr (a :: q) 0 v = Some (v :: q).
Proof.
  unfold wr, blit. replace ((0 <=? 0) && (0 + Zlen [v] <=? Zlen (a :: q))) with true; [reflexivity|].
  autorewrite with zlen. pose proof (Zlen_nonneg q). lia.
Qed.
Lemma wr_1 a b q v : wr (a :: b :: q) 1 v = Some (a :: v :: q).
Proof.
  unfold wr, blit. replace ((0 <=? 1) && (1 + Zlen [v] <=? Zlen (a :: b :: q))) with true; [reflexivity|].
  autorewrite with zlen. pose proof (Zlen_nonneg q). lia.
Qed.

(** ** C54: each secure-send entry point, for any TX object.
    [idb] is the 8-byte ID and [ctr] the 6-byte counter its virtual functions supply. *)
Section AnyTx.
Context {S : Type} (getID : S -> option (list Z)) (getCtr : S -> option (list Z) * S).

(** The plaintext handed to the cipher for a body of [plen] bytes at the start of [p]. *)
Definition cipher_input (ptext : option (list Z)) (plen : Z) : option (list Z) :=
  if plen =? 0 then None else
  match ptext with Some p => Some (padded (firstn (Z.to_nat plen) p)) | None => None end.

(** Generic bodies: success exactly when everything fits and the cipher accepts. *)
Theorem C54_encode_exact_partial : forall s s' e ptext plen out n ty il ss key idb ctr,
  enc_sized e -> getID s = Some idb -> getID s' = Some idb -> getCtr s = (Some ctr, s') ->
  Zlen idb = 8 -> Forall byte idb -> Zlen ctr = 6 -> Forall byte ctr ->
  0 <= il <= 8 -> byte ty -> byte plen -> n <= Zlen out ->
  (plen <> 0 -> exists p, ptext = Some p /\ 32 <= Zlen p) ->
  let iv := firstn 6 idb ++ ctr in
  let id := firstn (Z.to_nat il) idb in
  let c := e (ss - 20) key iv (frame_header true ty (znth ctr 5) id (cipher_len plen) 23) (cipher_input ptext plen) in
  exists r s2 p o,
    encode S getID getCtr s e ptext plen (Some out) n ty il ss (Some key) = Some (r, s2, p, o) /\
    (r <> 0 <-> 292 <= ss /\ plen <= 31 /\ 1 <= ty <= 126 /\
       27 + il + cipher_len plen <= 64 /\ 27 + il + cipher_len plen <= n /\ c <> None) /\
    (r <> 0 -> s2 = s' /\ r = 27 + il + cipher_len plen /\
       exists ct tag, c = Some (ct, tag) /\
         o = Some (secure_frame ty iv id ct tag ++ skipn (Z.to_nat r) out)).
Proof.
  intros s s' e ptext plen out n ty il ss key idb ctr He H1 H2 H3 HI HIb HC HCb Hil Hty Hpl Hn Hpt iv id c.
  unfold byte in *.
  assert (Hiv : Zlen iv = 12) by (unfold iv; rewrite Zlen_app, Zlen_firstn; lia).
  assert (Hivb : Forall byte iv) by (unfold iv; apply Forall_app; split; [apply Forall_firstn'|]; assumption).
  assert (H11 : znth iv 11 = znth ctr 5).
  { unfold iv. rewrite znth_app by lia. rewrite Zlen_firstn, HI. reflexivity. }
  unfold encode, encode_total_scratch_usage.
  destruct (ss <? 292) eqn:E1.
  { exists 0, s, ptext, (Some out). split; [reflexivity|]. split; [|lia]. split; [lia|]. lia. }
  destruct ((ty >=? FTS_INVALID_HIGH) || (ty =? FTS_NONE)) eqn:E2.
  { exists 0, s, ptext, (Some out). split; [reflexivity|]. unfold FTS_INVALID_HIGH, FTS_NONE in E2. split; [|lia]. split; [lia|]. lia. }
  unfold computeIVForTX12B. rewrite H1, H3, H2. fold iv.
  assert (Hsub : subspace ss encode_scratch_usage = ss - 20).
  { unfold subspace, encode_scratch_usage. change (0 =? 20) with false. cbn [orb]. destruct (ss <=? 20) eqn:?; lia. }
  rewrite Hsub.
  set (actual := if il >? 6 then idb else iv).
  assert (Hact : (if il >? 6 then Some idb else Some iv) = Some actual) by (unfold actual; destruct (il >? 6); reflexivity).
  rewrite Hact.
  assert (Hid : firstn (Z.to_nat il) actual = id).
  { unfold actual, id. destruct (il >? 6) eqn:E; [reflexivity|]. unfold iv. rewrite firstn_app, firstn_firstn.
    replace (Z.to_nat il - length (firstn 6 idb))%nat with 0%nat by (rewrite firstn_length; unfold Zlen in HI; lia).
    rewrite firstn_O, app_nil_r. f_equal. lia. }
  destruct (C54_encodeRaw_exact e ptext plen out n ty actual il iv (ss - 20) key He Hiv Hivb
     ltac:(unfold actual; destruct (il >? 6); lia) Hty Hpl Hn Hpt) as (r & p & o & ER & HR1 & HR2).
  rewrite ER. cbn [bind]. rewrite Hid, H11 in HR1, HR2.
  fold (cipher_input ptext plen) in HR1, HR2. fold c in HR1, HR2.
  exists r, s', p, o. split; [reflexivity|]. split.
  - rewrite HR1. split; [intros (A & B & C & D & E & F)|intros (A & B & C & D & E & F)]; repeat split; try tauto; try lia.
  - intros Hr. destruct (HR2 Hr) as (A & ct & tag & B & C & D).
    split; [reflexivity|]. split; [exact A|]. exists ct, tag. auto.
Qed.

(** Valve frames: the optional JSON stats [j] held in the plaintext buffer from
    offset 2 as a C string starting with '{'. *)
Definition holds_stats (p : list Z) (j : option (list Z)) : Prop :=
  match j with
  | None => znth p 2 <> 123
  | Some j => znth j 0 = 123 /\ Forall (fun c => c <> 0) j /\ exists rest, skipn 2 p = j ++ 0 :: rest
  end.
(** The frame body: valve percentage (127: none), flags, stats without the final '}'. *)
Definition valve_body (pc : Z) (j : option (list Z)) : list Z :=
  (if pc <=? 100 then pc else 127) :: match j with None => [0] | Some j => 16 :: firstn (length j - 1) j end.

Lemma strlen_l_app j rest : Forall (fun c => c <> 0) j -> strlen_l (j ++ 0 :: rest) = Some (Zlen j).
Proof.
  induction 1 as [|c j Hc _ IH]; [reflexivity|]. cbn [app strlen_l]. replace (c =? 0) with false by lia.
  rewrite IH. cbn [bind]. rewrite Zlen_cons. reflexivity.
Qed.

Theorem C54_valve_exact_partial : forall s s' e p j out n il pc ss key idb ctr,
  enc_sized e -> getID s = Some idb -> getCtr s = (Some ctr, s') ->
  Zlen idb = 8 -> Forall byte idb -> Zlen ctr = 6 -> Forall byte ctr ->
  0 <= il <= 8 -> byte pc -> n <= Zlen out -> 32 <= Zlen p -> holds_stats p j ->
  let iv := firstn 6 idb ++ ctr in
  let id := firstn (Z.to_nat il) idb in
  let c := e (ss - 12) key iv (frame_header true 79 (znth ctr 5) id 32 23) (Some (padded (valve_body pc j))) in
  exists r s2 p2 o,
    encodeValveFrame S getID getCtr s e (Some p) (Some out) n il pc ss (Some key) = Some (r, s2, p2, o) /\
    (r <> 0 <-> 284 <= ss /\ Zlen (valve_body pc j) <= 31 /\ il <= 5 /\ 59 + il <= n /\ c <> None) /\
    (r <> 0 -> s2 = s' /\ r = 59 + il /\
       exists ct tag, c = Some (ct, tag) /\
         o = Some (secure_frame 79 iv id ct tag ++ skipn (Z.to_nat r) out)).
Proof.
  intros s s' e p j out n il pc ss key idb ctr He H1 H3 HI HIb HC HCb Hil Hpc Hn Hp Hj iv id c.
  unfold byte in *.
  assert (Hiv : Zlen iv = 12) by (unfold iv; rewrite Zlen_app, Zlen_firstn; lia).
  assert (Hivb : Forall byte iv) by (unfold iv; apply Forall_app; split; [apply Forall_firstn'|]; assumption).
  assert (H11 : znth iv 11 = znth ctr 5).
  { unfold iv. rewrite znth_app by lia. rewrite Zlen_firstn, HI. reflexivity. }
  unfold encodeValveFrame, encodeValveFrame_total_scratch_usage.
  destruct (ss <? 284) eqn:E1.
  { exists 0, s, (Some p), (Some out). split; [reflexivity|]. split; [|lia]. lia. }
  unfold computeIVForTX12B. rewrite H1, H3. fold iv.
  rewrite rd_some by lia. cbn [bind].
  assert (Hsub : subspace ss encodeValveFrame_scratch_usage = ss - 12).
  { unfold subspace, encodeValveFrame_scratch_usage. change (0 =? 12) with false. cbn [orb]. destruct (ss <=? 12) eqn:?; lia. }
  rewrite Hsub.
  set (pc' := if pc <=? 100 then pc else 127) in *.
  set (flags := match j with None => 0 | Some _ => 16 end).
  set (tail := match j with None => [] | Some j => firstn (length j - 1) j end).
  assert (Hbody : valve_body pc j = pc' :: flags :: tail) by (unfold valve_body, flags, tail; destruct j; reflexivity).
  assert (HP2 : exists a b q, p = a :: b :: q /\ 30 <= Zlen q /\ skipn 2 p = q /\ znth p 2 = znth q 0).
  { destruct p as [|a [|b q]]; try (unfold Zlen in Hp; simpl in Hp; lia). exists a, b, q.
    rewrite !Zlen_cons in Hp. repeat split. lia. }
  destruct HP2 as (a & b & q & HPeq & Hq & HSk & HZ).
  assert (HH : (znth p 2 =? 123) = match j with None => false | Some _ => true end /\
    match j with None => True | Some j => strlen_l (skipn 2 p) = Some (Zlen j) /\ 1 <= Zlen j /\ exists rest, q = j ++ 0 :: rest end).
  { destruct j as [j|]; [|split; [unfold holds_stats in Hj; lia|exact I]].
    destruct Hj as (J1 & J2 & rest & J3).
    assert (1 <= Zlen j) by (destruct j; [unfold znth in J1; simpl in J1; lia|rewrite Zlen_cons; pose proof (Zlen_nonneg j); lia]).
    split.
    - rewrite HZ, <- HSk, J3. rewrite znth_app by lia. replace (0 <? Zlen j) with true by lia. rewrite J1. reflexivity.
    - rewrite J3, strlen_l_app by assumption. split; [reflexivity|]. split; [assumption|]. exists rest. rewrite <- HSk, J3. reflexivity. }
  destruct HH as [Hhas Hlen]. rewrite Hhas.
  assert (Hslp : (if (match j with None => false | Some _ => true end) then strlen_l (skipn 2 p) else Some 1) =
                 Some (match j with None => 1 | Some j => Zlen j end)).
  { destruct j as [j|]; [apply Hlen|reflexivity]. }
  rewrite Hslp. cbn [bind].
  assert (HBL : Zlen (valve_body pc j) = 1 + match j with None => 1 | Some j => Zlen j end).
  { unfold valve_body. destruct j as [j|]; rewrite !Zlen_cons; [|reflexivity]. unfold Zlen. rewrite firstn_length.
    destruct Hlen as (_ & Hlen & _). unfold Zlen in Hlen. lia. }
  set (slp := match j with None => 1 | Some j => Zlen j end) in *.
  assert (Hslp1 : 1 <= slp) by (unfold slp; destruct j; [tauto|lia]).
  destruct (slp >? 30) eqn:E30.
  { exists 0, s', (Some p), (Some out). split; [reflexivity|]. split; [|lia]. split; [lia|]. lia. }
  rewrite HPeq, wr_0. cbn [bind]. rewrite wr_1. cbn [bind].
  replace (if match j with None => false | Some _ => true end then 16 else 0) with flags by (unfold flags; destruct j; reflexivity).
  destruct (il >? 6) eqn:E6.
  { exists 0, s', (Some (pc' :: flags :: q)), (Some out). split; [reflexivity|]. split; [|lia]. split; [lia|]. lia. }
  assert (HPL : (if match j with None => false | Some _ => true end then u8 (2 + u8 (slp - 1)) else 2) = Zlen (valve_body pc j)).
  { rewrite HBL. assert (HU : u8 (2 + u8 (slp - 1)) = 1 + slp) by (rewrite (u8_id (slp - 1)), u8_id by (unfold byte; lia); lia).
    rewrite HU. unfold slp. destruct j; reflexivity. }
  rewrite HPL. set (pl := Zlen (valve_body pc j)) in *.
  assert (Hid : firstn (Z.to_nat il) iv = id).
  { unfold id, iv. rewrite firstn_app, firstn_firstn.
    replace (Z.to_nat il - length (firstn 6 idb))%nat with 0%nat by (rewrite firstn_length; unfold Zlen in HI; lia).
    rewrite firstn_O, app_nil_r. f_equal. lia. }
  destruct (C54_encodeRaw_exact e (Some (pc' :: flags :: q)) pl out n FTS_BasicSensorOrValve iv il iv (ss - 12) key He Hiv Hivb
     ltac:(lia) ltac:(unfold FTS_BasicSensorOrValve, byte; lia) ltac:(unfold byte; lia) Hn
     ltac:(intros _; eexists; split; [reflexivity|rewrite !Zlen_cons; lia])) as (r & p2 & o & ER & HR1 & HR2).
  rewrite ER. cbn [bind]. rewrite Hid, H11 in HR1, HR2.
  assert (HCI : (if pl =? 0 then None else Some (padded (firstn (Z.to_nat pl) (pc' :: flags :: q)))) = Some (padded (valve_body pc j))).
  { replace (pl =? 0) with false by lia. do 2 f_equal. rewrite Hbody.
    assert (Z.to_nat pl = Datatypes.S (Datatypes.S (length tail))) as -> by (unfold pl; rewrite Hbody; unfold Zlen; simpl length; lia).
    cbn [firstn]. do 2 f_equal. unfold tail. destruct j as [j|]; [|reflexivity].
    destruct Hlen as (_ & _ & rest & ->). rewrite firstn_length. replace (Nat.min (length j - 1) (length j)) with (length j - 1)%nat by lia.
    rewrite firstn_app. replace (length j - 1 - length j)%nat with 0%nat by lia. rewrite firstn_O, app_nil_r. reflexivity. }
  rewrite HCI in HR1, HR2. replace (cipher_len pl) with 32 in HR1, HR2 by (unfold cipher_len; replace (pl =? 0) with false by lia; reflexivity).
  change FTS_BasicSensorOrValve with 79 in HR1, HR2. fold c in HR1, HR2.
  exists r, s', p2, o. split; [reflexivity|]. split.
  - rewrite HR1. split; [intros (A & B & C & D & E & F)|intros (A & B & C & D & E)]; repeat split; try tauto; try lia.
  - intros Hr. destruct (HR2 Hr) as (A & ct & tag & B & C & D).
    split; [reflexivity|]. split; [lia|]. exists ct, tag. auto.
Qed.

(** Beacons: with every argument valid, generateSecureBeacon still returns 0 --
    it passes a zero-sized NULL output buffer -- but uses up a message counter. *)
Theorem C54_beacon_refuted : forall s s' e buf il ss key idb ctr,
  getID s = Some idb -> getID s' = Some idb -> getCtr s = (Some ctr, s') -> Zlen idb = 8 -> Zlen ctr = 6 ->
  0 <= il <= 8 -> 292 <= ss ->
  generateSecureBeacon S getID getCtr s e (Some buf) il ss (Some key) = Some (0, s', Some buf, None).
Proof.
  intros s s' e buf il ss key idb ctr H1 H2 H3 HI HC Hil Hss.
  unfold generateSecureBeacon, encode, encode_total_scratch_usage. replace (ss <? 292) with false by lia.
  change ((FTS_ALIVE >=? FTS_INVALID_HIGH) || (FTS_ALIVE =? FTS_NONE)) with false. cbv iota.
  unfold computeIVForTX12B. rewrite H1, H3, H2.
  assert (Hiv : Zlen (firstn 6 idb ++ ctr) = 12) by (rewrite Zlen_app, Zlen_firstn; lia).
  set (iv := firstn 6 idb ++ ctr) in *.
  assert (Hact : exists actual, (if il >? 6 then Some idb else Some iv) = Some actual /\ il <= Zlen actual).
  { destruct (il >? 6) eqn:E; eexists; (split; [reflexivity|]); lia. }
  destruct Hact as (actual & -> & HA).
  unfold encodeRaw. change (0 >? 31) with false. rewrite rd_some by lia. cbn [bind].
  unfold encodeHeader. change ((FTS_ALIVE =? FTS_NONE) || (FTS_ALIVE >=? FTS_INVALID_HIGH)) with false. cbv iota.
  replace (il >? maxIDLength) with false by (unfold maxIDLength; lia). cbv zeta.
  replace (4 + il >? 0) with true by lia.
  destruct (il >? 0) eqn:E0; [|reflexivity].
  rewrite sub_some by lia. cbn [bind].
  unfold blit. cbn [hid hdr0 set_fl set_ftype set_seqil].
  match goal with |- context [if ?b then Some (?x ++ ?y) else None] => replace b with true end; [reflexivity|].
  symmetry. rewrite Zlen_firstn, Zlen_skipn. unfold set_fl, set_ftype, set_seqil, hdr0. cbn [hid]. change (Zlen (repeat 0 8)) with 8. lia.
Qed.
End AnyTx.

(** The documented "ptext may be a nullptr" case of valve frames writes through NULL. *)
Theorem C54_valve_null_refuted :
  exists (s : unit) (getID : unit -> option (list Z)) (getCtr : unit -> option (list Z) * unit) e out key,
    enc_sized e /\
    encodeValveFrame unit getID getCtr s e None (Some out) 64 4 50 400 (Some key) = None.
Proof.
  exists tt, (fun _ => Some (repeat 128 8)), (fun _ => (Some [0;0;0;0;0;1], tt)), enc_demo, (repeat 0 64), [].
  split; [exact enc_demo_sized|]. reflexivity.
Qed.

(** A TX object whose ID source fails between its two uses makes encode() report
    255 bytes written although nothing was. *)
Theorem C54_id_failure_refuted :
  exists (getID : nat -> option (list Z)) (getCtr : nat -> option (list Z) * nat) e out key,
    enc_sized e /\
    encode nat getID getCtr 0%nat e None 0 (Some out) 64 33 8 400 (Some key) = Some (255, 1%nat, None, Some out).
Proof.
  exists (fun n => match n with O => Some (repeat 128 8) | _ => None end), (fun n => (Some [0;0;0;0;0;1], Datatypes.S n)), enc_demo, (repeat 0 64), [].
  split; [exact enc_demo_sized|]. reflexivity.
Qed.

(** ** C53 *)
(** A request with valid buffers and sizes. *)
Definition req_ok (q : SendReq) : Prop :=
  match q with
  | ReqBody ptext plen out n ty il ss key =>
      key <> None /\ (exists o, out = Some o /\ n <= Zlen o) /\ byte ty /\ byte plen /\ 0 <= il <= 8 /\
      (plen <> 0 -> exists p, ptext = Some p /\ 32 <= Zlen p)
  | ReqValve ptext out n il pc ss key =>
      key <> None /\ (exists o, out = Some o /\ n <= Zlen o) /\ byte pc /\ 0 <= il <= 8 /\
      exists p j, ptext = Some p /\ 32 <= Zlen p /\ holds_stats p j
  | ReqBeacon buf il ss key => key <> None /\ 0 <= il <= 8 /\ exists b, buf = Some b
  end.
Definition ev_ok (ev : SEv) : Prop := match ev with SSend _ _ q => req_ok q | SRestart => True end.
(** The message counter carried in a frame's trailer; with the sender's ID it is the IV. *)
Definition sent_ctr (f : list Z) : list Z := firstn 6 (skipn (Z.to_nat (Zlen f - 23)) f).
Fixpoint losses (os : list SOut) : Z :=
  match os with [] => 0 | PowerLost :: r => 1 + losses r | _ :: r => losses r end.

Lemma GInv_bytes st : GInv st -> bytes_mem (mem (fst st)).
Proof. destruct st as [s ram]. intros [H _]. exact H. Qed.
Lemma sent_ctr_frame ty iv id ct tag out r : Zlen iv = 12 -> Zlen tag = 16 ->
  r = 27 + Zlen id + Zlen ct ->
  sent_ctr (firstn (Z.to_nat r) (secure_frame ty iv id ct tag ++ skipn (Z.to_nat r) out)) = firstn 6 (skipn 6 iv).
Proof.
  intros Hiv Htag Hr. unfold secure_frame, frame_bytes.
  set (T := secure_trailer iv tag). assert (HT : Zlen T = 23) by (unfold T, secure_trailer; autorewrite with zlen; rewrite iv_ctr_len by auto; lia).
  set (H := frame_header _ _ _ _ _ _). assert (HH : Zlen H = 4 + Zlen id) by (unfold H; rewrite frame_header_len; reflexivity).
  assert (HF : Zlen (H ++ ct ++ T) = r) by (rewrite !Zlen_app; lia).
  rewrite firstn_Zlen_app by (symmetry; exact HF). unfold sent_ctr. rewrite HF.
  rewrite app_assoc. assert (HL : Z.to_nat (r - 23) = length (H ++ ct)).
  { assert (Zlen (H ++ ct) = r - 23) by (rewrite Zlen_app; lia). unfold Zlen in *. lia. }
  rewrite HL, skipn_app, skipn_all, Nat.sub_diag. cbn [app skipn]. unfold T, secure_trailer.
  rewrite firstn_app. unfold iv_ctr. rewrite firstn_firstn. change (Nat.min 6 6) with 6%nat.
  replace (6 - length (firstn 6 (skipn 6 iv)))%nat with 0%nat; [rewrite firstn_O, app_nil_r; reflexivity|].
  rewrite firstn_length, skipn_length. unfold Zlen in Hiv. lia.
Qed.

Lemma tx_next_step s ram r f :
  match tx_next (mkTxS s ram r (Some f)) with
  | (c, s') => tx_step (s, ram) (TxCall r f) =
      ((tx_ee s', tx_ram s'), match tx_pow s' with None => Crashed | Some _ => match c with Some c => Issued c | None => Refused end end)
      /\ (tx_pow s' = None -> c = None)
  end.
Proof.
  unfold tx_next, tx_step. cbn [tx_pow tx_ram tx_rnd tx_ee].
  destruct (getNextTXMsgCtr ram r s f) as [s' [[[c ram'] f']|]]; cbn [tx_ee tx_ram tx_pow]; (split; [|try discriminate; auto]); [|reflexivity].
  destruct c; reflexivity.
Qed.
Lemma tx_id_bytes s : bytes_mem (mem (tx_ee s)) -> exists idb, tx_id s = Some idb /\ Zlen idb = 8 /\ Forall byte idb.
Proof.
  intros H. eexists. split; [reflexivity|]. split; [reflexivity|]. apply Forall_forall. intros x Hx.
  apply in_map_iff in Hx. destruct Hx as (q & <- & _). apply H.
Qed.

(** encode and encodeValveFrame fail (0, no frame) when there is no ID or counter. *)
Lemma encode_no_ctr S gi gc s s' e pt pl o n ty il ss key :
  @computeIVForTX12B S gi gc s = (None, s') ->
  exists s2, (s2 = s \/ s2 = s') /\ encode S gi gc s e pt pl o n ty il ss key = Some (0, s2, pt, o).
Proof.
  intros H. unfold encode. destruct (_ <? _); [eauto|]. destruct (_ || _); [eauto|]. rewrite H. eauto.
Qed.
Lemma valve_no_ctr S gi gc s s' e pt o n il pc ss key :
  @computeIVForTX12B S gi gc s = (None, s') ->
  exists s2, (s2 = s \/ s2 = s') /\ encodeValveFrame S gi gc s e pt o n il pc ss key = Some (0, s2, pt, o).
Proof. intros H. unfold encodeValveFrame. destruct (_ <? _); [eauto|]. rewrite H. eauto. Qed.
Lemma encode_state S gi gc s e pt pl o n ty il ss key r s2 p2 o2 :
  encode S gi gc s e pt pl o n ty il ss key = Some (r, s2, p2, o2) ->
  (s2 = s /\ r = 0) \/ s2 = snd (computeIVForTX12B S gi gc s).
Proof.
  unfold encode. destruct (_ <? _); [intros H; left; repeat first [apply some_pair_inj in H | apply pair_inj in H | destruct H as [H ?]]; auto|].
  destruct (_ || _); [intros H; left; repeat first [apply some_pair_inj in H | apply pair_inj in H | destruct H as [H ?]]; auto|].
  destruct (computeIVForTX12B S gi gc s) as [[iv|] s1]; cbn [snd]; intros H; right.
  - destruct (if il >? 6 then _ else _); [|repeat first [apply some_pair_inj in H | apply pair_inj in H | destruct H as [H ?]]; auto].
    destruct (encodeRaw _ _ _ _ _ _ _ _ _ _ _) as [[[? ?] ?]|]; [|discriminate]. cbn [bind] in H.
    repeat first [apply some_pair_inj in H | apply pair_inj in H | destruct H as [H ?]]; auto.
  - repeat first [apply some_pair_inj in H | apply pair_inj in H | destruct H as [H ?]]; auto.
Qed.

(** Programs that leave every EEPROM byte outside [lo, hi) alone, even when cut short. *)
Definition keeps {A} (lo hi : Z) (p : M A) : Prop :=
  forall s f q, ~ lo <= q < hi -> mem (fst (p s f)) q = mem s q.
Lemma keeps_ret {A} lo hi (a : A) : keeps lo hi (ret a).
Proof. intros s f q _. reflexivity. Qed.
Lemma keeps_read lo hi p : keeps lo hi (ee_read p).
Proof. intros s f q _. reflexivity. Qed.
Lemma keeps_bind {A B} lo hi (p : M A) (k : A -> M B) : keeps lo hi p -> (forall a, keeps lo hi (k a)) -> keeps lo hi (mbind p k).
Proof.
  intros HP HK s f q Hq. unfold mbind. specialize (HP s f q Hq). destruct (p s f) as [s' [[a f']|]]; cbn [fst] in *; [|exact HP].
  rewrite HK by exact Hq. exact HP.
Qed.
Lemma keeps_op lo hi k p v : lo <= p < hi -> keeps lo hi (ee_op k p v).
Proof.
  intros Hp s f q Hq. unfold ee_op. destruct f; [reflexivity|]. cbn [fst mem]. unfold upd.
  replace (q =? p) with false by lia. reflexivity.
Qed.
Ltac keep := repeat first [apply keeps_ret | apply keeps_read | apply keeps_op; lia | apply keeps_bind; [|intros ?]
  | match goal with |- keeps _ _ (if ?b then _ else _) => destruct b end
  | match goal with |- keeps _ _ (match ?b with _ => _ end) => destruct b end ].
Lemma keeps_smart_erase lo hi p : lo <= p < hi -> keeps lo hi (smart_erase p).
Proof. intros H. unfold smart_erase. keep. Qed.
Lemma keeps_smart_update lo hi p v : lo <= p < hi -> keeps lo hi (smart_update p v).
Proof. intros H. unfold smart_update, smart_clear_bits. keep. Qed.
Lemma keeps_read_block lo hi n : forall p, keeps lo hi (read_block p n).
Proof. induction n as [|n IH]; intros p; cbn [read_block]; keep. apply IH. Qed.
Lemma keeps_save lo hi l : forall p, lo <= p -> p + Zlen l <= hi -> keeps lo hi (save_checked p l).
Proof.
  induction l as [|x l IH]; intros p H1 H2; cbn [save_checked]; [keep|].
  rewrite Zlen_cons in H2. pose proof (Zlen_nonneg l). keep; [apply keeps_smart_update; lia|]. apply IH; lia.
Qed.
Lemma keeps_incr : keeps 104 112 incrementTXNVCtrPrefix.
Proof.
  unfold incrementTXNVCtrPrefix, loadRawTX. apply keeps_bind; [keep; try apply keeps_read_block|]. intros l.
  unfold incrementBuf. destruct (read3 l) as [c|]; [|keep]. destruct (bump3 c) as [[[a b] z] ovf].
  destruct ovf; [keep|]. unfold saveRawTX, TXC_START. apply keeps_save; [lia|]. unfold two_copies. cbv zeta. autorewrite with zlen. lia.
Qed.
Lemma keeps_reset r : keeps 104 112 (resetTX false r).
Proof.
  unfold resetTX. apply keeps_bind; [|intros; keep]. unfold saveRawTX, TXC_START. apply keeps_save; [lia|].
  destruct (reset_noise r) as [[a b] c]. unfold two_copies. cbv zeta. autorewrite with zlen. lia.
Qed.
(** Issuing a message counter touches only the counter's own 8 EEPROM bytes. *)
Lemma keeps_next ram r : keeps 104 112 (getNextTXMsgCtr ram r).
Proof.
  unfold getNextTXMsgCtr. apply keeps_bind.
  - destruct (negb (inited ram)); [|keep]. apply keeps_bind.
    + unfold getTXNVCtrPrefix, loadRawTX. keep; try apply keeps_read_block.
    + intros [[[b0 b1] b2]|]; [|keep]. destruct (_ && _); [|keep]. apply keeps_bind; [apply keeps_reset|]. intros; keep.
  - intros [incr0|]; [|keep]. destruct (negb (inited ram)).
    + destruct (re r) as [[e0 e1] e2]. destruct (bump3 _) as [[[x y] z] ovf]. cbv zeta. apply keeps_bind.
      * destruct (incr0 || ovf); [apply keeps_incr|keep].
      * intros ok. destruct (negb ok); [keep|]. unfold getTXNVCtrPrefix, loadRawTX. keep; try apply keeps_read_block.
    + destruct (bump3 _) as [[[x y] z] ovf]. cbv zeta. apply keeps_bind.
      * destruct (incr0 || ovf); [apply keeps_incr|keep].
      * intros ok. destruct (negb ok); [keep|]. unfold getTXNVCtrPrefix, loadRawTX. keep; try apply keeps_read_block.
Qed.
Lemma tx_next_id s : tx_id (snd (tx_next s)) = tx_id s.
Proof.
  unfold tx_next. destruct (tx_pow s) as [f|]; [|reflexivity].
  pose proof (keeps_next (tx_ram s) (tx_rnd s) (tx_ee s) f) as H.
  assert (HM : forall e, (forall q, ~ 104 <= q < 112 -> mem e q = mem (tx_ee s) q) -> map (mem e) [20; 21; 22; 23; 24; 25; 26; 27] = map (mem (tx_ee s)) [20; 21; 22; 23; 24; 25; 26; 27]).
  { intros e He. cbn [map]. rewrite !He by lia. reflexivity. }
  destruct (getNextTXMsgCtr (tx_ram s) (tx_rnd s) (tx_ee s) f) as [e' [[[c ram'] f']|]]; cbn [snd fst tx_ee] in *;
    unfold tx_id; cbn [tx_ee]; rewrite (HM e' H); reflexivity.
Qed.

Lemma send_sim e st r f q : enc_sized e -> GInv st -> req_ok q ->
  exists st' o, send_step e st (SSend r f q) = Some (st', o) /\
    ((st' = st /\ o = NotSent) \/
     exists t, tx_step st (TxCall r f) = (st', t) /\
       match t with
       | Issued c => o = NotSent \/ exists fr, o = Sent fr /\ sent_ctr fr = c
       | Refused => o = NotSent
       | Crashed => o = PowerLost
       | Restarted => False
       end).
Proof.
  intros He HG HQ. destruct st as [s ram]. unfold send_step. cbn [fst snd].
  set (S0 := mkTxS s ram r (Some f)).
  destruct (tx_id_bytes S0 (GInv_bytes _ HG)) as (idb & Hid & Hid8 & Hidb).
  pose proof (tx_next_step s ram r f) as HT. fold S0 in HT.
  pose proof (tx_next_id S0) as HID. rewrite Hid in HID.
  pose proof (GInv_call (s, ram) r f HG) as HI.
  destruct (tx_next S0) as [oc s'] eqn:EN. cbn [snd] in HID. destruct HT as [HT HTN]. rewrite HT in HI.
  destruct oc as [ctr|].
  - (* counter issued *)
    destruct (tx_pow s') as [f'|] eqn:EP; [|specialize (HTN eq_refl); discriminate].
    destruct HI as (m & ee & _ & [HC6 HCb] & _).
    destruct q as [pt pl out n ty il ss key|pt out n il pc ss key|buf il ss key]; cbn [req_ok send] in *.
    + destruct HQ as (HK & (o & -> & Hn) & Hty & Hpl & Hil & Hpt). destruct key as [key|]; [|congruence].
      destruct (C54_encode_exact_partial tx_id tx_next S0 s' e pt pl o n ty il ss key idb ctr He Hid HID EN Hid8 Hidb HC6 HCb Hil Hty Hpl Hn Hpt)
        as (rr & s2 & p2 & o2 & E & H1 & H2).
      rewrite E. cbn [bind]. destruct (encode_state _ _ _ _ _ _ _ _ _ _ _ _ _ _ _ _ _ E) as [[-> ->]|Hs2].
      * eexists _, _. split; [reflexivity|]. left. split; reflexivity.
      * unfold computeIVForTX12B in Hs2. rewrite Hid, EN in Hs2. cbn [snd] in Hs2. subst s2.
        eexists _, _. split; [reflexivity|]. right. eexists. split; [exact HT|]. cbv iota. rewrite EP.
        destruct (rr =? 0) eqn:E0; [auto|]. right. destruct (H2 ltac:(lia)) as (_ & Hr & ct & tag & Hc & ->).
        eexists. split; [reflexivity|].
        destruct (He _ _ _ _ _ _ _ Hc) as (T1 & _ & _ & T4 & T5).
        assert (Hct : Zlen ct = cipher_len pl).
        { unfold cipher_input, cipher_len in *. destruct (pl =? 0) eqn:EZ; [rewrite T4 by reflexivity; reflexivity|].
          apply T5. destruct (Hpt ltac:(lia)) as (p & -> & _). discriminate. }
        rewrite sent_ctr_frame; [| |exact T1|].
        -- rewrite skipn_app. rewrite (skipn_all2 (firstn 6 idb)) by (rewrite firstn_length; lia).
           rewrite firstn_length. replace (6 - Nat.min 6 (length idb))%nat with 0%nat by (unfold Zlen in Hid8; lia).
           cbn [app skipn]. apply firstn_all2. unfold Zlen in HC6. lia.
        -- rewrite Zlen_app, Zlen_firstn. lia.
        -- rewrite Zlen_firstn, Hct. lia.
    + destruct HQ as (HK & (o & -> & Hn) & Hpc & Hil & p & j & -> & Hp & Hj). destruct key as [key|]; [|congruence].
      destruct (C54_valve_exact_partial tx_id tx_next S0 s' e p j o n il pc ss key idb ctr He Hid EN Hid8 Hidb HC6 HCb Hil Hpc Hn Hp Hj)
        as (rr & s2 & p2 & o2 & E & H1 & H2).
      rewrite E. cbn [bind]. destruct (Z.eq_dec rr 0) as [->|Hr0].
      * assert (Hs2 : s2 = S0 \/ s2 = s').
        { revert E. unfold encodeValveFrame, computeIVForTX12B. rewrite Hid, EN.
          destruct (_ <? _); [intros E; repeat first [apply some_pair_inj in E | apply pair_inj in E | destruct E as [E ?]]; auto|].
          repeat match goal with
          | |- bind ?m _ = _ -> _ => destruct m as [|]; cbn [bind]; [|discriminate]
          | |- (if ?b then _ else _) = _ -> _ => destruct b
          | |- Some _ = Some _ -> _ => let E := fresh in intros E; repeat first [apply some_pair_inj in E | apply pair_inj in E | destruct E as [E ?]]; auto
          end.
          destruct p0 as [[? ?] ?]. intros E; repeat first [apply some_pair_inj in E | apply pair_inj in E | destruct E as [E ?]]; auto. }
        destruct Hs2 as [-> | ->].
        -- eexists _, _. split; [reflexivity|]. left. split; reflexivity.
        -- eexists _, _. split; [reflexivity|]. right. eexists. split; [exact HT|]. cbv iota. rewrite EP. left. reflexivity.
      * destruct (H2 Hr0) as (-> & Hr & ct & tag & Hc & ->).
        eexists _, _. split; [reflexivity|]. right. eexists. split; [exact HT|]. cbv iota. rewrite EP.
        replace (rr =? 0) with false by lia. right.
        eexists. split; [reflexivity|].
        destruct (He _ _ _ _ _ _ _ Hc) as (T1 & _ & _ & T4 & T5).
        specialize (T5 ltac:(discriminate)).
        rewrite sent_ctr_frame; [| |exact T1|].
        -- rewrite skipn_app. rewrite (skipn_all2 (firstn 6 idb)) by (rewrite firstn_length; lia).
           rewrite firstn_length. replace (6 - Nat.min 6 (length idb))%nat with 0%nat by (unfold Zlen in Hid8; lia).
           cbn [app skipn]. apply firstn_all2. unfold Zlen in HC6. lia.
        -- rewrite Zlen_app, Zlen_firstn. lia.
        -- rewrite Zlen_firstn, T5. lia.
    + destruct HQ as (HK & Hil & b & ->). destruct key as [key|]; [|congruence].
      destruct (Z_le_gt_dec 292 ss) as [Hss|Hss].
      * rewrite (C54_beacon_refuted tx_id tx_next S0 s' e b il ss key idb ctr) by auto. cbn [bind].
        eexists _, _. split; [reflexivity|]. right. eexists. split; [exact HT|]. cbv iota. rewrite EP. left. reflexivity.
      * unfold generateSecureBeacon, encode, encode_total_scratch_usage. replace (ss <? 292) with true by lia. cbn [bind].
        eexists _, _. split; [reflexivity|]. left. split; reflexivity.
  - (* refused or power lost *)
    assert (HIV : computeIVForTX12B TxS tx_id tx_next S0 = (None, s')) by (unfold computeIVForTX12B; rewrite Hid, EN; reflexivity).
    assert (HS : exists s2 p2 o2, (s2 = S0 \/ s2 = s') /\ send e S0 q = Some (0, s2, p2, o2)).
    { destruct q as [pt pl out n ty il ss key|pt out n il pc ss key|buf il ss key]; cbn [send].
      - destruct (encode_no_ctr _ _ _ _ _ e pt pl out n ty il ss key HIV) as (s2 & H & E). eauto 8.
      - destruct (valve_no_ctr _ _ _ _ _ e pt out n il pc ss key HIV) as (s2 & H & E). eauto 8.
      - unfold generateSecureBeacon. destruct (encode_no_ctr _ _ _ _ _ e buf 0 None 0 FTS_ALIVE il ss key HIV) as (s2 & H & E). eauto 8. }
    destruct HS as (s2 & p2 & o2 & HS2 & ->). cbn [bind].
    eexists _, _. split; [reflexivity|]. destruct HS2 as [-> | ->].
    + left. split; reflexivity.
    + right. eexists. split; [exact HT|]. cbv iota. destruct (tx_pow s'); reflexivity.
Qed.

(** A life of sends seen as a life of counter requests. *)
Inductive seen : list SOut -> list TxOut -> Prop :=
| seen_nil : seen [] []
| seen_skip os ts : seen os ts -> seen (NotSent :: os) ts
| seen_unused c os ts : seen os ts -> seen (NotSent :: os) (Issued c :: ts)
| seen_sent fr os ts : seen os ts -> seen (Sent fr :: os) (Issued (sent_ctr fr) :: ts)
| seen_refused os ts : seen os ts -> seen (NotSent :: os) (Refused :: ts)
| seen_lost os ts : seen os ts -> seen (PowerLost :: os) (Crashed :: ts)
| seen_restart os ts : seen os ts -> seen (SRestarted :: os) (Restarted :: ts).

Lemma send_life_sim e evs : enc_sized e -> Forall ev_ok evs -> forall st, GInv st ->
  exists os tevs, send_life e st evs = Some os /\ length os = length evs /\ seen os (tx_life st tevs).
Proof.
  intros He. induction 1 as [|ev evs Hev _ IH]; intros st HG.
  - exists [], []. repeat split. constructor.
  - cbn [send_life]. destruct ev as [r f q|].
    + destruct (send_sim e st r f q He HG Hev) as (st' & o & E & [[-> ->]|(t & ET & HO)]).
      * destruct (IH st HG) as (os & tevs & E2 & HL & HS). exists (NotSent :: os), tevs. rewrite E. cbn [bind]. rewrite E2. cbn [bind].
        split; [reflexivity|]. split; [simpl; lia|]. constructor. exact HS.
      * assert (HG' : GInv st').
        { pose proof (GInv_call st r f HG) as H. rewrite ET in H. destruct t; auto. destruct H as (m & x & _ & _ & H). eapply Inv_GInv; eauto. }
        destruct (IH st' HG') as (os & tevs & E2 & HL & HS). exists (o :: os), (TxCall r f :: tevs). rewrite E. cbn [bind]. rewrite E2. cbn [bind].
        split; [reflexivity|]. split; [simpl; lia|]. cbn [tx_life]. rewrite ET.
        destruct t; [destruct HO as [-> |(fr & -> & <-)]|subst o|subst o|destruct HO]; constructor; exact HS.
    + pose proof (GInv_restart st HG) as HG'. destruct st as [s ram]. cbn [tx_step fst] in HG'.
      destruct (IH (s, TxRam0) HG') as (os & tevs & E2 & HL & HS). exists (SRestarted :: os), (TxRestart :: tevs).
      cbn [send_step bind fst]. rewrite E2. cbn [bind]. split; [reflexivity|]. split; [simpl; lia|]. cbn [tx_life tx_step]. constructor. exact HS.
Qed.

Lemma crashes_app a b : crashes (a ++ b) = crashes a + crashes b.
Proof. induction a as [|[] a IH]; cbn [crashes app]; lia. Qed.
(** Successive counters increase, hence all counters within few failures do. *)
Lemma chain s0 evs : (forall q, byte (mem s0 q)) -> forall mid pre a b post,
  tx_life (s0, TxRam0) evs = pre ++ Issued a :: mid ++ Issued b :: post -> crashes mid <= 6 -> be a < be b.
Proof.
  intros HB mid. assert (HI : exists n, (length mid <= n)%nat) by eauto. destruct HI as [n Hn]. revert mid Hn.
  induction n as [|n IH]; intros mid Hn pre a b post HL HC.
  - destruct mid; [|simpl in Hn; lia]. apply (C14_tx_counter_partial s0 evs pre a [] b post HB HL); [intros c []|cbn [crashes]; lia].
  - assert (HD : no_issue mid \/ exists m1 c m2, mid = m1 ++ Issued c :: m2).
    { clear. induction mid as [|o mid IHm]; [left; intros c []|].
      destruct o as [c| | |]; [right; exists [], c, mid; reflexivity| | |];
      (destruct IHm as [H|(m1 & c & m2 & ->)]; [left; intros c [Hc|Hc]; [discriminate|apply (H c Hc)]|right; eexists (_ :: m1), c, m2; reflexivity]). }
    destruct HD as [HN|(m1 & c & m2 & ->)].
    + eapply C14_tx_counter_partial; eauto.
    + rewrite crashes_app in HC. cbn [crashes] in HC. pose proof (crashes_nonneg m1). pose proof (crashes_nonneg m2).
      rewrite app_length in Hn. simpl in Hn.
      assert (be a < be c).
      { apply (IH m1 ltac:(lia) pre a c (m2 ++ Issued b :: post)); [|lia]. rewrite HL, <- app_assoc. reflexivity. }
      assert (be c < be b).
      { apply (IH m2 ltac:(lia) (pre ++ Issued a :: m1) c b post); [|lia]. rewrite HL, <- !app_assoc. reflexivity. }
      lia.
Qed.

Lemma seen_split os1 : forall fr os2 ts, seen (os1 ++ Sent fr :: os2) ts ->
  exists ts1 ts2, ts = ts1 ++ Issued (sent_ctr fr) :: ts2 /\ crashes ts1 = losses os1 /\ seen os2 ts2.
Proof.
  induction os1 as [|o os1 IH]; intros fr os2 ts H; cbn [app] in H.
  - inversion H; subst. exists [], ts0. repeat split; auto.
  - inversion H; subst; match goal with HS : seen (os1 ++ _) _ |- _ => destruct (IH _ _ _ HS) as (t1 & t2 & -> & HC & HS2) end;
      [exists t1, t2|eexists (_ :: t1), t2..]; (split; [reflexivity|]); (split; [cbn [crashes losses]; lia|exact HS2]).
Qed.

(** Over any life of a node -- arbitrary EEPROM content at the start, any requests
    with valid buffers, any power failures during counter updates, any restarts,
    failed sends included -- sending never runs into undefined behaviour, and the
    counter (so the IV) of a frame is strictly above that of every earlier frame
    with at most six power failures in between.  Missing from the full claim:
    seven or more power failures between two sends (refuted below). *)
Theorem C53_unique_iv_partial : forall e s0 evs,
  enc_sized e -> (forall q, byte (mem s0 q)) -> Forall ev_ok evs ->
  exists os, send_life e (s0, TxRam0) evs = Some os /\ length os = length evs /\
    forall pre f1 mid f2 post, os = pre ++ Sent f1 :: mid ++ Sent f2 :: post -> losses mid <= 6 ->
      be (sent_ctr f1) < be (sent_ctr f2).
Proof.
  intros e s0 evs He HB HE.
  assert (HG : GInv (s0, TxRam0)) by (split; [exact HB|right; left; reflexivity]).
  destruct (send_life_sim e evs He HE _ HG) as (os & tevs & E & HL & HS). exists os. split; [exact E|]. split; [exact HL|].
  intros pre f1 mid f2 post -> HC.
  destruct (seen_split pre f1 _ _ HS) as (t1 & t2 & Ht & _ & HS2).
  destruct (seen_split mid f2 _ _ HS2) as (t3 & t4 & -> & HC2 & _).
  eapply (chain s0 tevs HB t3); [exact Ht|lia].
Qed.

(** With at most six power failures between any two successive frames, however many over the whole life: all frames of a life carry strictly
    increasing, hence pairwise different, counters. *)
Definition is_sent (o : SOut) : bool := match o with Sent _ => true | _ => false end.
Theorem C53_whole_life_partial : forall e s0 evs os i j fi fj,
  enc_sized e -> (forall q, byte (mem s0 q)) -> Forall ev_ok evs ->
  send_life e (s0, TxRam0) evs = Some os ->
  (forall pre f1 mid f2 post, os = pre ++ Sent f1 :: mid ++ Sent f2 :: post -> existsb is_sent mid = false -> losses mid <= 6) ->
  nth_error os i = Some (Sent fi) -> nth_error os j = Some (Sent fj) ->
  ((i < j)%nat -> be (sent_ctr fi) < be (sent_ctr fj)) /\ (sent_ctr fi = sent_ctr fj -> i = j).
Proof.
  intros e s0 evs os i j fi fj He HB HE E HL Hi Hj.
  destruct (C53_unique_iv_partial e s0 evs He HB HE) as (os2 & E2 & _ & H). rewrite E in E2. apply some_inj in E2. subst os2.
  assert (HK : forall n mid, (length mid <= n)%nat -> forall pre f1 f2 post, os = pre ++ Sent f1 :: mid ++ Sent f2 :: post -> be (sent_ctr f1) < be (sent_ctr f2)).
  { induction n as [|n IH]; intros mid Hn pre f1 f2 post EQ.
    - destruct mid; [|simpl in Hn; lia]. apply (H pre f1 [] f2 post EQ). cbn [losses]. lia.
    - assert (HD : existsb is_sent mid = false \/ exists m1 c m2, mid = m1 ++ Sent c :: m2).
      { clear. induction mid as [|o mid IHm]; [left; reflexivity|]. cbn [existsb].
        destruct (is_sent o) eqn:EO; [right; destruct o; try discriminate EO; eexists [], _, mid; reflexivity|].
        destruct IHm as [IHm | (m1 & c & m2 & ->)]; [left; exact IHm|right; exists (o :: m1), c, m2; reflexivity]. }
      destruct HD as [HD | (m1 & c & m2 & ->)]; [apply (H pre f1 mid f2 post EQ); apply (HL pre f1 mid f2 post EQ HD)|].
      rewrite app_length in Hn. simpl in Hn.
      assert (be (sent_ctr f1) < be (sent_ctr c)).
      { apply (IH m1 ltac:(lia) pre f1 c (m2 ++ Sent f2 :: post)). rewrite EQ, <- app_assoc. reflexivity. }
      assert (be (sent_ctr c) < be (sent_ctr f2)).
      { apply (IH m2 ltac:(lia) (pre ++ Sent f1 :: m1) c f2 post). rewrite EQ, <- !app_assoc. reflexivity. }
      lia. }
  assert (HA : forall i j fi fj, (i < j)%nat -> nth_error os i = Some (Sent fi) -> nth_error os j = Some (Sent fj) -> be (sent_ctr fi) < be (sent_ctr fj)).
  { clear i j fi fj Hi Hj. intros i j fi fj Hij Hi Hj.
    destruct (nth_error_split os j Hj) as (l1 & l2 & EQ & Hl1). subst j. rewrite EQ in Hi.
    rewrite nth_error_app1 in Hi by exact Hij. destruct (nth_error_split l1 i Hi) as (l3 & l4 & EQ2 & _).
    apply (HK (length l4) l4 (le_n _) l3 fi fj l2). rewrite EQ, EQ2, <- app_assoc. reflexivity. }
  split; [intros Hij; apply (HA i j); auto|]. intros HX.
  destruct (lt_eq_lt_dec i j) as [[Hij | Hij] | Hij]; [|exact Hij|].
  - pose proof (HA i j fi fj Hij Hi Hj). rewrite HX in *. lia.
  - pose proof (HA j i fj fi Hij Hj Hi). rewrite HX in *. lia.
Qed.

(** Refutation of the unconditional claim: the history of C14 gives two frames
    with the same counter. *)
Definition ex_req : SendReq := ReqValve (Some (repeat 0 32)) (Some (repeat 0 64)) 64 4 50 400 (Some [9]).
Definition bad_sends : list SEv := map (fun ev => match ev with TxCall r f => SSend r f ex_req | TxRestart => SRestart end) bad_life.
Fixpoint sent_ctrs (os : list SOut) : list (list Z) :=
  match os with [] => [] | Sent f :: r => sent_ctr f :: sent_ctrs r | _ :: r => sent_ctrs r end.
Theorem C53_unique_iv_refuted :
  enc_sized enc_demo /\ Forall ev_ok bad_sends /\
  match send_life enc_demo (stored_tx (256 * 256 + 2 * 256 + 4), TxRam0) bad_sends with
  | Some os => exists c rest, sent_ctrs os = c :: rest /\ In c rest
  | None => False
  end.
Proof.
  split; [exact enc_demo_sized|]. split.
  - apply Forall_forall. intros ev Hev. unfold bad_sends in Hev. apply in_map_iff in Hev. destruct Hev as (x & <- & _).
    destruct x as [r f|]; [|exact I]. split; [discriminate|]. split; [exists (repeat 0 64); split; [reflexivity|vm_compute; discriminate]|].
    split; [unfold byte; lia|]. split; [lia|]. exists (repeat 0 32), None. split; [reflexivity|]. split; [vm_compute; discriminate|]. vm_compute. discriminate.
  - vm_compute. eexists _, _. split; [reflexivity|]. cbn [In]. repeat first [left; reflexivity | right].
Qed.

Example C53_nonvacuous :
  match send_life enc_demo (stored_tx 66300, TxRam0)
    [SSend rnd1 99 ex_req; SSend rnd1 99 (ReqBeacon (Some (repeat 0 64)) 4 400 (Some [9])); SRestart; SSend rnd1 2 ex_req;
     SSend rnd1 99 (ReqBody None 0 (Some (repeat 0 64)) 64 33 8 400 (Some [9]))] with
  | Some [Sent f1; NotSent; SRestarted; PowerLost; Sent f2] =>
      sent_ctr f1 = [1; 2; 253; 1; 2; 4] /\ sent_ctr f2 = [1; 2; 255; 1; 2; 4] /\ Zlen f1 = 63 /\ Zlen f2 = 35
  | _ => False
  end.
Proof. vm_compute. repeat split; reflexivity. Qed.
Example C54_nonvacuous :
  match encodeValveFrame unit (fun _ => Some [128;129;130;131;132;133;134;135]) (fun _ => (Some [0;0;42;0;0;23], tt)) tt enc_demo
     (Some ([0; 0] ++ [123; 34; 98; 34; 58; 49; 125] ++ [0] ++ repeat 255 30)) (Some (repeat 0 64)) 64 4 50 400 (Some [9]) with
  | Some (r, _, _, Some o) => r = 63 /\ firstn 11 o = [62; 207; 116; 128; 129; 130; 131; 32; 50; 16; 123]
  | _ => False end.
Proof. vm_compute. split; reflexivity. Qed.

Print Assumptions C54_encode_exact_partial.
Print Assumptions C54_valve_exact_partial.
Print Assumptions C54_beacon_refuted.
Print Assumptions C53_unique_iv_partial.
Print Assumptions C53_whole_life_partial.
Print Assumptions C53_unique_iv_refuted.
