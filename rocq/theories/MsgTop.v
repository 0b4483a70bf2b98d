(** The hub: end-to-end properties of message handling. *)
From Verif Require Import Base CrcSpec FrameModel FrameSpec FrameProofs SecureModel SecureSpec SecureProps SecureProofs SecureRawProps EepromModel EepromProofs AssocProps RxCtrModel RxCtrProofs RxCtrNormal RxCtrProps RxCtrCrash SecureRxModel SecureRxProps SecureTxProps MsgModel MsgProps.

(** ** A message presented to the hub *)
Record hmsg := mkHm { hm_buf : list Z; hm_junk : list Z; hm_minute : Z; hm_power : nat }.
Definition hub (d : Dec) (key : option (list Z)) (ss : Z) (o1 o2 : oper) (s : EE) (m : hmsg) : option (EE * list act) :=
  match handle_raw (handle_O d key ss (hm_minute m) o1 o2 (hm_junk m)) handle_dummy (s, Some (hm_power m)) (hm_buf m) with
  | Some (s', a) => Some (fst s', a) | None => None end.
Fixpoint hub_run d key ss o1 o2 (s : EE) (l : list hmsg) : option (list (list act) * EE) :=
  match l with
  | [] => Some ([], s)
  | m :: r => do (s1, a) <- hub d key ss o1 o2 s m; do (as_, s2) <- hub_run d key ss o1 o2 s1 r; Some (a :: as_, s2)
  end.
(** Any bytes, as long as the buffer holds what its length byte says. *)
Definition hm_ok (m : hmsg) : Prop := Forall byte (hm_buf m) /\ f_fl (hm_buf m) < Zlen (hm_buf m) /\ junk_ok (hm_junk m).
Definition hm_powered (m : hmsg) : Prop := (18 <= hm_power m)%nat.

(** One message of a hub: either nothing at all happens, or the message is a secure O frame. *)
Lemma hub_step d key ss o1 o2 s m : dec_sized d -> bytes_mem (mem s) -> hm_ok m ->
  exists s' acts, hub d key ss o1 o2 s m = Some (s', acts) /\
    (~ secure_O (hm_buf m) -> s' = s /\ acts = []) /\
    (secure_O (hm_buf m) -> exists o, rx_frame d s (rxe (hm_buf m) (hm_junk m) (subspace ss 16) key (hm_power m)) = Some (s', o) /\
      match o with
      | FrAcc node => exists k q, key = Some k /\ opens d (subspace ss 16 - 58) k node (hm_buf m) q /\
         In node (ids (mem s)) /\ starts_with (frame_id (hm_buf m)) node /\
         (exists i, scan (mem s) (frame_id (hm_buf m)) 0 8 = Some (i, node)) /\
         (exists v, reads_back s node = Some v /\ be v < be (frame_ctr (hm_buf m))) /\
         (f_bl (hm_buf m) <> 0 -> Zlen q = 32 /\ Forall byte q) /\
         acts = op_acts (hm_minute m) o1 node (hm_buf m) (body_of (hm_buf m) q) (hm_junk m)
             ++ op_acts (hm_minute m) o2 node (hm_buf m) (body_of (hm_buf m) q) (hm_junk m)
      | _ => acts = []
      end).
Proof.
  intros Hd HM (Hb & Hfl & HJ). destruct m as [b junk minute f]. unfold hub. cbn [hm_buf hm_junk hm_minute hm_power] in *.
  pose proof (znth_byte b 0 Hb) as B0. fold (f_fl b) in B0. unfold byte in B0.
  unfold handle_raw. rewrite rd_some by lia. cbn [bind]. fold (f_fl b).
  assert (NS : f_fl b < 2 -> ~ secure_O b).
  { intros K [(W1 & W2 & W3 & W4 & W5 & W6 & W7 & W8 & W9 & W10 & W11 & W12 & W13) _]. lia. }
  destruct (Z.ltb_spec (f_fl b) 2) as [L|L].
  { exists s, []. split; [reflexivity|]. split; [auto|]. intros K. destruct (NS L K). }
  destruct (msg_handler d key ss minute o1 o2 junk s f b Hd HM ltac:(split; [exact Hb|lia]) HJ) as (s' & ok & acts & o & E & H1 & H2 & H3 & H4).
  rewrite E. cbn [bind]. destruct ok.
  - exists (fst s'), acts. split; [reflexivity|]. split; [intros K; destruct K; apply H1; reflexivity|].
    intros _. exists o. split; [apply (H3 eq_refl)|]. exact (H4 eq_refl).
  - destruct (H2 eq_refl) as [-> ->]. cbn [handle_dummy bind app fst]. exists s, []. split; [reflexivity|]. split; [auto|].
    intros K. apply H1 in K. discriminate.
Qed.

Lemma hm_frame_ok m ss key : hm_ok m -> frame_ok (rxe (hm_buf m) (hm_junk m) ss key (hm_power m)).
Proof.
  intros (Hb & Hfl & HJB & HJ). split; [exact Hb|]. split; [exact Hfl|]. cbn [rxe fr_ptext]. intros p K. apply some_inj in K. subst p. lia.
Qed.

Lemma hub_step_powered d key ss o1 o2 s m : dec_sized d -> bytes_mem (mem s) -> hm_ok m -> hm_powered m ->
  exists s' acts, hub d key ss o1 o2 s m = Some (s', acts) /\ bytes_mem (mem s') /\
    (forall p, scan (mem s') p 0 8 = scan (mem s) p 0 8) /\
    (forall id v, is_id id -> reads_back s id = Some v -> exists v', reads_back s' id = Some v' /\ be v <= be v') /\
    (acts <> [] -> exists node, is_id node /\ (exists i, scan (mem s) (frame_id (hm_buf m)) 0 8 = Some (i, node)) /\
        (exists v, reads_back s node = Some v /\ be v < be (frame_ctr (hm_buf m))) /\
        reads_back s' node = Some (frame_ctr (hm_buf m))).
Proof.
  intros Hd HM HO HP. destruct (hub_step d key ss o1 o2 s m Hd HM HO) as (s' & acts & E & H1 & H2).
  exists s', acts. split; [exact E|].
  destruct (frame_powered d s _ Hd HM (hm_frame_ok m (subspace ss 16) key HO) HP) as (s2 & o2' & E2 & P1 & P2 & P3 & P4).
  cbn [rxe fr_buf] in P4.
  assert (SD : secure_O (hm_buf m) \/ ~ secure_O (hm_buf m)).
  { pose proof (decodeHeader_char hdr0 (hm_buf m) (Zlen (hm_buf m)) ltac:(lia) (proj1 HO) eq_refl) as [[W _]|[W _]].
    - destruct (Z.eq_dec (f_type (hm_buf m)) 207); [left; split; assumption|right; intros [_ K]; contradiction].
    - right; intros [K _]; contradiction. }
  destruct SD as [SD|SD].
  - destruct (H2 SD) as (o & E3 & H3). rewrite E2 in E3. apply some_pair_inj in E3 as [<- <-].
    split; [exact P1|]. split; [exact P2|]. split; [exact P3|].
    destruct o2' as [node| |]; [|intros K; contradiction|intros K; contradiction].
    intros _. exists node. exact P4.
  - destruct (H1 SD) as [-> ->]. split; [exact HM|]. split; [reflexivity|]. split; [|intros K; contradiction].
    intros id v _ HV. exists v. split; [exact HV|lia].
Qed.

Lemma hub_run_powered d key ss o1 o2 : dec_sized d -> forall l s, bytes_mem (mem s) ->
  Forall (fun m => hm_ok m /\ hm_powered m) l ->
  exists outs s', hub_run d key ss o1 o2 s l = Some (outs, s') /\ length outs = length l /\
   (forall j mj a, nth_error l j = Some mj -> nth_error outs j = Some a -> a <> [] ->
      exists i node, is_id node /\ scan (mem s) (frame_id (hm_buf mj)) 0 8 = Some (i, node)) /\
   (forall id v j mj a i, is_id id -> reads_back s id = Some v -> nth_error l j = Some mj -> nth_error outs j = Some a -> a <> [] ->
      scan (mem s) (frame_id (hm_buf mj)) 0 8 = Some (i, id) -> be v < be (frame_ctr (hm_buf mj))) /\
   (forall i j mi mj ai aj ki kj id, (i < j)%nat -> nth_error l i = Some mi -> nth_error l j = Some mj ->
      nth_error outs i = Some ai -> nth_error outs j = Some aj -> ai <> [] -> aj <> [] ->
      scan (mem s) (frame_id (hm_buf mi)) 0 8 = Some (ki, id) -> scan (mem s) (frame_id (hm_buf mj)) 0 8 = Some (kj, id) ->
      be (frame_ctr (hm_buf mi)) < be (frame_ctr (hm_buf mj))).
Proof.
  intros Hd. induction l as [|m l IH]; intros s HM HF; cbn [hub_run].
  - exists [], s. split; [reflexivity|]. split; [reflexivity|]. split; [intros [|j]; discriminate|]. split; [intros ? ? [|j]; discriminate|intros [|i]; discriminate].
  - apply Forall_cons_iff in HF. destruct HF as [[HF HP] HFl].
    destruct (hub_step_powered d key ss o1 o2 s m Hd HM HF HP) as (s1 & a & E & HM1 & HS1 & HR1 & HO).
    destruct (IH s1 HM1 HFl) as (os & s2 & E2 & HL & H1 & H2 & H3).
    rewrite E. cbn [bind]. rewrite E2. cbn [bind]. exists (a :: os), s2.
    split; [reflexivity|]. split; [simpl; lia|]. split; [|split].
    + intros [|j] mj aj Hj Ho HN; cbn [nth_error] in *.
      * apply some_inj in Hj. apply some_inj in Ho. subst. destruct (HO HN) as (node & A & (i & B) & _). eauto.
      * destruct (H1 j mj aj Hj Ho HN) as (i & node & A & B). rewrite HS1 in B. eauto.
    + intros id v [|j] mj aj i Hid HV Hj Ho HN HSc; cbn [nth_error] in *.
      * apply some_inj in Hj. apply some_inj in Ho. subst. destruct (HO HN) as (node & A & (i' & B) & (w & C & D) & _).
        rewrite B in HSc. apply some_pair_inj in HSc as [_ ->]. rewrite HV in C. apply some_inj in C. subst. exact D.
      * destruct (HR1 id v Hid HV) as (v' & HV' & Hle). rewrite <- HS1 in HSc. specialize (H2 id v' j mj aj i Hid HV' Hj Ho HN HSc). lia.
    + intros [|i] [|j] mi mj ai aj ki kj id Hij Hi Hj Hoi Hoj Ni Nj Si Sj; cbn [nth_error] in *; try lia.
      * apply some_inj in Hi. apply some_inj in Hoi. subst. destruct (HO Ni) as (node & A & (i' & B) & _ & D).
        rewrite B in Si. apply some_pair_inj in Si as [_ ->]. rewrite <- HS1 in Sj. apply (H2 id _ j mj aj kj A D Hj Hoj Nj Sj).
      * rewrite <- HS1 in Si, Sj. apply (H3 i j mi mj ai aj ki kj id); auto; lia.
Qed.

(** ** What can make the hub act *)
(** Any run of messages: the hub never reaches undefined behaviour; each action is due to a well-formed secure O
    frame; two messages that make it act on behalf of one node carry strictly increasing counters; no message makes
    it act twice. *)
Theorem hub_no_replay : forall d key ss o1 o2 l s,
  dec_sized d -> bytes_mem (mem s) -> Forall (fun m => hm_ok m /\ hm_powered m) l ->
  exists outs s', hub_run d key ss o1 o2 s l = Some (outs, s') /\ length outs = length l /\
   (forall i j mi mj ai aj ki kj id, (i < j)%nat -> nth_error l i = Some mi -> nth_error l j = Some mj ->
      nth_error outs i = Some ai -> nth_error outs j = Some aj -> ai <> [] -> aj <> [] ->
      scan (mem s) (frame_id (hm_buf mi)) 0 8 = Some (ki, id) -> scan (mem s) (frame_id (hm_buf mj)) 0 8 = Some (kj, id) ->
      be (frame_ctr (hm_buf mi)) < be (frame_ctr (hm_buf mj))) /\
   (forall i j mi mj ai aj, nth_error l i = Some mi -> nth_error l j = Some mj ->
      nth_error outs i = Some ai -> nth_error outs j = Some aj -> ai <> [] -> aj <> [] ->
      hm_buf mi = hm_buf mj -> i = j).
Proof.
  intros d key ss o1 o2 l s Hd HM HF. destruct (hub_run_powered d key ss o1 o2 Hd l s HM HF) as (outs & s' & E & HL & H1 & H2 & H3).
  exists outs, s'. split; [exact E|]. split; [exact HL|]. split; [exact H3|].
  intros i j mi mj ai aj Hi Hj Oi Oj Ni Nj HB.
  destruct (H1 i mi ai Hi Oi Ni) as (a & node & A & B).
  destruct (Nat.lt_trichotomy i j) as [Hlt|[Heq|Hgt]]; [|exact Heq|].
  - pose proof (H3 i j mi mj ai aj a a node Hlt Hi Hj Oi Oj Ni Nj B ltac:(rewrite <- HB; exact B)) as K. rewrite HB in K. lia.
  - pose proof (H3 j i mj mi aj ai a a node Hgt Hj Hi Oj Oi Nj Ni ltac:(rewrite <- HB; exact B) B) as K. rewrite HB in K. lia.
Qed.

(** One message: it acts only if authentic under the key, from an associated node and fresh; then the boiler is
    called with the first byte of the decrypted body (at most 100), the relay gets exactly the received frame, and
    the serial line the text of the stats.  Full statement: the boiler percentage always comes from the body.
    Missing: for an empty body it comes from the uninitialised buffer (hub_boiler_refuted). *)
Theorem hub_acts_partial : forall d key ss o1 o2 s m,
  dec_sized d -> bytes_mem (mem s) -> hm_ok m ->
  exists s' acts, hub d key ss o1 o2 s m = Some (s', acts) /\
  (acts <> [] -> secure_O (hm_buf m) /\ exists node k q, key = Some k /\
     opens d (subspace ss 16 - 58) k node (hm_buf m) q /\ In node (ids (mem s)) /\ starts_with (frame_id (hm_buf m)) node /\
     (exists v, reads_back s node = Some v /\ be v < be (frame_ctr (hm_buf m))) /\
     forall a, In a acts ->
       let body := body_of (hm_buf m) q in
       match a with
       | ABoiler p t => (o1 = OpBoiler \/ o2 = OpBoiler) /\ t = hm_minute m /\ 0 <= p <= 100 /\ (body <> [] -> nth_error body 0 = Some p)
       | ARelay fr => (o1 = OpRelay \/ o2 = OpRelay) /\ f_fl (hm_buf m) :: fr = firstn (Z.to_nat (f_fl (hm_buf m) + 1)) (hm_buf m) /\ has_json body = true
       | ASerial id seq t => (o1 = OpSerial \/ o2 = OpSerial) /\ id = node /\ seq = f_seq (hm_buf m) /\ has_json body = true /\
           exists b0 b1, body = b0 :: b1 :: 123 :: t
       end) /\
  (~ secure_O (hm_buf m) -> s' = s /\ acts = []).
Proof.
  intros d key ss o1 o2 s m Hd HM HO. destruct (hub_step d key ss o1 o2 s m Hd HM HO) as (s' & acts & E & H1 & H2).
  exists s', acts. split; [exact E|]. split; [|exact H1]. intros NE.
  assert (SD : secure_O (hm_buf m)).
  { pose proof (decodeHeader_char hdr0 (hm_buf m) (Zlen (hm_buf m)) ltac:(lia) (proj1 HO) eq_refl) as [[W _]|[W _]].
    - destruct (Z.eq_dec (f_type (hm_buf m)) 207); [split; assumption|]. destruct NE. apply H1. intros [_ K]; contradiction.
    - destruct NE. apply H1. intros [K _]; contradiction. }
  split; [exact SD|]. destruct (H2 SD) as (o & E3 & H3).
  destruct o as [node| |]; [|contradiction|contradiction].
  destruct H3 as (k & q & HK & HOp & HIn & HSt & _ & HFr & HSz & ->). exists node, k, q.
  split; [exact HK|]. split; [exact HOp|]. split; [exact HIn|]. split; [exact HSt|]. split; [exact HFr|].
  destruct HO as (Hb & Hfl & HJB & HJ). pose proof (znth_byte _ 0 Hb) as B0. fold (f_fl (hm_buf m)) in B0. unfold byte in B0.
  assert (SZ : Forall byte (body_of (hm_buf m) q)).
  { unfold body_of. destruct (Z.eqb_spec (f_bl (hm_buf m)) 0) as [Z0|Z0]; [constructor|]. destruct (_ <=? _); [|constructor].
    apply Forall_firstn', HSz. exact Z0. }
  assert (OPA : forall o a, In a (op_acts (hm_minute m) o node (hm_buf m) (body_of (hm_buf m) q) (hm_junk m)) ->
     match a with
       | ABoiler p t => o = OpBoiler /\ t = hm_minute m /\ 0 <= p <= 100 /\ (body_of (hm_buf m) q <> [] -> nth_error (body_of (hm_buf m) q) 0 = Some p)
       | ARelay fr => o = OpRelay /\ f_fl (hm_buf m) :: fr = firstn (Z.to_nat (f_fl (hm_buf m) + 1)) (hm_buf m) /\ has_json (body_of (hm_buf m) q) = true
       | ASerial id seq t => o = OpSerial /\ id = node /\ seq = f_seq (hm_buf m) /\ has_json (body_of (hm_buf m) q) = true /\ exists b0 b1, body_of (hm_buf m) q = b0 :: b1 :: 123 :: t
     end).
  { intros o a HA. destruct o; cbn [op_acts] in HA; [destruct HA| | |].
    - destruct (has_json _) eqn:EJ; [|destruct HA]. destruct HA as [<-|[]]. split; [reflexivity|]. split; [reflexivity|]. split; [reflexivity|]. split; [reflexivity|].
      unfold has_json in EJ. apply andb_prop in EJ as [EJ J3]. apply andb_prop in EJ as [J1 J2].
      destruct (body_of (hm_buf m) q) as [|x0 [|x1 [|x2 t]]]; try discriminate J1. exists x0, x1. cbn [skipn]. unfold znth in J3. change (Z.to_nat 2) with 2%nat in J3. cbn [nth] in J3. apply Z.eqb_eq in J3. rewrite J3. reflexivity.
    - destruct (has_json _) eqn:EJ; [|destruct HA]. destruct HA as [<-|[]]. split; [reflexivity|]. split; [|reflexivity].
      destruct (hm_buf m) as [|x t] eqn:EB; [change (Zlen (@nil Z)) with 0 in Hfl; lia|]. unfold f_fl, znth in *. cbn [Z.to_nat nth] in *.
      replace (Z.to_nat (x + 1)) with (S (Z.to_nat x)) by lia. rewrite firstn_cons. reflexivity.
    - destruct (Z.leb_spec (znth (body_of (hm_buf m) q ++ hm_junk m) 0) 100) as [L|L]; [|destruct HA]. destruct HA as [<-|[]].
      split; [reflexivity|]. split; [reflexivity|]. split.
      + pose proof (znth_byte (body_of (hm_buf m) q ++ hm_junk m) 0 ltac:(apply Forall_app; split; [exact SZ|exact HJB])) as K. unfold byte in K. lia.
      + intros K. destruct (body_of (hm_buf m) q); [contradiction|]. reflexivity. }
  intros a HA. cbv zeta. apply in_app_or in HA as [HA|HA]; apply OPA in HA; destruct a; destruct HA as [HA1 HA2]; (split; [auto|exact HA2]).
Qed.

(** ** A genuine valve report is acted upon *)
(** [node] is the first associated node whose ID starts with [prefix]. *)
Definition first_match (m : Z -> Z) (prefix node : list Z) : Prop :=
  exists i, nth_error (ids m) i = Some node /\ starts_with prefix node /\
    forall k x, (k < i)%nat -> nth_error (ids m) k = Some x -> ~ starts_with prefix x.
Lemma first_match_scan m prefix node : first_match m prefix node -> exists i, scan m prefix 0 8 = Some (i, node).
Proof.
  intros (i & HN & HS & HK). pose proof (scan_spec m prefix 8 0) as H. fold (ids m) in H.
  destruct (scan m prefix 0 8) as [[j id]|].
  - destruct H as (Hj & HE & HSt & HL). rewrite Z.sub_0_r in HE. exists j. f_equal. f_equal.
    destruct (Nat.lt_trichotomy i (Z.to_nat j)) as [L|[L|L]].
    + exfalso. apply (HL (Z.of_nat i) node); [lia| |exact HS]. rewrite Z.sub_0_r, Nat2Z.id. exact HN.
    + subst i. congruence.
    + exfalso. apply (HK _ _ L HE HSt).
  - exfalso. apply (H node); [eapply nth_error_In; exact HN|exact HS].
Qed.

(** The receiver accepts every authentic fresh frame of an associated node. *)
Lemma rx_complete d s b node c key junk ss f q : dec_sized d -> bytes_mem (mem s) -> msg_ok b -> junk_ok junk ->
  well_formed b (Zlen b) -> f_tl b = 23 -> znth b (f_fl b) = 128 -> (f_bl b = 0 \/ f_bl b = 32) ->
  f_seq b = znth (frame_ctr b) 5 mod 16 -> 58 <= ss -> first_match (mem s) (frame_id b) node ->
  holds (mem s) node c -> be c + 16 < 2 ^ 48 -> be c < be (frame_ctr b) -> opens d (ss - 58) key node b q -> (18 <= f)%nat ->
  exists s', rx_frame d s (rxe b junk ss (Some key) f) = Some (s', FrAcc node) /\ bytes_mem (mem s') /\ holds (mem s') node (frame_ctr b).
Proof.
  intros Hd HM (Hb & Hfl & H2) (HJB & HJ) W HTL H128 HBL HSQ Hss HFM HH Hmax Hlt HOp Hf.
  destruct (hdr_decoded_facts hdr0 b _ Hb W) as (D1 & D2 & D3 & D4 & D5 & D6 & D7 & D8 & D9).
  pose proof W as (W1 & W2 & W3 & W4 & W5 & W6 & W7 & W8 & W9 & W10 & W11 & W12 & W13).
  assert (Hil : 0 <= f_il b) by (unfold f_il; pose proof (Z.mod_pos_bound (znth b 2) 16); lia).
  pose proof (znth_byte b (3 + f_il b) Hb) as B3. fold (f_bl b) in B3. unfold byte in B3.
  assert (H22 : 22 <= f_fl b) by (unfold f_tl in HTL; lia).
  assert (DH : decodeHeader hdr0 (Some b) (Zlen b) = Some (4 + f_il b, hdr_decoded hdr0 b)).
  { destruct (decodeHeader_char hdr0 b (Zlen b) ltac:(lia) Hb ltac:(reflexivity)) as [[_ D]|[NW _]]; [exact D|contradiction]. }
  unfold rx_frame. cbn [rxe fr_buf fr_ptext fr_scratch fr_key fr_power]. rewrite DH. cbn [bind].
  unfold decodeV0p2, decode, decode_scratch_usage. rewrite D1, D3.
  replace (14 >? ss) with false by lia. replace (negb (23 =? f_tl b)) with false by (rewrite HTL; reflexivity).
  assert (HID : Zlen (hid (hdr_decoded hdr0 b)) = 8).
  { cbn [hdr_decoded hid]. rewrite Zlen_app, Zlen_firstn, !Zlen_skipn. change (Zlen (hid hdr0)) with 8. lia. }
  rewrite rx_lookup_scan by (auto; lia). cbn [fst].
  assert (HPre : firstn (Z.to_nat (getIl (hdr_decoded hdr0 b))) (hid (hdr_decoded hdr0 b)) = frame_id b).
  { rewrite D8. cbn [hdr_decoded hid]. unfold frame_id. rewrite firstn_app, firstn_firstn, Nat.min_id.
    replace (Z.to_nat (f_il b) - length (firstn (Z.to_nat (f_il b)) (skipn 3 b)))%nat with 0%nat.
    - rewrite firstn_O, app_nil_r. reflexivity.
    - rewrite firstn_length, skipn_length. unfold Zlen in *. lia. }
  rewrite HPre. destruct (first_match_scan _ _ _ HFM) as (i & ES). rewrite ES.
  assert (H8 : is_id node).
  { destruct HFM as (k & K & _). apply nth_error_In in K. eapply ids_from_len8. exact K. }
  rewrite (D9 HTL). rewrite sub_some by lia. change (Z.to_nat 6) with 6%nat. fold (frame_ctr b). cbn [bind].
  pose proof (frame_ctr_is b Hb Hfl H22) as HC. pose proof HC as [C6 CB].
  destruct (C19_update_exact node (frame_ctr b) c s f H8 HC HM Hf HH Hmax) as (HRB & s' & f' & EA & HB' & HNew & _).
  unfold validateRXMsgCtr, rx_last. cbn [fst]. fold (reads_back s node). rewrite HRB.
  assert (HCc : is_ctr c) by (destruct HH as (k & _ & HH); exact (proj1 HH)).
  destruct (C08_cmp_numeric (frame_ctr b) c C6 (proj1 HCc) CB (proj2 HCc)) as (rc & ECmp & HCmp1 & HCmp2 & HCmp3). rewrite ECmp. cbn [bind].
  assert (ERC : rc >? 0 = true).
  { apply Z.gtb_lt. assert (rc > 0) by (apply HCmp1; lia). lia. }
  rewrite ERC. cbn [negb].
  unfold decodeFromID, decodeFromID_scratch_usage.
  assert (Hsub : subspace ss 14 = ss - 14 /\ subspace (subspace ss 14) 12 = ss - 26).
  { unfold subspace. change (0 =? 14) with false. change (0 =? 12) with false. cbn [orb]. destruct (ss <=? 14) eqn:E4; [lia|]. destruct (ss - 14 <=? 12) eqn:E5; lia. }
  destruct Hsub as [Hs1 Hs2]. rewrite Hs1 in *. replace (12 >? ss - 14) with false by lia.
  replace (Zlen node <? 6) with false by (unfold is_id in H8; lia).
  rewrite rd_some by lia. cbn [bind]. change (znth b 0) with (f_fl b). 
  pose proof (znth_byte b 0 Hb) as B0. fold (f_fl b) in B0. unfold byte in B0.
  rewrite u8_id by (unfold byte; lia).
  rewrite (D9 HTL). replace (f_fl b - 22 + 6 >? f_fl b + 1) with false by lia.
  rewrite sub_full_prefix by (unfold is_id in H8; lia). cbn [bind]. rewrite sub_some by lia. cbn [bind].
  change (Z.to_nat 6) with 6%nat. fold (frame_ctr b). rewrite Hs2.
  set (iv := firstn 6 node ++ frame_ctr b) in *.
  assert (Hiv : Zlen iv = 12).
  { unfold iv. rewrite Zlen_app, Zlen_firstn, C6. unfold is_id in H8. lia. }
  assert (H11 : znth iv 11 = znth (frame_ctr b) 5).
  { unfold iv. rewrite znth_app by (unfold is_id in H8; rewrite ?Zlen_firstn; lia). rewrite Zlen_firstn. unfold is_id in H8. rewrite H8. reflexivity. }
  destruct (C11_decodeRaw_exact d hdr0 b (Zlen b) (4 + f_il b) (hdr_decoded hdr0 b) (Some junk) 0
              (ss - 26) key iv Hd Hb eq_refl ltac:(lia) DH ltac:(lia) Hfl Hiv
              ltac:(intros p K; apply some_inj in K; subst p; lia))
    as (rr & pt' & pl' & ER & HR1 & HR2 & HR0).
  rewrite ER. cbn [bind].
  assert (RN : rr <> 0).
  { apply HR1. split; [lia|]. split; [exact HTL|]. split; [exact H128|]. split; [exact HBL|]. split; [congruence|].
    exists q. replace (ss - 26 - 32) with (ss - 58) by lia. exact HOp. }
  replace (0 =? rr) with false by lia. unfold rx_auth. cbn [snd fst]. rewrite EA.
  replace (be c <? be (frame_ctr b)) with true by lia. cbn [snd fst].
  destruct (HR2 RN) as [RV _]. cbn [bind snd fst]. replace (rr =? 0) with false by lia.
  exists s'. split; [reflexivity|]. split; [exact HB'|]. apply HNew. exact Hlt.
Qed.

(** What operator [o] should do with a report of valve position [pc] and stats [j] carried by frame [fr]. *)
Definition report_acts (o : oper) (pc : Z) (j : option (list Z)) (node fr : list Z) (seq minute : Z) : list act :=
  match o with
  | OpNull => []
  | OpBoiler => if pc <=? 100 then [ABoiler pc minute] else []
  | OpRelay => match j with Some j => if Zlen j >? 2 then [ARelay (skipn 1 fr)] else [] | None => [] end
  | OpSerial => match j with Some j => if Zlen j >? 2 then [ASerial node seq (firstn (length j - 2) (skipn 1 j))] else [] | None => [] end
  end.

Lemma body_of_padded b body : f_bl b = 32 -> Zlen body <= 31 -> body_of b (padded body) = body.
Proof.
  intros HB HL. unfold body_of. rewrite HB. change (32 =? 0) with false. cbv iota.
  assert (H31 : znth (padded body) 31 = 31 - Zlen body).
  { unfold padded, znth, Zlen in *. rewrite app_nth2 by lia. rewrite app_nth2 by (rewrite repeat_length; lia).
    rewrite repeat_length. replace (Z.to_nat 31 - length body - (31 - length body))%nat with 0%nat by lia. reflexivity. }
  rewrite H31. pose proof (Zlen_nonneg body). replace (31 - Zlen body <=? 31) with true by lia.
  unfold padded. rewrite firstn_app, firstn_all2 by (unfold Zlen; lia).
  replace (Z.to_nat (31 - (31 - Zlen body)) - length body)%nat with 0%nat by (unfold Zlen; lia). rewrite firstn_O, app_nil_r. reflexivity.
Qed.

Lemma valve_body_acts o pc j p node b junk minute : holds_stats p j -> byte pc ->
  op_acts minute o node b (valve_body pc j) junk =
  report_acts o pc j node (firstn (Z.to_nat (f_fl b + 1)) b) (f_seq b) minute.
Proof.
  intros HS Hpc. unfold byte in Hpc.
  assert (HJ : has_json (valve_body pc j) = match j with Some j => Zlen j >? 2 | None => false end).
  { unfold has_json, valve_body. destruct j as [j|]; [|reflexivity].
    destruct HS as (J0 & _). 
    destruct (Z.gtb_spec (Zlen j) 2) as [L|L].
    - destruct j as [|x [|y [|z t]]]; try (exfalso; vm_compute in L; discriminate). cbn [length Nat.sub].
      rewrite !firstn_cons. unfold znth in *. change (Z.to_nat 1) with 1%nat. change (Z.to_nat 2) with 2%nat. change (Z.to_nat 0) with 0%nat in J0. cbn [nth] in *. subst x.
      replace (Zlen _ >? 3) with true by (rewrite !Zlen_cons; pose proof (Zlen_nonneg (firstn (length t) (z :: t))); lia). reflexivity.
    - replace (Zlen _ >? 3) with false; [reflexivity|].
      rewrite !Zlen_cons. unfold Zlen in *. rewrite firstn_length. lia. }
  destruct o; cbn [op_acts report_acts].
  - reflexivity.
  - rewrite HJ. destruct j as [j|]; [|reflexivity]. destruct (Z.gtb_spec (Zlen j) 2) as [L|L]; [|reflexivity].
    f_equal. f_equal. unfold valve_body. cbn [skipn].
    destruct j as [|x t]; [change (Zlen (@nil Z)) with 0 in L; lia|].
    cbn [length skipn]. replace (S (length t) - 1)%nat with (S (length t - 1)) by (rewrite Zlen_cons in L; unfold Zlen in L; lia). rewrite firstn_cons. cbn [skipn]. reflexivity.
  - rewrite HJ. destruct j as [j|]; [|reflexivity]. destruct (Zlen j >? 2); [|reflexivity].
    f_equal. f_equal. destruct b as [|x t]; [reflexivity|]. unfold f_fl, znth. change (Z.to_nat 0) with 0%nat. cbn [nth skipn].
    destruct (Z.lt_ge_cases x 0) as [N|N]; [destruct (Z.eq_dec x (-1)) as [->|]; [reflexivity|replace (Z.to_nat x) with 0%nat by lia; replace (Z.to_nat (x + 1)) with 0%nat by lia; reflexivity]|].
    replace (Z.to_nat (x + 1)) with (S (Z.to_nat x)) by lia. rewrite firstn_cons. reflexivity.
  - unfold valve_body. change (znth (((if pc <=? 100 then pc else 127) :: match j with Some j0 => 16 :: firstn (length j0 - 1) j0 | None => [0] end) ++ junk) 0) with (if pc <=? 100 then pc else 127).
    destruct (Z.leb_spec pc 100) as [L|L]; cbv zeta.
    + destruct (Z.leb_spec pc 100); [reflexivity|lia].
    + reflexivity.
Qed.

(** Trailing bytes in the buffer change nothing. *)
Lemma firstn_skipn_app (a c : list Z) n k : (n + k <= length a)%nat -> firstn k (skipn n (a ++ c)) = firstn k (skipn n a).
Proof.
  intros H. rewrite skipn_app, firstn_app, skipn_length. replace (k - (length a - n))%nat with 0%nat by lia. rewrite firstn_O, app_nil_r. reflexivity.
Qed.
Lemma app_frame sf rest : Forall byte sf -> Forall byte rest -> well_formed sf (Zlen sf) -> f_fl sf + 1 = Zlen sf /\ f_tl sf = 23 /\ f_bl sf = 32 ->
  let b := sf ++ rest in
  Forall byte b /\ f_fl b < Zlen b /\ well_formed b (Zlen b) /\ f_fl b = f_fl sf /\ f_type b = f_type sf /\ f_seq b = f_seq sf /\ f_il b = f_il sf /\
  f_bl b = f_bl sf /\ f_tl b = f_tl sf /\ znth b (f_fl b) = znth sf (f_fl sf) /\ 2 <= Zlen b /\
  frame_ctr b = frame_ctr sf /\ frame_id b = frame_id sf /\
  (firstn (Z.to_nat (4 + f_il b)) b = firstn (Z.to_nat (4 + f_il sf)) sf /\
   firstn 32 (skipn (Z.to_nat (4 + f_il b)) b) = firstn 32 (skipn (Z.to_nat (4 + f_il sf)) sf) /\
   firstn 16 (skipn (Z.to_nat (f_fl b - 16)) b) = firstn 16 (skipn (Z.to_nat (f_fl sf - 16)) sf)).
Proof.
  intros HS HR W (HF & HT & HBL) b. pose proof W as (W1 & W2 & W3 & W4 & W5 & W6 & W7 & W8 & W9 & W10 & W11 & W12 & W13).
  assert (Hil : 0 <= f_il sf) by (unfold f_il; pose proof (Z.mod_pos_bound (znth sf 2) 16); lia).
  pose proof (Zlen_nonneg rest).
  assert (LB : Zlen b = Zlen sf + Zlen rest) by (unfold b; apply Zlen_app).
  assert (E0 : f_fl b = f_fl sf) by (unfold f_fl, b; apply znth_app_l; lia).
  assert (E1 : f_type b = f_type sf) by (unfold f_type, b; apply znth_app_l; lia).
  assert (E2 : znth b 2 = znth sf 2) by (unfold b; apply znth_app_l; lia).
  assert (E3 : f_il b = f_il sf) by (unfold f_il; rewrite E2; reflexivity).
  assert (E4 : f_seq b = f_seq sf) by (unfold f_seq; rewrite E2; reflexivity).
  assert (E5 : f_bl b = f_bl sf) by (unfold f_bl; rewrite E3; unfold b; apply znth_app_l; lia).
  assert (E6 : f_tl b = f_tl sf) by (unfold f_tl; rewrite E0, E3, E5; reflexivity).
  assert (E7 : znth b (f_fl b) = znth sf (f_fl sf)) by (rewrite E0; unfold b; apply znth_app_l; lia).
  assert (E8 : f_secure b <-> f_secure sf) by (unfold f_secure; rewrite E1; reflexivity).
  assert (H3 : 3 + f_il sf + 32 + 23 = f_fl sf) by (unfold f_tl in HT; lia).
  split; [unfold b; apply Forall_app; auto|]. split; [lia|]. split.
  { unfold well_formed. rewrite E0, E1, E3, E5, E6, E8. rewrite E0 in E7. rewrite E7.
    do 10 (split; [clear W11 W12 W13; first [assumption | lia]|]). split; [intros _; exact (W11 ltac:(lia))|]. split; [exact W12|exact W13]. }
  split; [exact E0|]. split; [exact E1|]. split; [exact E4|]. split; [exact E3|]. split; [exact E5|]. split; [exact E6|]. split; [exact E7|]. split; [lia|].
  unfold frame_ctr, frame_id. rewrite E0, E3. unfold b, Zlen in *.
  split; [apply firstn_skipn_app; lia|]. split; [apply firstn_skipn_app; lia|].
  split; [apply (firstn_skipn_app sf rest 0); lia|]. split; apply firstn_skipn_app; lia.
Qed.

(** End to end: a valve frame sent by any transmitter whose ID is associated with the hub, received intact (possibly
    with trailing bytes in the buffer), with a counter newer than the last one the hub holds for it, makes the hub do
    exactly what its operators should: call for heat with the valve percentage iff it is at most 100, relay exactly
    the received frame and print the stats iff there are some. *)
Theorem valve_to_hub : forall (S : Type) (getID : S -> option (list Z)) getCtr (t t' : S) e p j out n il pc txs key idb ctr
    d o1 o2 hs ss m c rest,
  (* the transmitter *)
  enc_sized e -> getID t = Some idb -> getCtr t = (Some ctr, t') ->
  Zlen idb = 8 -> Forall byte idb -> Zlen ctr = 6 -> Forall byte ctr ->
  0 <= il <= 5 -> byte pc -> 59 + il <= n <= Zlen out -> 32 <= Zlen p -> holds_stats p j ->
  Zlen (valve_body pc j) <= 31 -> 284 <= txs ->
  e (txs - 12) key (firstn 6 idb ++ ctr) (frame_header true 79 (znth ctr 5) (firstn (Z.to_nat il) idb) 32 23)
    (Some (padded (valve_body pc j))) <> None ->
  (* the hub *)
  dec_sized d -> dec_inverts e d (ss - 74) -> 74 <= ss -> bytes_mem (mem hs) ->
  first_match (mem hs) (firstn (Z.to_nat il) idb) idb -> holds (mem hs) idb c -> be c + 16 < 2 ^ 48 -> be c < be ctr ->
  Forall byte rest -> junk_ok (hm_junk m) -> hm_powered m ->
  exists r t2 p2 o, encodeValveFrame S getID getCtr t e (Some p) (Some out) n il pc txs (Some key) = Some (r, t2, p2, Some o) /\
    r = 59 + il /\
    let fr := firstn (Z.to_nat r) o in
    (hm_buf m = fr ++ rest ->
     exists hs', hub d (Some key) ss o1 o2 hs m =
       Some (hs', report_acts o1 pc j idb fr (znth ctr 5 mod 16) (hm_minute m) ++ report_acts o2 pc j idb fr (znth ctr 5 mod 16) (hm_minute m)) /\
       bytes_mem (mem hs') /\ holds (mem hs') idb ctr).
Proof.
  intros S getID getCtr t t' e p j out n il pc txs key idb ctr d o1 o2 hs ss m c rest
    He HgI HgC HI8 HIb HC6 HCb Hil Hpc Hn Hp Hst Hvb Htx Henc Hd Hinv Hss HM HFM HH Hmax Hlt Hrest HJ HPw.
  destruct (C54_valve_exact_partial getID getCtr t t' e p j out n il pc txs key idb ctr He HgI HgC HI8 HIb HC6 HCb ltac:(lia) Hpc ltac:(lia) Hp Hst)
    as (r & t2 & p2 & o & E & HR1 & HR2).
  assert (RN : r <> 0).
  { apply HR1. split; [exact Htx|]. split; [exact Hvb|]. split; [lia|]. split; [lia|exact Henc]. }
  destruct (HR2 RN) as (-> & -> & ct & tag & HE & ->). eexists _, _, _, _. split; [exact E|]. split; [reflexivity|].
  set (iv := firstn 6 idb ++ ctr) in *. set (id := firstn (Z.to_nat il) idb) in *. set (sf := secure_frame 79 iv id ct tag).
  assert (Hiv : Zlen iv = 12) by (unfold iv; rewrite Zlen_app, Zlen_firstn; lia).
  assert (Hivb : Forall byte iv) by (unfold iv; apply Forall_app; split; [apply Forall_firstn'|]; assumption).
  assert (Hidl : Zlen id = il) by (unfold id; rewrite Zlen_firstn; lia).
  assert (PL : Zlen (padded (valve_body pc j)) = 32).
  { unfold padded. rewrite !Zlen_app. change (Zlen [31 - Zlen (valve_body pc j)]) with 1. unfold Zlen in *. rewrite repeat_length. lia. }
  destruct (He _ _ _ _ _ _ _ HE) as (T16 & TB & CTB & _ & CTs). specialize (CTs ltac:(discriminate)).
  assert (H11 : znth iv 11 = znth ctr 5).
  { unfold iv. rewrite znth_app by lia. rewrite Zlen_firstn, HI8. reflexivity. }
  assert (HIC : iv_ctr iv = ctr).
  { unfold iv_ctr, iv. rewrite skipn_app. rewrite skipn_all2 by (rewrite firstn_length; lia). rewrite firstn_length. unfold Zlen in *.
    replace (6 - Nat.min 6 (length idb))%nat with 0%nat by lia. cbn [skipn app]. apply firstn_all2. lia. }
  destruct (secure_frame_facts 79 iv id ct tag ltac:(lia) Hiv Hivb ltac:(unfold id; apply Forall_firstn'; exact HIb) ltac:(lia) CTB ltac:(lia) TB T16 ltac:(lia))
    as (F1 & F2 & F3 & F4 & F5 & F6 & F7 & F8 & F9 & F10 & F11 & F12 & F13 & F14 & F15). fold sf in F1, F2, F3, F4, F5, F6, F7, F8, F9, F10, F11, F12, F13, F14, F15.
  assert (LS : Zlen sf = 59 + il) by lia.
  assert (FR : firstn (Z.to_nat (59 + il)) (sf ++ skipn (Z.to_nat (59 + il)) out) = sf) by (apply firstn_Zlen_app; symmetry; exact LS).
  cbv zeta. rewrite FR. intros HB.
  destruct (app_frame sf rest F1 Hrest F3 ltac:(lia)) as (A0 & A1 & A2 & A3 & A4 & A5 & A6 & A7 & A8 & A9 & A10 & A11 & A12 & A13).
  rewrite <- HB in A0, A1, A2, A3, A4, A5, A6, A7, A8, A9, A10, A11, A12, A13. set (b := hm_buf m) in *.
  assert (HO : hm_ok m) by (split; [exact A0|split; [exact A1|exact HJ]]).
  destruct (hub_step d (Some key) ss o1 o2 hs m Hd HM HO) as (hs' & acts & EH & _ & H2).
  fold b in H2. specialize (H2 ltac:(split; [exact A2|rewrite A4, F5; reflexivity])). destruct H2 as (oo & ERX & HOO).
  assert (SUB : subspace ss 16 = ss - 16).
  { unfold subspace. change (0 =? 16) with false. cbn [orb]. destruct (Z.leb_spec ss 16); lia. }
  rewrite SUB in *.
  assert (CTR : frame_ctr b = ctr) by (rewrite A11; unfold frame_ctr; congruence).
  assert (FID : frame_id b = id) by (rewrite A12; unfold frame_id; exact F11).
  assert (OPN : opens d (ss - 16 - 58) key idb b (padded (valve_body pc j))).
  { unfold opens. rewrite CTR. fold iv. rewrite A7, F8, CTs. change (32 =? 0) with false. cbv iota.
    destruct A13 as (A13 & A14 & A15). rewrite A13, A14, A15.
    fold (raw_aad sf) (raw_tag sf). rewrite F12, F14, H11, CTs.
    assert (CTX : firstn 32 (skipn (Z.to_nat (4 + f_il sf)) sf) = ct).
    { unfold raw_ct in F13. rewrite F8, CTs in F13. change (32 =? 0) with false in F13. cbv iota in F13. apply some_inj in F13. exact F13. }
    rewrite CTX. replace (ss - 16 - 58) with (ss - 74) by lia. exact (Hinv _ _ _ _ _ _ _ HE). }
  destruct (rx_complete d hs b idb c key (hm_junk m) (ss - 16) (hm_power m) (padded (valve_body pc j)) Hd HM
     ltac:(split; [exact A0|split; [exact A1|lia]]) HJ A2 ltac:(congruence) ltac:(congruence) ltac:(right; congruence)
     ltac:(rewrite CTR; congruence) ltac:(lia) ltac:(rewrite FID; exact HFM) HH Hmax ltac:(rewrite CTR; exact Hlt) OPN HPw) as (hs2 & ER2 & HM2 & HH2).
  rewrite ER2 in ERX. apply some_pair_inj in ERX as [<- <-].
  destruct HOO as (k & q & HK & HOp & _ & _ & _ & _ & _ & ->). apply some_inj in HK. subst k.
  unfold opens in HOp, OPN. rewrite OPN in HOp. apply some_inj in HOp. subst q.
  rewrite body_of_padded in EH by (congruence || lia).
  rewrite !(valve_body_acts _ pc j p) in EH by assumption.
  exists hs2. rewrite CTR in HH2. split; [|split; [exact HM2|exact HH2]]. rewrite EH. 
  assert (FB : firstn (Z.to_nat (f_fl b + 1)) b = sf).
  { rewrite A3, F4, HB. apply firstn_Zlen_app. reflexivity. }
  rewrite FB. replace (f_seq b) with (znth ctr 5 mod 16) by congruence. reflexivity.
Qed.

(** The hypotheses are met: a toy cipher, nodeA sending valve 60% with no stats, a hub that has only seen counter 0. *)
Definition rx_msg (body : option (list Z)) (ty : Z) (ctr : list Z) (junk0 minute : Z) : hmsg :=
  let iv := firstn 6 nodeA ++ ctr in
  mkHm (match enc_null 0 [] iv [] body with
        | Some (ct, tag) => secure_frame ty iv (firstn 4 nodeA) ct tag | None => [] end) (junk0 :: repeat 0 30) minute 18.
Example valve_to_hub_nonvacuous :
  let tx := fun j p => encodeValveFrame unit (fun _ => Some nodeA) (fun u => (Some c1000, u)) tt enc_demo (Some p) (Some (repeat 0 64)) 64 4 60 300 (Some (repeat 7 16)) in
  (match tx tt (repeat 0 32) with
   | Some (r, _, _, Some o) =>
     match hub dec_demo (Some (repeat 7 16)) 200 OpBoiler OpSerial freshA (mkHm (firstn (Z.to_nat r) o ++ [5; 6]) (repeat 9 31) 17 18) with
     | Some (s', a) => a = [ABoiler 60 17] /\ reads_back s' nodeA = Some c1000 | None => False end
   | _ => False end) /\
  (match tx tt ([0; 0; 123; 97; 58; 49; 125; 0] ++ repeat 0 24) with
   | Some (r, _, _, Some o) =>
     match hub dec_demo (Some (repeat 7 16)) 200 OpBoiler OpSerial freshA (mkHm (firstn (Z.to_nat r) o ++ [5; 6]) (repeat 9 31) 17 18) with
     | Some (s', a) => a = [ABoiler 60 17; ASerial nodeA 8 [97; 58; 49]] | None => False end
   | _ => False end).
Proof. vm_compute. split; [split|]; reflexivity. Qed.
Example valve_to_hub_hyps_met : dec_sized dec_demo /\ dec_inverts enc_demo dec_demo (200 - 74) /\ first_match (mem freshA) (firstn 4 nodeA) nodeA /\
  holds_stats (repeat 0 32) None /\ holds_stats ([0; 0; 123; 97; 58; 49; 125; 0] ++ repeat 0 24) (Some [123; 97; 58; 49; 125]) /\
  holds (mem freshA) nodeA [0; 0; 0; 0; 0; 0].
Proof.
  split; [exact dec_demo_sized|]. split; [exact (demo_inverts _)|]. split.
  - exists 0%nat. split; [vm_compute; reflexivity|]. split; [vm_compute; reflexivity|]. intros k x Hk. lia.
  - split; [vm_compute; discriminate|]. split.
    + split; [reflexivity|]. split; [repeat constructor; discriminate|]. eexists. reflexivity.
    + exists 0. split; [split; [lia|split; [vm_compute; reflexivity|intros k Hk; lia]]|].
      assert (IC : is_ctr [0; 0; 0; 0; 0; 0]) by (split; [reflexivity|repeat constructor; lia]).
      split; [exact IC|]. exists [0; 0; 0; 0; 0; 0], 0. split; [exact IC|].
      assert (CA : forall a, a = 776 \/ a = 784 -> copy_at (mem freshA) a [0; 0; 0; 0; 0; 0]).
      { intros a Ha. split; [|destruct Ha as [-> | ->]; vm_compute; reflexivity].
        intros k Hk. assert (k = 0 \/ k = 1 \/ k = 2 \/ k = 3 \/ k = 4 \/ k = 5) as K by lia.
        destruct Ha as [-> | ->]; destruct K as [-> | [-> | [-> | [-> | [-> | ->]]]]]; vm_compute; reflexivity. }
      split; [apply CA; lia|]. split; [apply CA; lia|]. split; [split; [lia|vm_compute; reflexivity]|]. split; vm_compute; reflexivity.
Qed.

(** ** Refutation *)
(** Full statement of hub_acts: the percentage passed to the boiler is the first byte of the authenticated body.
    Refuted: an authentic frame with an empty body calls for heat with whatever byte the stack buffer held. *)
Theorem hub_boiler_refuted :
  exists m m', hm_buf m = hm_buf m' /\ hm_ok m /\ hm_ok m' /\ body_of (hm_buf m) (repeat 0 32) = [] /\
    match hub dec_null (Some (repeat 7 16)) 200 OpBoiler OpNull freshA m, hub dec_null (Some (repeat 7 16)) 200 OpBoiler OpNull freshA m' with
    | Some (_, a), Some (_, a') => a = [ABoiler 100 5] /\ a' = [] | _, _ => False end.
Proof.
  exists (rx_msg None 79 c1000 100 5), (rx_msg None 79 c1000 255 5). split; [reflexivity|].
  assert (OK : forall x, byte x -> hm_ok (rx_msg None 79 c1000 x 5)).
  { intros x Hx. split; [|split; [vm_compute; reflexivity|]].
    - cbn [rx_msg hm_buf]. apply Forall_forall; intros y Hy; vm_compute in Hy; unfold byte; repeat (destruct Hy as [<-|Hy]; [lia|]); destruct Hy.
    - cbn [rx_msg hm_junk]. split; [constructor; [exact Hx|]; apply Forall_forall; intros y Hy; apply repeat_spec in Hy; subst; red; lia|reflexivity]. }
  split; [apply OK; red; lia|]. split; [apply OK; red; lia|]. vm_compute. repeat split; reflexivity.
Qed.

(** ** The receive queue *)
(** In-time calls handle queued messages one per call, oldest first; late calls do nothing. *)
Fixpoint process (h1 h2 : handler) (s : RxS) (l : list (list Z)) : option (RxS * list act) :=
  match l with
  | [] => Some (s, [])
  | m :: r => do (s1, a) <- handle_raw h1 h2 s m; do (s2, b) <- process h1 h2 s1 r; Some (s2, a ++ b)
  end.
Fixpoint queue_calls (h1 h2 : handler) (s : RxS) (q : list (list Z)) (calls : list (Z * bool))
    : option (RxS * list (list Z) * list bool * list act) :=
  match calls with
  | [] => Some (s, q, [], [])
  | (sct, poll) :: r => do (s1, q1, w, a) <- handle_queue h1 h2 sct poll s q;
      do (s2, q2, ws, b) <- queue_calls h1 h2 s1 q1 r; Some (s2, q2, w :: ws, a ++ b)
  end.
(** Calls made before three quarters of the sub-cycle (of 255 ticks) have passed. *)
Definition in_time (c : Z * bool) : bool := fst c <? 189.
(** The result of each call: something was done, i.e. in time and (a message or serial activity). *)
Fixpoint call_results (n : nat) (calls : list (Z * bool)) : list bool :=
  match calls with
  | [] => []
  | c :: r => if in_time c then match n with O => snd c :: call_results O r | S n' => true :: call_results n' r end
              else false :: call_results n r
  end.
Theorem hub_queue : forall h1 h2 calls s q,
  let k := Nat.min (length (filter in_time calls)) (length q) in
  queue_calls h1 h2 s q calls =
  match process h1 h2 s (firstn k q) with
  | Some (s', a) => Some (s', skipn k q, call_results (length q) calls, a)
  | None => None
  end.
Proof.
  intros h1 h2. induction calls as [|[sct poll] calls IH]; intros s q; cbv zeta.
  - cbn [filter length Nat.min queue_calls call_results]. rewrite firstn_O. reflexivity.
  - cbn [queue_calls filter call_results]. unfold handle_queue, in_time. cbn [fst snd]. change (255 / 4 * 3) with 189.
    destruct (Z.geb_spec sct 189) as [G|G].
    + replace (sct <? 189) with false by lia. cbn [bind]. rewrite IH. cbv zeta. fold in_time.
      destruct (process h1 h2 s _) as [[s' a]|]; reflexivity.
    + replace (sct <? 189) with true by lia. cbn [length]. destruct q as [|m q].
      * cbn [bind]. rewrite IH. cbv zeta. cbn [length]. rewrite !Nat.min_0_r. rewrite !firstn_O. cbn [process skipn bind app]. reflexivity.
      * cbn [length Nat.min firstn skipn process]. destruct (handle_raw h1 h2 s m) as [[s1 a1]|]; cbn [bind]; [|reflexivity].
        rewrite IH. cbv zeta. fold in_time. destruct (process h1 h2 s1 _) as [[s2 b]|]; reflexivity.
Qed.
(** With the hub's handlers every call sequence is defined, so in-time calls drain the queue in order. *)
Example hub_queue_nonvacuous :
  let h := handle_O dec_null (Some (repeat 7 16)) 200 5 OpBoiler OpNull (repeat 0 31) in
  let f := fun p c => hm_buf (rx_msg (Some (padded (valve_body p None))) 79 c 0 0) in
  match queue_calls h handle_dummy (freshA, Some 100%nat) [f 10 c1000; f 10 c1000; f 20 c5000] [(200, true); (0, false); (188, false); (10, false); (10, false); (3, true)] with
  | Some (_, q, ws, a) => q = [] /\ ws = [false; true; true; true; false; true] /\ a = [ABoiler 10 5; ABoiler 20 5]
  | None => False end.
Proof. vm_compute. repeat split; reflexivity. Qed.
(** A run with a replay, junk, another type and an unknown node: only the two fresh genuine frames act. *)
Example hub_no_replay_nonvacuous :
  let f := fun p c => rx_msg (Some (padded (valve_body p None))) 79 c 0 0 in
  let l := [f 10 c1000; f 10 c1000; mkHm [3; 79; 2; 1; 0] (repeat 0 31) 0 18; rx_msg (Some (padded [50; 0])) 33 c5000 0 0; f 20 c5000; f 99 c1005] in
  match hub_run dec_null (Some (repeat 7 16)) 200 OpBoiler OpNull freshA l with
  | Some (outs, _) => outs = [[ABoiler 10 0]; []; []; []; [ABoiler 20 0]; []] | None => False end.
Proof. vm_compute. reflexivity. Qed.
Print Assumptions hub_no_replay.
Print Assumptions hub_acts_partial.
Print Assumptions valve_to_hub.
Print Assumptions hub_boiler_refuted.
Print Assumptions hub_queue.
