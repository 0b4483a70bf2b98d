(** C12, C13: the whole receiver. *)
From Verif Require Import Base CrcSpec FrameModel FrameSpec FrameProofs SecureModel SecureSpec SecureProps SecureProofs SecureRawProps EepromModel EepromProofs AssocProps RxCtrModel RxCtrProofs RxCtrNormal RxCtrProps RxCtrCrash SecureRxModel.

(** The message counter in the trailer of a frame: its first six bytes. *)
Definition frame_ctr (b : list Z) : list Z := firstn 6 (skipn (Z.to_nat (f_fl b - 22)) b).
(** The (possibly shortened) sender ID in the frame. *)
Definition frame_id (b : list Z) : list Z := firstn (Z.to_nat (f_il b)) (skipn 3 b).
(** The primitive accepted exactly the received header, ciphertext and tag
    under the sender's full ID and the frame's counter. *)
Definition authentic (d : Dec) (ws : Z) (key node b : list Z) : Prop :=
  exists q, d ws key (firstn 6 node ++ frame_ctr b) (firstn (Z.to_nat (4 + f_il b)) b)
    (if f_bl b =? 0 then None else Some (firstn 32 (skipn (Z.to_nat (4 + f_il b)) b)))
    (firstn 16 (skipn (Z.to_nat (f_fl b - 16)) b)) = Some q.
(** A frame as passed up by the radio layer: bytes, all of it present. *)
Definition frame_ok (e : RxFrame) : Prop :=
  Forall byte (fr_buf e) /\ f_fl (fr_buf e) < Zlen (fr_buf e) /\
  (forall p, fr_ptext e = Some p -> 31 <= Zlen p).

Lemma rx_lookup_scan s h bf : Zlen (hid h) = 8 -> 0 <= getIl h <= 8 ->
  rx_lookup (s, bf) 0 h = scan (mem s) (firstn (Z.to_nat (getIl h)) (hid h)) 0 8.
Proof.
  intros H8 Hil. unfold rx_lookup, getNextMatchingNodeID. cbn [fst].
  change (0 >=? ASSOC_MAX) with false. replace (getIl h >? 8) with false by lia. cbv iota.
  change (Z.to_nat (ASSOC_MAX - 0)) with 8%nat.
  destruct (does_match_rows (firstn (Z.to_nat (getIl h)) (hid h)) 8 0 s ltac:(lia) 0%nat)
    as [(s' & k & _ & Hf & _)|(s' & f' & E & _)]; [simpl in Hf; lia|]. rewrite E. reflexivity.
Qed.

Lemma frame_ctr_is b : Forall byte b -> f_fl b < Zlen b -> 22 <= f_fl b -> is_ctr (frame_ctr b).
Proof.
  intros Hb Hfl H22. unfold frame_ctr. split.
  - rewrite Zlen_firstn, Zlen_skipn. lia.
  - apply Forall_firstn', Forall_skipn'. exact Hb.
Qed.

(** One frame: either ignored without touching the EEPROM, or exactly one
    counter-update request for the first associated node whose ID starts with
    the frame's ID, made only for authentic frames. *)
Lemma rx_frame_step d s e : dec_sized d -> bytes_mem (mem s) -> frame_ok e ->
  rx_frame d s e = Some (s, FrRej) \/
  exists node key s' o,
    rx_step s (node, frame_ctr (fr_buf e), fr_power e) = (s', o) /\
    rx_frame d s e = Some (s', match o with RxAccepted => FrAcc node | RxRefused => FrRej | RxInterrupted => FrLost end) /\
    In node (ids (mem s)) /\ is_id node /\ starts_with (frame_id (fr_buf e)) node /\
    (exists i, scan (mem s) (frame_id (fr_buf e)) 0 8 = Some (i, node)) /\
    is_ctr (frame_ctr (fr_buf e)) /\ well_formed (fr_buf e) (Zlen (fr_buf e)) /\ f_tl (fr_buf e) = 23 /\
    fr_key e = Some key /\ authentic d (fr_scratch e - 58) key node (fr_buf e).
Proof.
  intros Hd HM (Hb & Hfl & Hpt). unfold rx_frame. destruct e as [b ptext ss key f]. cbn [fr_buf fr_ptext fr_scratch fr_key fr_power] in *.
  destruct (decodeHeader_char hdr0 b (Zlen b) ltac:(lia) Hb ltac:(reflexivity)) as [[W D]|[_ (h' & D & Hh)]]; rewrite D; cbn [bind].
  2:{ left. unfold decodeV0p2, decode, decode_scratch_usage. destruct (14 >? ss); [reflexivity|].
      unfold isInvalid. rewrite Hh. reflexivity. }
  destruct (hdr_decoded_facts hdr0 b _ Hb W) as (D1 & D2 & D3 & D4 & D5 & D6 & D7 & D8 & D9).
  pose proof W as (W1 & W2 & W3 & W4 & W5 & W6 & W7 & W8 & W9 & W10 & W11 & W12 & W13).
  assert (Hil : 0 <= f_il b) by (unfold f_il; pose proof (Z.mod_pos_bound (znth b 2) 16); lia).
  pose proof (znth_byte b (3 + f_il b) Hb) as B3. fold (f_bl b) in B3. unfold byte in B3.
  unfold decodeV0p2, decode, decode_scratch_usage. rewrite D1, D3.
  destruct (14 >? ss) eqn:E1; [left; reflexivity|].
  destruct (negb (23 =? f_tl b)) eqn:E2; [left; reflexivity|]. assert (HTL : f_tl b = 23) by lia.
  assert (H22 : 22 <= f_fl b) by (unfold f_tl in HTL; lia).
  assert (HID : Zlen (hid (hdr_decoded hdr0 b)) = 8).
  { cbn [hdr_decoded hid]. rewrite Zlen_app, Zlen_firstn, !Zlen_skipn.
    change (Zlen (hid hdr0)) with 8. lia. }
  rewrite rx_lookup_scan by (auto; lia).
  assert (HPre : firstn (Z.to_nat (getIl (hdr_decoded hdr0 b))) (hid (hdr_decoded hdr0 b)) = frame_id b).
  { rewrite D8. cbn [hdr_decoded hid]. unfold frame_id. rewrite firstn_app, firstn_firstn, Nat.min_id.
    replace (Z.to_nat (f_il b) - length (firstn (Z.to_nat (f_il b)) (skipn 3 b)))%nat with 0%nat.
    - rewrite firstn_O, app_nil_r. reflexivity.
    - rewrite firstn_length, skipn_length. unfold Zlen in *. lia. }
  rewrite HPre. pose proof (scan_spec (mem s) (frame_id b) 8 0) as HS. fold (ids (mem s)) in HS.
  destruct (scan (mem s) (frame_id b) 0 8) as [[i node]|] eqn:ES; [|left; reflexivity].
  destruct HS as (_ & HIn & HSt & _). rewrite Z.sub_0_r in HIn. apply nth_error_In in HIn.
  assert (H8 : is_id node) by (eapply ids_from_len8; exact HIn).
  rewrite (D9 HTL). rewrite sub_some by lia. change (Z.to_nat 6) with 6%nat.
  fold (frame_ctr b). cbn [bind].
  pose proof (frame_ctr_is b Hb Hfl H22) as HC. pose proof HC as [C6 CB].
  unfold validateRXMsgCtr, rx_last. cbn [fst]. fold (reads_back s node). 
  destruct (reads_back s node) as [cur|] eqn:EL; [|left; reflexivity].
  assert (HCur : is_ctr cur).
  { rewrite reads_back_eq in EL by exact H8. apply lookup_last_six in EL; [split; tauto|exact HM]. }
  destruct (C08_cmp_numeric (frame_ctr b) cur C6 (proj1 HCur) CB (proj2 HCur)) as (r & -> & _). cbn [bind].
  destruct (r >? 0); cbn [negb]; [|left; reflexivity].
  (* decodeFromID *)
  unfold decodeFromID, decodeFromID_scratch_usage.
  destruct (12 >? subspace ss 14) eqn:E3; [left; reflexivity|].
  replace (Zlen node <? 6) with false by (unfold is_id in H8; lia).
  rewrite rd_some by lia. cbn [bind]. change (znth b 0) with (f_fl b). rewrite u8_id by (unfold byte; lia).
  rewrite (D9 HTL). replace (f_fl b - 22 + 6 >? f_fl b + 1) with false by lia.
  rewrite sub_full_prefix by (unfold is_id in H8; lia). cbn [bind]. rewrite sub_some by lia. cbn [bind].
  change (Z.to_nat 6) with 6%nat. fold (frame_ctr b).
  set (iv := firstn 6 node ++ frame_ctr b).
  assert (Hiv : Zlen iv = 12).
  { unfold iv. rewrite Zlen_app, Zlen_firstn, C6. unfold is_id in H8. lia. }
  destruct key as [key|].
  2:{ left. unfold decodeRaw. destruct (decodeRaw_scratch_usage >? subspace (subspace ss 14) 12); reflexivity. }
  assert (Hss : 26 <= ss /\ subspace ss 14 = ss - 14).
  { unfold subspace in *. change (0 =? 14) with false in *. cbn [orb] in *. destruct (ss <=? 14) eqn:E4; lia. }
  destruct (C11_decodeRaw_exact d hdr0 b (Zlen b) (4 + f_il b) (hdr_decoded hdr0 b) ptext 0
              (subspace (subspace ss 14) 12) key iv Hd Hb eq_refl ltac:(lia) D ltac:(lia) Hfl Hiv Hpt)
    as (rr & pt' & pl' & ER & HR1 & HR2 & _).
  rewrite ER. cbn [bind].
  destruct (0 =? rr) eqn:E5; [left; reflexivity|]. right.
  destruct HR1 as [HR1 _]. specialize (HR1 ltac:(lia)). destruct HR1 as (G1 & _ & _ & _ & _ & q & HQ).
  assert (Hsub : subspace (subspace ss 14) 12 = ss - 26).
  { unfold subspace in G1 |- *. change (0 =? 14) with false in *. change (0 =? 12) with false in *. cbn [orb] in *.
    destruct (ss <=? 14); cbn in G1; [lia|]. destruct (ss - 14 <=? 12) eqn:E6; lia. }
  rewrite Hsub in HQ.
  unfold rx_auth. cbn [snd fst].
  destruct (authAndUpdateRXMsgCtr node (frame_ctr b) s f) as [s' [[ok f']|]] eqn:EA; exists node, key, s'.
  - exists (if ok : bool then RxAccepted else RxRefused). split; [unfold rx_step; rewrite EA; destruct ok; reflexivity|].
    split; [destruct ok; cbn [bind fst snd]; [replace (rr =? 0) with false by lia; reflexivity|reflexivity]|].
    repeat (split; [assumption|]). split; [exists i; reflexivity|]. repeat (split; [assumption|]). split; [reflexivity|].
    exists q. replace (ss - 58) with (ss - 26 - 32) by lia. exact HQ.
  - exists RxInterrupted. split; [unfold rx_step; rewrite EA; reflexivity|].
    split; [reflexivity|].
    repeat (split; [assumption|]). split; [exists i; reflexivity|]. repeat (split; [assumption|]). split; [reflexivity|].
    exists q. replace (ss - 58) with (ss - 26 - 32) by lia. exact HQ.
Qed.

Definition powered (e : RxFrame) : Prop := (18 <= fr_power e)%nat.

(** One frame, no power failure. *)
Lemma frame_powered d s e : dec_sized d -> bytes_mem (mem s) -> frame_ok e -> powered e ->
  exists s' o, rx_frame d s e = Some (s', o) /\ bytes_mem (mem s') /\
    (forall p, scan (mem s') p 0 8 = scan (mem s) p 0 8) /\
    (forall id v, is_id id -> reads_back s id = Some v -> exists v', reads_back s' id = Some v' /\ be v <= be v') /\
    match o with
    | FrAcc node => is_id node /\ (exists i, scan (mem s) (frame_id (fr_buf e)) 0 8 = Some (i, node)) /\
        (exists v, reads_back s node = Some v /\ be v < be (frame_ctr (fr_buf e))) /\
        reads_back s' node = Some (frame_ctr (fr_buf e))
    | FrRej => forall q, mem s' q = mem s q
    | FrLost => False
    end.
Proof.
  intros Hd HM HF HP. destruct (rx_frame_step d s e Hd HM HF) as [E|(node & key & s' & o & E1 & E2 & _ & H8 & _ & HSc & HC & _)].
  - exists s, FrRej. split; [exact E|]. split; [exact HM|]. split; [reflexivity|]. split; [|reflexivity].
    intros id v _ HR. exists v. split; [exact HR|lia].
  - destruct (C19_update_any_content node (frame_ctr (fr_buf e)) s (fr_power e) H8 HC HM HP) as (s2 & f' & ok & EA & HB & HT & HFa).
    unfold rx_step in E1. rewrite EA in E1. destruct ok.
    + apply pair_inj in E1. destruct E1 as [<- <-]. destruct (HT eq_refl) as ((v & HV & Hlt) & HR & HO & i & Hi & _ & HQ).
      eexists _, _. split; [exact E2|]. split; [exact HB|]. split.
      { intros p. apply scan_ids; [|lia|lia]. intros j q Hj Hq. apply HQ. lia. }
      split.
      { intros id w Hid HW. destruct (list_eqb id node) eqn:EX.
        - apply list_eqb_eq in EX. subst id. rewrite HV in HW. apply some_inj in HW. subst w.
          eexists. split; [exact HR|lia].
        - assert (id <> node) by (intros ->; rewrite (proj2 (list_eqb_eq node node) eq_refl) in EX; discriminate).
          exists w. split; [rewrite HO by auto; exact HW|lia]. }
      split; [exact H8|]. split; [exact HSc|]. split; [exists v; auto|exact HR].
    + apply pair_inj in E1. destruct E1 as [<- <-]. specialize (HFa eq_refl).
      eexists _, _. split; [exact E2|]. split; [exact HB|]. split; [intros p; apply scan_meq; exact HFa|]. split; [|exact HFa].
      intros id w Hid HW. exists w. split; [|lia]. rewrite reads_back_eq in * by exact Hid. rewrite <- HW.
      unfold lookup_last. rewrite (row_of_meq _ _ id HFa). destruct (row_of (mem s) id); [|reflexivity].
      apply last_ext. intros; apply HFa.
Qed.

Lemma frames_powered d l : dec_sized d -> forall s, bytes_mem (mem s) ->
  Forall (fun e => frame_ok e /\ powered e) l ->
  exists os s', rx_frames d s l = Some (os, s') /\ length os = length l /\ bytes_mem (mem s') /\
   (forall j ej node, nth_error l j = Some ej -> nth_error os j = Some (FrAcc node) ->
      is_id node /\ (exists i, scan (mem s) (frame_id (fr_buf ej)) 0 8 = Some (i, node)) /\
      exists v, reads_back s node = Some v \/ reads_back s node = None) /\
   (forall id v j ej, is_id id -> reads_back s id = Some v -> nth_error l j = Some ej -> nth_error os j = Some (FrAcc id) ->
      be v < be (frame_ctr (fr_buf ej))) /\
   (forall i j ei ej id, (i < j)%nat -> nth_error l i = Some ei -> nth_error l j = Some ej ->
      nth_error os i = Some (FrAcc id) -> nth_error os j = Some (FrAcc id) ->
      be (frame_ctr (fr_buf ei)) < be (frame_ctr (fr_buf ej))).
Proof.
  intros Hd. induction l as [|e l IH]; intros s HM HF; cbn [rx_frames].
  - exists [], s. split; [reflexivity|]. split; [reflexivity|]. split; [exact HM|].
    repeat split; intros; destruct j; discriminate.
  - apply Forall_cons_iff in HF. destruct HF as [[HF HP] HFl].
    destruct (frame_powered d s e Hd HM HF HP) as (s1 & o & E & HM1 & HS1 & HR1 & HO).
    destruct (IH s1 HM1 HFl) as (os & s2 & E2 & HL & HM2 & H1 & H2 & H3).
    rewrite E. cbn [bind]. rewrite E2. cbn [bind]. exists (o :: os), s2.
    split; [reflexivity|]. split; [simpl; lia|]. split; [exact HM2|]. split; [|split].
    + intros [|j] ej node Hj Ho; cbn [nth_error] in *.
      * apply some_inj in Hj. apply some_inj in Ho. subst. destruct HO as (A & B & (v & C & _) & _). split; [exact A|]. split; [exact B|]. exists v. auto.
      * destruct (H1 j ej node Hj Ho) as (A & (i & B) & _). split; [exact A|]. rewrite HS1 in B. split; [eauto|].
        destruct (reads_back s node) as [v|]; [exists v; auto|exists []; auto].
    + intros id v [|j] ej Hid HV Hj Ho; cbn [nth_error] in *.
      * apply some_inj in Hj. apply some_inj in Ho. subst. destruct HO as (_ & _ & (w & C & D) & _). rewrite HV in C. apply some_inj in C. subst. exact D.
      * destruct (HR1 id v Hid HV) as (v' & HV' & Hle). specialize (H2 id v' j ej Hid HV' Hj Ho). lia.
    + intros [|i] [|j] ei ej id Hij Hi Hj Hoi Hoj; cbn [nth_error] in *; try lia.
      * apply some_inj in Hi. apply some_inj in Hoi. subst. destruct HO as (A & _ & _ & D).
        apply (H2 id _ j ej A D Hj Hoj).
      * apply (H3 i j ei ej id); auto; lia.
Qed.

(** ** C12 *)
(** Over any sequence of received frames, starting from any EEPROM content, with
    any decryption primitive, keys and buffers: the receiver never runs into
    undefined behaviour, and two frames accepted from the same node carry
    strictly increasing counters. *)
Theorem C12_anti_replay : forall d s l,
  dec_sized d -> bytes_mem (mem s) -> Forall (fun e => frame_ok e /\ powered e) l ->
  exists os s', rx_frames d s l = Some (os, s') /\ length os = length l /\
   forall i j ei ej id, (i < j)%nat -> nth_error l i = Some ei -> nth_error l j = Some ej ->
     nth_error os i = Some (FrAcc id) -> nth_error os j = Some (FrAcc id) ->
     be (frame_ctr (fr_buf ei)) < be (frame_ctr (fr_buf ej)).
Proof.
  intros d s l Hd HM HF. destruct (frames_powered d l Hd s HM HF) as (os & s' & E & HL & _ & _ & _ & H).
  exists os, s'. auto.
Qed.

(** The same frame is never accepted twice. *)
Theorem C12_never_twice : forall d s l os s' i j ei ej idi idj,
  dec_sized d -> bytes_mem (mem s) -> Forall (fun e => frame_ok e /\ powered e) l ->
  rx_frames d s l = Some (os, s') ->
  nth_error l i = Some ei -> nth_error l j = Some ej -> fr_buf ei = fr_buf ej ->
  nth_error os i = Some (FrAcc idi) -> nth_error os j = Some (FrAcc idj) -> i = j.
Proof.
  intros d s l os s' i j ei ej idi idj Hd HM HF E Hi Hj HB Hoi Hoj.
  destruct (frames_powered d l Hd s HM HF) as (os2 & s2 & E2 & _ & _ & H1 & _ & H3).
  rewrite E in E2. apply some_pair_inj in E2. destruct E2 as [<- <-].
  destruct (H1 i ei idi Hi Hoi) as (_ & (a & A) & _). destruct (H1 j ej idj Hj Hoj) as (_ & (b & B) & _).
  rewrite HB in A. rewrite A in B. apply some_pair_inj in B. destruct B as [_ <-].
  destruct (Nat.lt_trichotomy i j) as [Hlt|[Heq|Hgt]]; [|exact Heq|].
  - specialize (H3 i j ei ej idi Hlt Hi Hj Hoi Hoj). rewrite HB in H3. lia.
  - specialize (H3 j i ej ei idi Hgt Hj Hi Hoj Hoi). rewrite HB in H3. lia.
Qed.

(** Accepted frames are authentic: their sender is the first associated node
    matching the frame's ID, and the primitive accepted exactly the received
    header, ciphertext and tag under that node's ID and the frame's counter. *)
Theorem C12_accepted_authentic : forall d s e s' node,
  dec_sized d -> bytes_mem (mem s) -> frame_ok e -> rx_frame d s e = Some (s', FrAcc node) ->
  In node (ids (mem s)) /\ starts_with (frame_id (fr_buf e)) node /\
  well_formed (fr_buf e) (Zlen (fr_buf e)) /\ f_tl (fr_buf e) = 23 /\
  exists key, fr_key e = Some key /\ authentic d (fr_scratch e - 58) key node (fr_buf e).
Proof.
  intros d s e s' node Hd HM HF E.
  destruct (rx_frame_step d s e Hd HM HF) as [E1|(n2 & key & s2 & o & _ & E2 & H1 & _ & H2 & _ & _ & H3 & H4 & H5 & H6)].
  - rewrite E in E1. apply some_pair_inj in E1. destruct E1. discriminate.
  - rewrite E in E2. apply some_pair_inj in E2. destruct E2 as [_ E2]. destruct o; try discriminate.
    injection E2 as <-. repeat (split; [assumption|]). exists key. auto.
Qed.

(** Power failures: every life of received frames is, as far as counters are
    concerned, a life of counter-update requests, one per authentic fresh
    frame; so C17 and C18 apply to it. *)
Theorem C12_power_failures : forall d l s,
  dec_sized d -> bytes_mem (mem s) -> Forall frame_ok l ->
  exists os s' reqs, rx_frames d s l = Some (os, s') /\
    (forall x c f, In (x, c, f) reqs -> is_id x /\ is_ctr c) /\
    snd (rx_life s reqs) = s' /\
    forall id, is_id id ->
      accepted id reqs (fst (rx_life s reqs)) =
      map (fun p => be (frame_ctr (fr_buf (fst p))))
          (filter (fun p => match snd p with FrAcc x => list_eqb x id | _ => false end) (combine l os)).
Proof.
  intros d l. induction l as [|e l IH]; intros s Hd HM HF; cbn [rx_frames].
  - exists [], s, []. split; [reflexivity|]. split; [intros ? ? ? []|]. split; reflexivity.
  - apply Forall_cons_iff in HF. destruct HF as [HF HFl].
    destruct (rx_frame_step d s e Hd HM HF) as [E|(node & key & s1 & o & E1 & E2 & _ & H8 & _ & _ & HC & _)].
    + destruct (IH s Hd HM HFl) as (os & s' & reqs & E2 & H1 & H2 & H3).
      rewrite E. cbn [bind]. rewrite E2. cbn [bind]. exists (FrRej :: os), s', reqs.
      split; [reflexivity|]. split; [exact H1|]. split; [exact H2|]. intros id Hid. cbn [combine filter snd]. apply H3. exact Hid.
    + assert (HM1 : bytes_mem (mem s1)).
      { destruct (rx_step_cases s node (frame_ctr (fr_buf e)) (fr_power e) H8 HC HM) as
          [(s3 & E3 & Hm)|(a & ws & k & s3 & _ & EP & _ & HCase)].
        - rewrite E1 in E3. apply pair_inj in E3. destruct E3 as [<- _]. eapply RxCtrNormal.bytes_meq; eauto.
        - destruct HCase as [[E3 Hm]|[E3 Hm]]; rewrite E1 in E3; apply pair_inj in E3; destruct E3 as [<- _];
            intros q; rewrite Hm; revert q; (apply applyw_bytes; [exact HM|]); intros w Hw;
            (eapply plan_bytes; [exact HM|apply HC|exact EP|]); [exact Hw|].
          rewrite <- (firstn_skipn k ws). apply in_or_app. auto. }
      destruct (IH s1 Hd HM1 HFl) as (os & s' & reqs & E3 & H1 & H2 & H3).
      rewrite E2. cbn [bind]. rewrite E3. cbn [bind].
      eexists _, s', ((node, frame_ctr (fr_buf e), fr_power e) :: reqs). split; [reflexivity|].
      split; [intros x c f [HX|HX]; [injection HX as <- <- <-; auto|eauto]|].
      cbn [rx_life]. rewrite E1. destruct (rx_life s1 reqs) as [os3 s3] eqn:EL. cbn [fst snd] in *.
      split; [exact H2|]. intros id Hid. cbn [combine filter snd fst accepted]. specialize (H3 id Hid). rewrite H3.
      destruct o; destruct (list_eqb node id); reflexivity.
Qed.

(** ** C13 *)
(** A refused frame changes no byte of the EEPROM. *)
Theorem C13_rejected_no_change : forall d s e s',
  dec_sized d -> bytes_mem (mem s) -> frame_ok e -> rx_frame d s e = Some (s', FrRej) ->
  forall q, mem s' q = mem s q.
Proof.
  intros d s e s' Hd HM HF E.
  destruct (rx_frame_step d s e Hd HM HF) as [E1|(node & key & s1 & o & E1 & E2 & _ & H8 & _ & _ & HC & _)].
  - rewrite E in E1. apply some_pair_inj in E1. destruct E1 as [-> _]. reflexivity.
  - rewrite E in E2. apply some_pair_inj in E2. destruct E2 as [<- E2]. destruct o; try discriminate.
    destruct (rx_step_cases s node (frame_ctr (fr_buf e)) (fr_power e) H8 HC HM) as
          [(s3 & E3 & Hm)|(a & ws & k & s3 & _ & EP & _ & HCase)].
    + rewrite E1 in E3. apply pair_inj in E3. destruct E3 as [<- _]. exact Hm.
    + destruct HCase as [[E3 Hm]|[E3 Hm]]; rewrite E1 in E3; apply pair_inj in E3; destruct E3; discriminate.
Qed.
(** In particular a frame that is not authentic, from an unknown node, malformed
    or stale is refused. *)
Theorem C13_refusal_cases : forall d s e s' o,
  dec_sized d -> bytes_mem (mem s) -> frame_ok e -> rx_frame d s e = Some (s', o) ->
  (~ well_formed (fr_buf e) (Zlen (fr_buf e)) \/
   (forall node, In node (ids (mem s)) -> ~ starts_with (frame_id (fr_buf e)) node) \/
   (forall key node, ~ authentic d (fr_scratch e - 58) key node (fr_buf e)) \/
   (forall node v, In node (ids (mem s)) -> starts_with (frame_id (fr_buf e)) node ->
       reads_back s node = Some v -> be (frame_ctr (fr_buf e)) <= be v)) ->
  o = FrRej.
Proof.
  intros d s e s' o Hd HM HF E HX.
  destruct (rx_frame_step d s e Hd HM HF) as [E1|(node & key & s1 & o1 & E1 & E2 & HIn & H8 & HSt & _ & HC & HW & _ & _ & HA)].
  { rewrite E in E1. apply some_pair_inj in E1. tauto. }
  destruct HX as [HX|[HX|[HX|HX]]]; [tauto|destruct (HX node HIn HSt)|destruct (HX key node HA)|].
  rewrite E in E2. apply some_pair_inj in E2. destruct E2 as [_ ->].
  destruct (rx_step_cases s node (frame_ctr (fr_buf e)) (fr_power e) H8 HC HM) as
          [(s3 & E3 & Hm)|(a & ws & k & s3 & _ & EP & EN & HCase)].
  - rewrite E1 in E3. apply pair_inj in E3. destruct E3 as [_ ->]. reflexivity.
  - exfalso. unfold newer in EN. rewrite <- reads_back_eq in EN by exact H8.
    destruct (reads_back s node) as [v|] eqn:EV; [|discriminate]. specialize (HX node v HIn HSt EV). lia.
Qed.

(** The hypotheses are met by a receiver that knows one node and the library's
    null cipher: a frame with counter 1000 is accepted, its replay and an older
    frame are refused, a frame from an unknown node is refused, a newer one is
    accepted. *)
Definition ex_frame (id : list Z) (ctr : list Z) : RxFrame :=
  let iv := firstn 6 nodeA ++ ctr in
  mkRxFrame (match enc_null 0 [] iv [] None with
             | Some (_, tag) => secure_frame 33 iv id [] tag | None => [] end) (Some (repeat 0 32)) 100 (Some (repeat 7 16)) 18.
Definition ex_run : list RxFrame :=
  [ex_frame (firstn 4 nodeA) c1000; ex_frame (firstn 4 nodeA) c1000; ex_frame (firstn 2 nodeA) [0;0;0;0;0;9];
   ex_frame [7; 7] c5000; ex_frame (firstn 2 nodeA) c5000].
Example C12_nonvacuous :
  match rx_frames dec_null freshA ex_run with
  | Some (os, s) => os = [FrAcc nodeA; FrRej; FrRej; FrRej; FrAcc nodeA] /\ reads_back s nodeA = Some c5000
  | None => False end.
Proof. vm_compute. split; reflexivity. Qed.
Example C12_nonvacuous_hyps : Forall (fun e => frame_ok e /\ powered e) ex_run.
Proof.
  repeat (constructor; [split; [split; [apply Forall_forall; intros x Hx; vm_compute in Hx; unfold byte; repeat (destruct Hx as [<-|Hx]; [lia|]); destruct Hx|split; [vm_compute; reflexivity|intros p Hp; vm_compute in Hp; apply some_inj in Hp; subst p; vm_compute; discriminate]]|vm_compute; lia]|]).
  constructor.
Qed.
Example C12_nonvacuous_dec : dec_sized dec_null.
Proof. exact dec_null_sized. Qed.
Print Assumptions C12_anti_replay.
Print Assumptions C12_never_twice.
Print Assumptions C12_accepted_authentic.
Print Assumptions C12_power_failures.
Print Assumptions C13_rejected_no_change.
Print Assumptions C13_refusal_cases.
