(** The RFM23B link: the shipped configurations, concrete runs, and where the documentation's claims fail. *)
From Verif Require Import Base RxQueueModel RxQueueProps RfmModel RfmProps RfmLink RfmRx RfmPoll RfmHist.

(** ** The shipped configurations, OTRFM23BLink_OTRFM23BLink.cpp (without the terminating (0xff, 0xff)) *)
(** .cpp 473-528 *)
Definition FHT8V_RFM23_Reg_Values : block :=
  [(109, 11); (6, 0); (8, 0); (48, 0); (51, 6); (52, 8); (53, 16); (54, 170); (55, 204); (56, 204); (57, 204); (110, 40); (111, 245); (112, 32); (113, 33); (114, 32); (115, 0); (116, 0); (117, 115); (118, 100); (119, 0); (121, 35); (122, 1); (28, 193); (29, 64); (30, 10); (31, 3); (32, 150); (33, 0); (34, 218); (35, 116); (36, 0); (37, 220); (42, 36); (44, 40); (45, 250); (46, 41); (105, 96)].
(** .cpp 545-706 *)
Definition StandardRegSettingsOOK5000 : block :=
  [(5, 1); (6, 0); (7, 1); (8, 0); (9, 127); (10, 6); (11, 21); (12, 18); (13, 0); (14, 0); (15, 0); (16, 0); (18, 32); (19, 0); (20, 3); (21, 0); (22, 1); (25, 1); (26, 20); (28, 193); (29, 64); (30, 10); (31, 3); (32, 150); (33, 0); (34, 218); (35, 116); (36, 0); (37, 220); (39, 30); (42, 36); (44, 40); (45, 250); (46, 41); (48, 0); (50, 12); (51, 6); (52, 8); (53, 16); (54, 170); (55, 204); (56, 204); (57, 204); (58, 0); (59, 0); (60, 0); (61, 0); (62, 0); (63, 0); (64, 0); (65, 0); (66, 0); (67, 255); (68, 255); (69, 255); (70, 255); (79, 16); (96, 160); (98, 36); (105, 96); (109, 11); (110, 40); (111, 245); (112, 32); (113, 33); (114, 32); (115, 0); (116, 0); (117, 115); (118, 100); (119, 0); (121, 35); (122, 1); (124, 55); (125, 4); (126, 55)].
(** .cpp 710-819 *)
Definition StandardRegSettingsGFSK57600 : block :=
  [(5, 0); (6, 0); (7, 1); (8, 0); (9, 127); (10, 6); (11, 21); (12, 18); (13, 0); (14, 0); (15, 0); (16, 0); (18, 32); (19, 0); (20, 3); (21, 0); (22, 1); (25, 1); (26, 20); (28, 6); (29, 68); (30, 10); (31, 3); (32, 69); (33, 1); (34, 215); (35, 220); (36, 7); (37, 110); (39, 30); (42, 40); (44, 64); (45, 10); (46, 45); (48, 136); (50, 0); (51, 2); (52, 10); (53, 42); (54, 45); (55, 212); (56, 0); (57, 0); (58, 0); (59, 0); (60, 0); (61, 0); (62, 0); (63, 0); (64, 0); (65, 0); (66, 0); (67, 255); (68, 255); (69, 255); (70, 255); (79, 16); (96, 160); (98, 36); (105, 96); (109, 11); (110, 14); (111, 191); (112, 12); (113, 35); (114, 46); (115, 0); (116, 0); (117, 115); (118, 106); (119, 64); (121, 0); (122, 0); (124, 55); (125, 4); (126, 55)].
(** .cpp 825-934 *)
Definition StandardRegSettingsJeeLabs : block :=
  [(5, 0); (6, 0); (7, 1); (8, 0); (9, 127); (10, 6); (11, 21); (12, 18); (13, 0); (14, 0); (15, 0); (16, 0); (18, 32); (19, 0); (20, 3); (21, 0); (22, 1); (25, 1); (26, 20); (28, 155); (29, 68); (30, 10); (31, 3); (32, 122); (33, 1); (34, 13); (35, 8); (36, 1); (37, 40); (39, 30); (42, 40); (44, 40); (45, 25); (46, 39); (48, 136); (50, 0); (51, 8); (52, 6); (53, 34); (54, 45); (55, 212); (56, 0); (57, 0); (58, 0); (59, 0); (60, 0); (61, 0); (62, 60); (63, 0); (64, 0); (65, 0); (66, 0); (67, 255); (68, 255); (69, 255); (70, 255); (79, 16); (96, 160); (98, 36); (105, 96); (109, 11); (110, 12); (111, 156); (112, 12); (113, 34); (114, 144); (115, 0); (116, 0); (117, 115); (118, 100); (119, 0); (121, 0); (122, 0); (124, 55); (125, 4); (126, 55)].
Lemma bits_le v k : (forall j, In j [1; 2; 3; 4; 5; 6; 7] -> bit v j = false) -> byte v -> bit v k = true -> k = 0.
Proof.
  intros H Hv Hk. destruct (Z.ltb_spec k 0); [rewrite Z.testbit_neg_r in Hk by lia; discriminate|]. destruct (Z.leb_spec k 7).
  - assert (HK : k = 0 \/ In k [1; 2; 3; 4; 5; 6; 7]) by (cbn [In]; lia). destruct HK as [HK | HK]; [exact HK|]. rewrite (H k HK) in Hk. discriminate.
  - assert (HX : bit v k = false) by (destruct (Z.eq_dec v 0) as [-> | HN]; [apply Z.bits_0|]; apply Z.bits_above_log2; [apply Hv|]; apply Z.log2_lt_pow2; [unfold byte in Hv; lia|]; apply Z.lt_le_trans with (2 ^ 8); [unfold byte in Hv; lia|apply Z.pow_le_mono_r; lia]). rewrite HX in Hk. discriminate.
Qed.
Definition pairb (rv : Z * Z) : bool :=
  let (r, v) := rv in (2 <=? r) && (r <=? 126) && negb (r =? 3) && negb (r =? 4) && negb (r =? 75) && (0 <=? v) && (v <=? 255) &&
  (negb (r =? 7) || negb (bit v 7) && negb (bit v 3) && negb (bit v 2)) && (negb (r =? 8) || negb (bit v 0) && negb (bit v 1)) &&
  (negb (r =? 5) || forallb (fun j => negb (bit v j)) [1; 2; 3; 4; 5; 6; 7]) && (negb (r =? 6) || (v =? 0)).
Lemma pairb_ok rv : pairb rv = true -> pair_ok rv.
Proof.
  destruct rv as [r v]. unfold pairb, pair_ok. intros H. apply andb_true_iff in H as [H H6]. apply andb_true_iff in H as [H H5]. apply andb_true_iff in H as [H H8]. apply andb_true_iff in H as [H H7].
  repeat (apply andb_true_iff in H as [H ?]). assert (Hv : byte v) by (red; lia). split; [lia|]. split; [lia|]. split; [lia|]. split; [lia|]. split; [exact Hv|].
  split; [|split; [|split]]; intros ->.
  - change (7 =? 7) with true in H7. cbn [negb orb] in H7. apply andb_true_iff in H7 as [H7 C]. apply andb_true_iff in H7 as [A B]. rewrite negb_true_iff in A, B, C. auto.
  - change (8 =? 8) with true in H8. cbn [negb orb] in H8. apply andb_true_iff in H8 as [A B]. rewrite negb_true_iff in A, B. auto.
  - intros k Hk. left. apply (bits_le v k); [|exact Hv|exact Hk]. intros j Hj. change (5 =? 5) with true in H5. cbn [negb orb] in H5. rewrite forallb_forall in H5. apply negb_true_iff. apply H5. exact Hj.
  - change (6 =? 6) with true in H6. cbn [negb orb] in H6. lia.
Qed.
Definition shipped : list block := [FHT8V_RFM23_Reg_Values; StandardRegSettingsOOK5000; StandardRegSettingsGFSK57600; StandardRegSettingsJeeLabs].
(** All are sensible in the sense the theorems ask for. *)
Lemma shipped_ok : Forall block_ok shipped.
Proof.
  assert (H : forallb (fun b => forallb pairb b) shipped = true) by (vm_compute; reflexivity). rewrite forallb_forall in H. apply Forall_forall. intros b Hb. specialize (H b Hb). rewrite forallb_forall in H.
  apply Forall_forall. intros rv Hrv. apply pairb_ok. apply H. exact Hrv.
Qed.
(** ** "Full config including all default values, so safe for dynamic switching." (.cpp 544, 709, 824) *)
(** Configuring a channel leaves nothing of the one before. *)
Definition no_residue (a b : block) : Prop := forall c r, regs (writeBlock b (writeBlock a c)) r = regs (writeBlock b c) r.
Lemma no_residue_cover a b : block_ok a -> block_ok b -> (forall r, setting a r <> None -> setting b r <> None) -> no_residue a b.
Proof.
  intros HA HB H c r. destruct (writeBlock_regs b (writeBlock a c) HB) as [R _]. destruct (writeBlock_regs a c HA) as [R' _]. destruct (writeBlock_regs b c HB) as [R'' _]. rewrite R, R', R''.
  destruct (setting b r) eqn:EB; [reflexivity|]. destruct (setting a r) eqn:EA; [|reflexivity]. elim (H r); [rewrite EA; discriminate|exact EB].
Qed.
Lemma setting_in b r : setting b r <> None -> In r (map fst b).
Proof.
  induction b as [|rv b IH] using rev_ind; [intros H; elim H; reflexivity|]. rewrite setting_snoc, map_app, in_app_iff. cbn [map In]. destruct (fst rv =? r) eqn:E; [apply Z.eqb_eq in E; auto|auto].
Qed.
Definition coversb (a b : block) : bool := forallb (fun r => match setting b r with Some _ => true | None => false end) (map fst a).
Lemma coversb_ok a b : coversb a b = true -> forall r, setting a r <> None -> setting b r <> None.
Proof. unfold coversb. rewrite forallb_forall. intros H r Hr. specialize (H r (setting_in a r Hr)). cbv beta in H. intros HN. rewrite HN in H. discriminate H. Qed.
Definition standard : list block := [StandardRegSettingsOOK5000; StandardRegSettingsGFSK57600; StandardRegSettingsJeeLabs].
(** C130: with the standard configurations switching channels leaves no register of the channel before, from any chip state and in any order. *)
Theorem rfm_standard_switching : forall a b, In a (FHT8V_RFM23_Reg_Values :: standard) -> In b standard -> no_residue a b.
Proof.
  intros a b HA HB. assert (HA' : In a shipped) by exact HA. assert (HB' : In b shipped) by (right; exact HB). pose proof shipped_ok as HS. rewrite Forall_forall in HS. apply no_residue_cover; [apply HS; exact HA'|apply HS; exact HB'|].
  apply coversb_ok. assert (HC : forallb (fun a => forallb (coversb a) standard) shipped = true) by (vm_compute; reflexivity). rewrite forallb_forall in HC. specialize (HC a HA'). rewrite forallb_forall in HC. apply HC. exact HB.
Qed.
(** The minimal FHT8V configuration does leave some (it says it assumes power-up values): the header control of a GFSK channel (register 0x32: 12 at power-up). *)
Theorem rfm_minimal_residue_refuted : ~ no_residue StandardRegSettingsGFSK57600 FHT8V_RFM23_Reg_Values.
Proof. intros H. specialize (H (Chip (fun _ => 12) 0 0 [] [] (fun _ => 12) []) 50). vm_compute in H. discriminate H. Qed.

(** ** Concrete runs *)
Definition por0 : Z -> Z := fun r => if r =? 0 then 8 else if r =? 1 then 6 else 0.
Definition chip0 : chip := Chip por0 0 0 (repeat 0 64) [] por0 [].
Definition link0 (i : bool) : link := fresh chip0 (repeat 0 (Z.to_nat (bufsiz QC))) [StandardRegSettingsGFSK57600; StandardRegSettingsOOK5000] None i.
Definition frame (d : list Z) : env := Env (Some (Zlen d, d ++ repeat 0 (64 - length d))) 0 0 false.
Definition done : env := Env None 0 0 true.
Definition idle : env := Env None 0 0 false.
(** What is seen of a run: channel listened to, register 7, observations, counters, frames on the air with the data access control register, which tells the channel. *)
Definition view (o : option link) : option (Z * Z * list obs * (Z * Z * Z) * list (Z * list Z)) :=
  match o with Some s => Some (lis s, regs (ch s) 7, seen s, (dropped s, filtered s, err s), map (fun gb => (fst gb 48, snd gb)) (air (ch s))) | None => None end.
Definition started (i : bool) : link := snd (begin (link0 i)).
(** The hypotheses of the theorems are met. *)
Example rfm_start_good : forall i, exists s, begin (link0 i) = (true, s) /\ good s [].
Proof.
  intros i. destruct (begin_ok chip0 (repeat 0 (Z.to_nat (bufsiz QC))) [StandardRegSettingsGFSK57600; StandardRegSettingsOOK5000] None i) as (s & E & G & _); [reflexivity| |cbv; split; discriminate|exact I|reflexivity|reflexivity|exists s; split; [exact E|exact G]].
  pose proof shipped_ok as HS. rewrite Forall_forall in HS. constructor; [apply HS; cbn [In shipped]; auto|constructor; [apply HS; cbn [In shipped]; auto|constructor]].
Qed.
Definition acts1 : list act := [AListen true 0 []; AOut (frame [1; 2; 3]); ASend [7; 8; 9] 1 4 [idle; idle; idle; idle; idle; done; idle; idle; done]; AOut (frame [4; 5]); AQ EPeekTest; AQ EPeekPtr; AQ (EByte 1); AQ ERemoveTest; AQ ERemoveBody].
Example rfm_acts_ok : Forall (act_ok 2) acts1.
Proof.
  assert (HB : forall l, forallb (fun x => (0 <=? x) && (x <=? 255)) l = true -> Forall byte l) by (intros l H; rewrite forallb_forall in H; apply Forall_forall; intros x Hx; specialize (H x Hx); red; lia).
  unfold acts1. repeat (apply Forall_cons; [cbn [act_ok]|]); try exact I; try apply Forall_nil.
  - split; [split; cbv; congruence|]. split; [reflexivity|apply HB; reflexivity].
  - split; [apply HB; reflexivity|]. split; [cbv; discriminate|lia].
  - split; [split; cbv; congruence|]. split; [reflexivity|apply HB; reflexivity].
Qed.
Example rfm_run : view (history acts1 (started true)) =
  Some (0, 5, [OQueued [1; 2; 3]; OQueued [4; 5]; OPeekMsg; OByte 1 1; ORemoved], (0, 0, 0), [(0, [7; 8; 9]); (0, [7; 8; 9])]).
Proof. vm_compute. reflexivity. Qed.
(** Without interrupt line, polling; a frame that is too long; a filter. *)
Example rfm_poll_run : view (history [AListen true 9 []; AOut (frame (repeat 1 64)); APoll; AListen true 0 []; AOut (Env (Some (65, repeat 2 64)) 0 0 false); APoll;
    AFilt (Some (fun d len => (nth 0 d 0 =? 3, 1))); AOut (frame [3; 4]); APoll; AOut (frame [4; 4]); APoll] (started false)) =
  Some (0, 5, [OQueued (repeat 1 64); ODropped; OQueued [3]; OAbandoned], (1, 1, 4), []).
Proof. vm_compute. reflexivity. Qed.

(** ** Claims that fail *)
Definition sendView (o : option (bool * link)) : option (bool * list (Z * list Z)) :=
  match o with Some (r, s) => Some (r, map (fun gb => (fst gb 48, snd gb)) (air (ch s))) | None => None end.
Definition confirming : list env := repeat done 20.
(** C131: "returns true if the transmission was made" (OTRadioLink.h 294-330): asked for a channel that does not exist, sendRaw() sends on the current one and returns true. *)
Theorem rfm_bad_channel_refuted : ~ (forall s fs buf channel power s', good s fs -> Forall byte buf -> Zlen buf <= 64 -> sendRaw buf channel power s = Some (true, s') -> 0 <= channel < nCh s).
Proof.
  intros H. destruct (rfm_start_good true) as (s & E & G).
  assert (HS : exists s', sendRaw [1; 2] 7 1 (set_todo confirming s) = Some (true, s')).
  { assert (ES : s = snd (begin (link0 true))) by (rewrite E; reflexivity).
    assert (EV : sendView (sendRaw [1; 2] 7 1 (set_todo confirming (snd (begin (link0 true))))) = Some (true, [(136, [1; 2])])) by (vm_compute; reflexivity).
    rewrite <- ES in EV. destruct (sendRaw [1; 2] 7 1 (set_todo confirming s)) as [[r s']|]; [|discriminate]. cbn [sendView] in EV. apply some_pair_inj in EV as [-> _]. exists s'. reflexivity. }
  destruct HS as (s' & HS). specialize (H (set_todo confirming s) [] [1; 2] 7 1 s' (good_todo _ _ _ G)). assert (HC : 0 <= 7 < nCh (set_todo confirming s)).
  { apply H; [repeat constructor; lia|cbv; discriminate|exact HS]. }
  assert (EN : nCh (set_todo confirming s) = 2) by (assert (ES : s = snd (begin (link0 true))) by (rewrite E; reflexivity); rewrite ES; reflexivity). rewrite EN in HC. lia.
Qed.
(** C131: a frame of 65 bytes is sent without its last byte, and reported as sent. *)
Theorem rfm_long_frame_refuted : sendView (sendRaw (map Z.of_nat (seq 0 65)) 0 1 (set_todo confirming (started true))) = Some (true, [(136, map Z.of_nat (seq 0 64))]).
Proof. vm_compute. reflexivity. Qed.
(** C130: after end() and begin() again the driver believes itself still on the channel it was on last; a frame for that
    channel (1: OOK, no packet handler, register 0) goes out as configured for channel 0, and is reported as sent. *)
Definition restart (s : link) : link := snd (begin (end_ s)).
Theorem rfm_restart_channel_refuted :
  match sendRaw [1] 1 1 (set_todo confirming (started true)) with
  | Some (_, s) => sendView (sendRaw [2] 1 1 (set_todo confirming (restart s))) = Some (true, [(0, [1]); (136, [2])])
  | None => False
  end.
Proof. vm_compute. reflexivity. Qed.
(** C130: after end() and begin() again, listen(true, 0) on a link that was listening on channel 0 does nothing: it says it listens, and never receives. *)
Theorem rfm_restart_listen_refuted :
  match listen true 0 (started true) with
  | Some s => view (history [AListen true 0 []; AOut (frame [1; 2]); APoll] (restart s)) = Some (0, 0, [], (0, 0, 0), [])
  | None => False
  end.
Proof. vm_compute. reflexivity. Qed.
(** C128: without interrupt line, a packet that waits in the chip is lost by sendRaw() or by changing channel, and no counter tells. *)
Theorem rfm_pending_lost_refuted :
  view (history [AListen true 0 []; AOut (frame [1; 2]); ASend [9] 0 1 confirming; APoll] (started false)) = Some (0, 5, [], (0, 0, 0), [(136, [9])]) /\
  view (history [AListen true 0 []; AOut (frame [1; 2]); AListen true 1 []; APoll] (started false)) = Some (1, 5, [], (0, 0, 0), []).
Proof. split; vm_compute; reflexivity. Qed.
