(** Properties of the frames sent to FHT8V valves and to the hub (C172). *)
From Verif Require Import Base FhtModel FhtEnc FhtDec FhtTop RxFilter FhtFrameModel.

(** Text [t], free of 0xff, followed by 0xff, at [q] of [b]. *)
Definition text_at (b : list Z) (q : Z) (t : list Z) : Prop :=
  Forall byte t /\ Forall (fun x => x <> 255) t /\ 0 <= q /\ q + Zlen t < Zlen b /\
  (forall i, 0 <= i < Zlen t -> znth b (q + i) = znth t i) /\ znth b (q + Zlen t) = 255.

(** What the driver may expect of the application's trailer function (.h 224 and 238): it writes
    only in the room it is given, and unless it fails what it writes is text ending with 0xff. *)
Definition trailer_ok (f : trailer_fn) : Prop := forall b q n, 0 <= q -> 0 < n -> q + n = Zlen b ->
  exists b' ok, f b q n = Some (b', ok) /\ Zlen b' = Zlen b /\ (forall i, 0 <= i < q -> znth b' i = znth b i) /\
    (ok = true -> exists t, text_at b' q t).
(** A trailer function that puts [t] if it fits. *)
Definition put_trailer (t : list Z) : trailer_fn := fun b q n =>
  if Zlen t <? n then do b' <- blit b q (t ++ [255]) ; Some (b', true) else Some (b, false).
Lemma put_trailer_ok t : Forall byte t -> Forall (fun x => x <> 255) t -> trailer_ok (put_trailer t).
Proof.
  intros B N b q n Q P E. unfold put_trailer. pose proof (Zlen_nonneg t). destruct (Z.ltb_spec (Zlen t) n) as [L|L].
  - assert (LL : Zlen (t ++ [255]) = Zlen t + 1) by (rewrite Zlen_app; reflexivity).
    destruct (blit_ok b q (t ++ [255]) Q) as [b' E']; [lia|]. rewrite E'. cbn [bind]. apply blit_inv in E' as (_ & _ & LB & ZN).
    exists b', true. split; [reflexivity|]. split; [exact LB|]. split.
    + intros i Hi. rewrite ZN by lia. replace ((q <=? i) && _) with false by lia. reflexivity.
    + intros _. exists t. split; [exact B|]. split; [exact N|]. split; [exact Q|]. split; [lia|]. split.
      * intros i Hi. rewrite ZN by lia. replace ((q <=? q + i) && _) with true by lia. replace (q + i - q) with i by lia. rewrite znth_app by lia. replace (i <? Zlen t) with true by lia. reflexivity.
      * rewrite ZN by lia. replace ((q <=? q + Zlen t) && _) with true by lia. replace (q + Zlen t - q) with (Zlen t) by lia.
        rewrite znth_app by lia. replace (Zlen t <? Zlen t) with false by lia. rewrite Z.sub_diag. reflexivity.
  - exists b, false. split; [reflexivity|]. split; [reflexivity|]. split; [reflexivity|discriminate].
Qed.

(** Text at the start of the buffer is what is sent. *)
Lemma sent_text b t : text_at b 0 t -> 0 < Zlen t -> Zlen b <= 255 -> frame_sent b = Some (Some t).
Proof.
  intros (B & N & _ & L & Z1 & Z2) P LB. unfold frame_sent. rewrite rd_some by lia. cbn [bind].
  assert (NE : forall i, 0 <= i < Zlen t -> znth b i <> 255).
  { intros i Hi. rewrite <- (Z.add_0_l i), Z1 by lia. rewrite Forall_forall in N. apply N. apply nth_In. unfold Zlen in Hi. lia. }
  pose proof (NE 0 ltac:(lia)). replace (znth b 0 =? 255) with false by lia. rewrite Z.add_0_l in Z2.
  rewrite (ff_length b (Zlen t)) by (auto; lia). cbn [bind]. rewrite sub_some by lia. cbn [bind]. do 2 f_equal.
  apply zlist_ext; [rewrite Zlen_firstn, Zlen_skipn; lia|]. intros i. rewrite Zlen_firstn, Zlen_skipn. intros Hi. rewrite znth_firstn by lia. rewrite znth_skipn by lia. rewrite <- Z1 by lia. f_equal; lia.
Qed.

(** ** C172 *)
Definition frame_msg (h1 h2 pc : Z) : msg := Msg h1 h2 0 0x26 (percentTo255 pc).
Lemma pc255_byte pc : byte (percentTo255 pc).
Proof. unfold percentTo255. destruct (pc >=? 100); [red; lia|apply u8_byte]. Qed.
Lemma create_text h1 h2 ext cmd b0 p pre : byte h1 -> byte h2 -> byte cmd -> byte ext -> Zlen pre = p ->
  Forall byte pre -> Forall (fun x => x <> 255) pre -> (forall i, 0 <= i < p -> znth b0 i = znth pre i) -> 46 <= Zlen b0 - p ->
  exists b stream, create false b0 p (Msg h1 h2 0 cmd ext) = Some (b, p + Zlen stream) /\ Zlen b = Zlen b0 /\
    text_at b 0 (pre ++ stream) /\ 35 <= Zlen stream <= 45 /\
    (forall lost rest, (lost <= 6)%nat -> Forall byte rest ->
       decode (skipn lost stream ++ rest) = Some (Some (Msg h1 h2 0 cmd ext, Zlen stream - Z.of_nat lost))).
Proof.
  intros B1 B2 BC BE LP FP NP PRE R. pose proof (Zlen_nonneg pre) as PP. set (m := Msg h1 h2 0 cmd ext).
  assert (MO : msg_ok m) by (unfold msg_ok, m; cbn; unfold byte in *; lia).
  destruct (fht_encode_fits b0 p m MO R) as [FT LN].
  destruct (fht_encode false b0 p m MO ltac:(lia) FT) as (b & q & stream & CR & LB & Q & ST & FB & NF & TE & OT & LS & _).
  exists b, stream. rewrite <- Q. split; [exact CR|]. split; [exact LB|].
  assert (LSR : 35 <= Zlen stream <= 45) by lia. split; [|split; [exact LSR|]].
  - assert (LQ : q < Zlen b).
    { destruct (Z_lt_dec q (Zlen b)) as [X|X]; [exact X|exfalso]. revert TE. unfold znth. rewrite nth_overflow by (unfold Zlen in X; lia). discriminate. }
    split; [apply Forall_app; split; assumption|]. split; [apply Forall_app; split; assumption|]. split; [lia|]. rewrite Zlen_app. split; [lia|].
    split; [|rewrite <- TE; f_equal; lia].
    intros i Hi. rewrite Z.add_0_l, znth_app by lia. destruct (Z.ltb_spec i (Zlen pre)).
    + rewrite OT by lia. apply PRE. lia.
    + rewrite ST, znth_firstn by lia. rewrite znth_skipn by lia. f_equal. lia.
  - intros lost rest HL FR. destruct (fht_round_trip false b0 p m lost rest MO ltac:(lia) FT HL FR) as (b2 & q2 & CR2 & D).
    rewrite CR in CR2. apply some_pair_inj in CR2 as [<- <-]. cbv zeta in D. replace (q - p) with (Zlen stream) in D by lia. rewrite <- ST in D. exact D.
Qed.

(** Every frame built for the valve, with any trailer function that keeps to its contract or none, fits the
    buffer, and what is sent of it is: the preamble if asked for or if there may be a trailer; a bit stream of 35 to
    45 bytes; and the trailer, if there is one.  A receiver that missed any part of the first six bytes of the
    stream decodes the house codes, the command and the percentage, and finds the trailer. *)
Theorem fht_frame : forall pb pbyte tb tf lvl force h1 h2 pc area,
  0 <= pb -> 0 <= tb -> pb + 46 + tb <= 255 -> byte pbyte -> pbyte <> 255 -> byte h1 -> byte h2 -> byte pc ->
  match tf with Some f => trailer_ok f | None => True end -> Zlen area = frame_size pb tb ->
  exists b pre stream t, create_frame pb pbyte tf lvl force h1 h2 pc area = Some b /\ Zlen b = Zlen area /\
    frame_sent b = Some (Some (pre ++ stream ++ t)) /\
    pre = (if force || match tf with Some _ => lvl | None => false end then repeat pbyte (Z.to_nat pb) else []) /\
    35 <= Zlen stream <= 45 /\
    match tf with
    | Some f => if lvl then exists b1 ok, f b1 (Zlen pre + Zlen stream) (Zlen area - (Zlen pre + Zlen stream)) = Some ok /\ Zlen b1 = Zlen area /\
                  if snd ok then text_at (fst ok) (Zlen pre + Zlen stream) t else t = []
                else t = []
    | None => t = []
    end /\
    (forall lost rest, (lost <= 6)%nat -> Forall byte rest ->
       decode (skipn lost stream ++ t ++ rest) = Some (Some (Msg h1 h2 0 0x26 (percentTo255 pc), Zlen stream - Z.of_nat lost))).
Proof.
  intros pb pbyte tb tf lvl force h1 h2 pc area P0 T0 SZ BP NP B1 B2 BPC TOK LA.
  unfold frame_size in LA. rewrite u8_id in LA by (red; lia).
  set (hdr := force || match tf with Some _ => lvl | None => false end).
  set (pre := if hdr then repeat pbyte (Z.to_nat pb) else []).
  assert (H0 : exists b0, (if hdr then do b <- blit area 0 (repeat pbyte (Z.to_nat pb)) ; Some (b, pb) else Some (area, 0)) = Some (b0, Zlen pre) /\
    Zlen b0 = Zlen area /\ (forall i, 0 <= i < Zlen pre -> znth b0 i = znth pre i) /\ Forall byte pre /\ Forall (fun x => x <> 255) pre /\ 0 <= Zlen pre <= pb).
  { unfold pre. destruct hdr.
    - assert (LR : Zlen (repeat pbyte (Z.to_nat pb)) = pb) by (rewrite Zlen_repeat; lia).
      destruct (blit_ok area 0 (repeat pbyte (Z.to_nat pb))) as [b0 E]; [lia|lia|]. rewrite E. cbn [bind]. apply blit_inv in E as (_ & _ & LB & ZN).
      exists b0. rewrite LR. split; [reflexivity|]. split; [exact LB|]. split.
      + intros i Hi. rewrite ZN by lia. rewrite LR. replace ((0 <=? i) && (i <? 0 + pb)) with true by lia. f_equal; lia.
      + split; [|split; [|lia]]; apply Forall_forall; intros x X; apply repeat_spec in X; subst x; assumption.
    - exists area. change (Zlen []) with 0. split; [reflexivity|]. split; [reflexivity|]. split; [intros; lia|]. split; [constructor|]. split; [constructor|lia]. }
  destruct H0 as (b0 & E0 & L0 & Z0 & FB0 & N0 & LP).
  destruct (create_text h1 h2 (percentTo255 pc) 0x26 b0 (Zlen pre) pre B1 B2 ltac:(red; lia) (pc255_byte pc) eq_refl FB0 N0 Z0 ltac:(lia)) as (b & stream & CR & LB & TX & LS & DEC).
  set (q := Zlen pre + Zlen stream) in *. unfold create_frame. fold hdr. rewrite E0. cbn [bind]. rewrite CR. cbn [bind].
  assert (LT : Zlen (pre ++ stream) = q) by (rewrite Zlen_app; reflexivity).
  assert (NOTR : frame_sent b = Some (Some (pre ++ stream ++ []))).
  { rewrite app_nil_r. apply sent_text; [exact TX|lia|lia]. }
  destruct tf as [f|].
  2: { exists b, pre, stream, []. split; [reflexivity|]. split; [lia|]. split; [exact NOTR|]. split; [reflexivity|]. split; [exact LS|]. split; [reflexivity|exact DEC]. }
  destruct lvl.
  2: { exists b, pre, stream, []. split; [reflexivity|]. split; [lia|]. split; [exact NOTR|]. split; [reflexivity|]. split; [exact LS|]. split; [reflexivity|exact DEC]. }
  rewrite u8_id by (red; lia). destruct (TOK b q (Zlen area - q) ltac:(lia) ltac:(lia) ltac:(lia)) as (b' & ok & Ef & LB' & KEEP & TT).
  rewrite Ef. cbn [bind]. destruct TX as (TB & TN & _ & TL & TZ & TE). rewrite LT in *. destruct ok.
  - destruct (TT eq_refl) as (t & XB & XN & _ & XL & XZ & XE). pose proof (Zlen_nonneg t) as NT.
    exists b', pre, stream, t. split; [reflexivity|]. split; [lia|]. split; [|split; [reflexivity|]].
    + rewrite app_assoc. assert (LL : Zlen ((pre ++ stream) ++ t) = q + Zlen t) by (rewrite Zlen_app, LT; reflexivity).
      apply sent_text; [|lia|lia]. split; [apply Forall_app; split; assumption|]. split; [apply Forall_app; split; assumption|]. split; [lia|].
      rewrite LL. split; [lia|]. split; [|rewrite Z.add_0_l; exact XE]. intros i Hi. rewrite Z.add_0_l, znth_app by lia. rewrite LT.
      destruct (Z.ltb_spec i q); [rewrite KEEP by lia; rewrite <- TZ by lia; f_equal; lia|]. rewrite <- XZ by lia. f_equal; lia.
    + split; [exact LS|]. split.
      * exists b, (b', true). split; [exact Ef|]. split; [lia|]. cbn [fst snd]. split; [exact XB|]. split; [exact XN|]. split; [lia|]. split; [lia|]. split; assumption.
      * intros lost rest HL FR. apply DEC; [exact HL|]. apply Forall_app; split; assumption.
  - unfold wr. destruct (blit_ok b' q [255]) as [b2 E2]; [lia|change (Zlen [255]) with 1; lia|]. rewrite E2. apply blit_inv in E2 as (_ & _ & L2 & Z2). change (Zlen [255]) with 1 in Z2.
    exists b2, pre, stream, []. split; [reflexivity|]. split; [lia|]. split; [|split; [reflexivity|]].
    + rewrite app_nil_r. apply sent_text; [|lia|lia]. split; [exact TB|]. split; [exact TN|]. split; [lia|]. rewrite LT. split; [lia|]. split.
      * intros i Hi. rewrite Z.add_0_l, Z2 by lia. replace ((q <=? i) && (i <? q + 1)) with false by lia. rewrite KEEP by lia. rewrite <- TZ by lia. f_equal; lia.
      * rewrite Z.add_0_l, Z2 by lia. replace ((q <=? q) && (q <? q + 1)) with true by lia. rewrite Z.sub_diag. reflexivity.
    + split; [exact LS|]. split; [|exact DEC]. exists b, (b', false). split; [exact Ef|]. split; [lia|reflexivity].
Qed.

(** Duration on the air at 5 bits a millisecond, rounded up, never exceeds the advertised maximum as long as
    that fits its type. *)
Theorem fht_frame_time : forall pb pbyte tb tf lvl force h1 h2 pc area b l,
  0 <= pb -> 0 <= tb -> pb + 46 + tb <= 160 -> byte pbyte -> pbyte <> 255 -> byte h1 -> byte h2 -> byte pc ->
  match tf with Some f => trailer_ok f | None => True end -> Zlen area = frame_size pb tb ->
  create_frame pb pbyte tf lvl force h1 h2 pc area = Some b -> frame_sent b = Some (Some l) ->
  (Zlen l * 8 + 4) / 5 <= approx_max_tx_ms pb tb.
Proof.
  intros pb pbyte tb tf lvl force h1 h2 pc area b l P0 T0 SZ BP NP B1 B2 BPC TOK LA C S.
  destruct (fht_frame pb pbyte tb tf lvl force h1 h2 pc area P0 T0 ltac:(lia) BP NP B1 B2 BPC TOK LA) as (b2 & pre & stream & t & C2 & LB & S2 & _).
  rewrite C in C2. apply some_inj in C2. subst b2. rewrite S in S2.
  unfold approx_max_tx_ms. rewrite <- LA. unfold frame_size in LA. rewrite u8_id in LA by (red; lia). rewrite LA.
  assert (LL : Zlen l < Zlen b).
  { unfold frame_sent in S. destruct (rd b 0) as [v|] eqn:RD; [|discriminate]. cbn [bind] in S. destruct (v =? 255); [discriminate|].
    destruct (frameLenFF b) as [n|] eqn:FL; [|discriminate]. cbn [bind] in S. destruct (sub b 0 n) as [l'|] eqn:SU; [|discriminate]. cbn [bind] in S.
    do 2 apply some_inj in S. subst l'. unfold sub in SU. destruct ((0 <=? 0) && (0 <=? n) && (0 + n <=? Zlen b)) eqn:G; [|discriminate]. apply some_inj in SU. subst l.
    rewrite Zlen_firstn, Zlen_skipn. assert (0 <= n < Zlen b); [|lia].
    assert (X : forall fuel pos r, 0 <= pos -> ff_loop fuel b pos pos = Some r -> Zlen b <= 255 -> r < Zlen b).
    { clear. induction fuel as [|fuel IH]; intros pos r P E L; cbn [ff_loop] in E; [discriminate|].
      destruct (rd b pos) as [w|] eqn:R; [|discriminate]. apply rd_inv in R as [R _]. cbn [bind] in E. destruct (w =? 255); [apply some_inj in E; lia|].
      rewrite u8_id in E by (red; lia). destruct (pos + 1 =? 0) eqn:Q; [lia|]. apply (IH (pos + 1) r); [lia|exact E|exact L]. }
    pose proof (X _ _ _ (Z.le_refl 0) FL ltac:(lia)). lia. }
  assert (B : 0 <= ((pb + 46 + tb - 1) * 8 + 4) / 5 <= 255) by (Z.div_mod_to_equations; lia).
  rewrite u8_id by (red; lia). apply Z.div_le_mono; lia.
Qed.

(** Over all histories of target settings and completed synchronisations: nothing is written outside the buffer, and
    what the buffer then holds is the command for the last target accepted (0 if none), or nothing if there was neither
    an accepted target nor a synchronisation. *)
Definition last_target (es : list fev) : Z := fold_left (fun v e => match e with FSet w => if 100 <? w then v else w | FSyncFinal => v end) es 0.
Definition filled_by (e : fev) : bool := match e with FSet w => negb (100 <? w) | FSyncFinal => true end.
Theorem fht_frame_history : forall pb pbyte tb tf lvl h1 h2 area es,
  0 <= pb -> 0 <= tb -> pb + 46 + tb <= 255 -> byte pbyte -> pbyte <> 255 -> byte h1 -> byte h2 ->
  match tf with Some f => trailer_ok f | None => True end -> Zlen area = frame_size pb tb ->
  Forall (fun e => match e with FSet w => byte w | FSyncFinal => True end) es ->
  exists s0 s, f_init area = Some s0 /\ f_run pb pbyte tf lvl h1 h2 s0 es = Some s /\ f_value s = last_target es /\
    if existsb filled_by es then
      exists pre stream t, frame_sent (f_buf s) = Some (Some (pre ++ stream ++ t)) /\ 35 <= Zlen stream <= 45 /\
        (pre = [] \/ pre = repeat pbyte (Z.to_nat pb)) /\
        (forall lost rest, (lost <= 6)%nat -> Forall byte rest ->
           decode (skipn lost stream ++ t ++ rest) = Some (Some (Msg h1 h2 0 0x26 (percentTo255 (last_target es)), Zlen stream - Z.of_nat lost)))
    else frame_sent (f_buf s) = Some None.
Proof.
  intros pb pbyte tb tf lvl h1 h2 area es P0 T0 SZ BP NP B1 B2 TOK LA FE.
  assert (AR : 46 <= Zlen area <= 255) by (rewrite LA; unfold frame_size; rewrite u8_id by (red; lia); lia).
  unfold f_init, wr. destruct (blit_ok area 0 [255]) as [b0 E0]; [lia|change (Zlen [255]) with 1; lia|]. rewrite E0. cbn [bind].
  apply blit_inv in E0 as (_ & _ & L0 & Z0). change (Zlen [255]) with 1 in Z0.
  exists (FS 0 b0).
  induction es as [|e es IH] using rev_ind.
  { exists (FS 0 b0). split; [reflexivity|]. split; [reflexivity|]. split; [reflexivity|]. cbn [existsb f_buf]. unfold frame_sent. rewrite rd_some by lia. cbn [bind].
    rewrite Z0 by lia. reflexivity. }
  apply Forall_app in FE as [FE1 FE2]. inversion FE2 as [|? ? WE _]; subst. clear FE2.
  assert (RA : forall s1, f_run pb pbyte tf lvl h1 h2 (FS 0 b0) es = Some s1 ->
     f_run pb pbyte tf lvl h1 h2 (FS 0 b0) (es ++ [e]) = do (s', _) <- f_step pb pbyte tf lvl h1 h2 s1 e ; Some s').
  { generalize (FS 0 b0). clear. induction es as [|x es IHe]; intros s s1 E; cbn [f_run app] in *; [apply some_inj in E; subst s1; reflexivity|].
    destruct (f_step pb pbyte tf lvl h1 h2 s x) as [[s' o]|]; [|discriminate]. cbn [bind] in *. apply IHe. exact E. }
  assert (LEN : forall es' s1, f_run pb pbyte tf lvl h1 h2 (FS 0 b0) es' = Some s1 -> Forall (fun e => match e with FSet w => byte w | FSyncFinal => True end) es' -> Zlen (f_buf s1) = Zlen area /\ 0 <= f_value s1 <= 100).
  { intros es'. assert (X : Zlen (f_buf (FS 0 b0)) = Zlen area /\ 0 <= f_value (FS 0 b0) <= 100) by (cbn; lia). revert X. generalize (FS 0 b0).
    induction es' as [|x es' IHe]; intros s X s1 E F; cbn [f_run] in E; [apply some_inj in E; subst s1; exact X|].
    inversion F as [|? ? F1 F2]; subst. destruct (f_step pb pbyte tf lvl h1 h2 s x) as [[s' o]|] eqn:ST; [|discriminate]. cbn [bind] in E. apply (IHe s'); [|exact E|exact F2]. clear IHe E.
    destruct X as [X1 X2]. destruct x as [w|]; cbn [f_step] in ST.
    - destruct (Z.ltb_spec 100 w); [apply some_pair_inj in ST as [<- _]; auto|].
      destruct (fht_frame pb pbyte tb tf lvl (10 <=? w) h1 h2 w (f_buf s) P0 T0 SZ BP NP B1 B2 F1 TOK ltac:(lia)) as (b2 & _ & _ & _ & C2 & LB & _).
      rewrite C2 in ST. cbn [bind] in ST. apply some_pair_inj in ST as [<- _]. cbn [f_buf f_value]. red in F1. lia.
    - destruct (create false (f_buf s) 0 (Msg h1 h2 0 32 0)) as [[b1 q1]|] eqn:C1; [|discriminate]. cbn [bind] in ST.
      destruct (create_text h1 h2 0 32 (f_buf s) 0 [] B1 B2 ltac:(red; lia) ltac:(red; lia) eq_refl (Forall_nil _) (Forall_nil _) ltac:(intros; lia) ltac:(lia)) as (b3 & st3 & C3 & L3 & _).
      rewrite C1 in C3. apply some_pair_inj in C3 as [<- _]. destruct (frame_sent b1) as [tx|]; [|discriminate]. cbn [bind] in ST.
      destruct (fht_frame pb pbyte tb tf lvl false h1 h2 (f_value s) b1 P0 T0 SZ BP NP B1 B2 ltac:(red; lia) TOK ltac:(lia)) as (b2 & _ & _ & _ & C2 & LB & _).
      rewrite C2 in ST. cbn [bind] in ST. apply some_pair_inj in ST as [<- _]. cbn [f_buf f_value]. lia. }
  destruct (IH FE1) as (s & _ & RN & VAL & HB). destruct (LEN es s RN FE1) as [LS VR]. rewrite (RA s RN). clear RA IH.
  assert (LT : last_target (es ++ [e]) = match e with FSet w => if 100 <? w then last_target es else w | FSyncFinal => last_target es end) by (unfold last_target; rewrite fold_left_app; reflexivity).
  rewrite LT, existsb_app. cbn [existsb]. rewrite orb_false_r. destruct e as [w|]; cbn [f_step filled_by].
  - destruct (Z.ltb_spec 100 w) as [G|G].
    + exists s. cbn [bind negb]. rewrite orb_false_r. split; [reflexivity|]. split; [reflexivity|]. split; [exact VAL|exact HB].
    + cbn [negb]. rewrite orb_true_r.
      destruct (fht_frame pb pbyte tb tf lvl (10 <=? w) h1 h2 w (f_buf s) P0 T0 SZ BP NP B1 B2 WE TOK ltac:(lia)) as (b2 & pre & stream & t & C2 & LB & S2 & PR & LSR & _ & DEC).
      rewrite C2. cbn [bind]. exists (FS w b2). split; [reflexivity|]. split; [reflexivity|]. split; [reflexivity|]. cbn [f_buf]. exists pre, stream, t. split; [exact S2|]. split; [exact LSR|].
      split; [|exact DEC]. rewrite PR. destruct (_ || _); auto.
  - rewrite orb_true_r.
    destruct (create_text h1 h2 0 32 (f_buf s) 0 [] B1 B2 ltac:(red; lia) ltac:(red; lia) eq_refl (Forall_nil _) (Forall_nil _) ltac:(intros; lia) ltac:(lia)) as (b3 & st3 & C3 & L3 & TX3 & LS3 & _).
    rewrite C3. cbn [bind]. rewrite (sent_text b3 _ TX3) by (cbn [app]; lia). cbn [bind].
    destruct (fht_frame pb pbyte tb tf lvl false h1 h2 (f_value s) b3 P0 T0 SZ BP NP B1 B2 ltac:(red; lia) TOK ltac:(lia)) as (b2 & pre & stream & t & C2 & LB & S2 & PR & LSR & _ & DEC).
    rewrite C2. cbn [bind]. exists (FS (f_value s) b2). split; [reflexivity|]. split; [reflexivity|]. split; [exact VAL|]. cbn [f_buf]. exists pre, stream, t. split; [exact S2|]. split; [exact LSR|].
    rewrite <- VAL. split; [|exact DEC]. rewrite PR. destruct (_ || _); auto.
Qed.

(** A target of at least 10% set last puts the preamble in front, whatever went before. *)
Theorem fht_frame_preamble_partial : forall pb pbyte tb tf lvl h1 h2 v s,
  0 <= pb -> 0 <= tb -> pb + 46 + tb <= 255 -> byte pbyte -> pbyte <> 255 -> byte h1 -> byte h2 -> 10 <= v <= 100 ->
  match tf with Some f => trailer_ok f | None => True end -> Zlen (f_buf s) = frame_size pb tb ->
  exists s' rest, f_step pb pbyte tf lvl h1 h2 s (FSet v) = Some (s', []) /\ frame_sent (f_buf s') = Some (Some (repeat pbyte (Z.to_nat pb) ++ rest)).
Proof.
  intros pb pbyte tb tf lvl h1 h2 v s P0 T0 SZ BP NP B1 B2 V TOK LA. cbn [f_step]. replace (100 <? v) with false by lia. replace (10 <=? v) with true by lia.
  destruct (fht_frame pb pbyte tb tf lvl true h1 h2 v (f_buf s) P0 T0 SZ BP NP B1 B2 ltac:(red; lia) TOK LA) as (b2 & pre & stream & t & C2 & LB & S2 & PR & _).
  rewrite C2. cbn [bind]. eexists _, (stream ++ t). split; [reflexivity|]. cbn [f_buf]. rewrite S2, PR. reflexivity.
Qed.
(** Full statement: the frame of a valve that is to be open carries the preamble the hub needs to hear it.  Refuted: the
    frame rebuilt when synchronisation completes has none, and is sent until the next call of set(). *)
Theorem fht_frame_preamble_refuted :
  match f_init (repeat 0 51) with
  | Some s0 => match f_run 5 0xaa None true 13 73 s0 [FSet 100] with
      | Some s1 => match frame_sent (f_buf s1) with Some (Some l) => firstn 5 l = repeat 0xaa 5 | _ => False end
      | None => False end /\
    match f_run 5 0xaa None true 13 73 s0 [FSet 100; FSyncFinal] with
      | Some s2 => f_value s2 = 100 /\ match frame_sent (f_buf s2) with Some (Some l) => ~ In 0xaa l /\ firstn 6 l = repeat 0xcc 6 | _ => False end
      | None => False end
  | None => False
  end.
Proof. vm_compute. split; [reflexivity|]. split; [reflexivity|]. split; [intros H; repeat (destruct H as [H|H]; [discriminate|]); exact H|reflexivity]. Qed.
(** The size of the buffer is computed in a byte: with more than 204 bytes of trailer it wraps round and the frame is
    written outside. *)
Theorem fht_frame_size_refuted : frame_size 5 210 = 5 /\ create_frame 5 0xaa None true true 13 73 100 (repeat 0 (Z.to_nat (frame_size 5 210))) = None.
Proof. vm_compute. split; reflexivity. Qed.
Example fht_frame_met :
  trailer_ok (put_trailer [1; 2; 3]) /\
  match create_frame 5 0xaa (Some (put_trailer [1; 2; 3])) true false 13 73 100 (repeat 9 57) with
  | Some b => match frame_sent b with Some (Some l) => Zlen l = 49 /\ firstn 6 l = [170; 170; 170; 170; 170; 0xcc] /\ skipn 46 l = [1; 2; 3] | _ => False end
  | None => False end.
Proof.
  split; [apply put_trailer_ok; repeat constructor; lia|]. vm_compute. repeat split.
Qed.
