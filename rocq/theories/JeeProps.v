(** JeeLabs packets: format, round trip, rejection of damaged packets, bounds (C125-C127). *)
From Verif Require Import Base OwModel OwProps JeeModel JeeCrc.

(** ** Specification: what is on the air *)
Definition packet (g h : Z) (payload : list Z) : list Z :=
  let m := [g; h; Zlen payload] ++ payload in m ++ [crc16 m mod 256; crc16 m / 256].
Definition header (node : Z) (dest : option Z) (ackReq ackConf : bool) : Z :=
  match dest with Some d => d + 64 | None => node end + (if ackReq then 32 else 0) + (if ackConf then 128 else 0).

(** ** CRC of a packet *)
Lemma crc16_word m : Forall byte m -> word (crc16 m).
Proof.
  intros HF. unfold crc16. assert (H : forall s, word s -> word (fold_left crc16_update m s)); [|apply H; red; lia].
  induction HF as [|a m Ha HF IH]; intros s Hs; [exact Hs|]. cbn [fold_left]. apply IH. unfold crc16_update. apply iter_word. apply lxor_word; [exact Hs|red in Ha; red; lia].
Qed.
Lemma shift_256 n x : crc_shift n (2 ^ Z.of_nat n * x) = x.
Proof.
  revert x. induction n as [|n IH]; intros x; [cbn [crc_shift]; change (2 ^ Z.of_nat 0) with 1; lia|]. replace (S n) with (n + 1)%nat by lia. rewrite iter_add. cbn [crc_shift].
  replace (2 ^ Z.of_nat (n + 1) * x) with (2 * (2 ^ Z.of_nat n * x)) by (replace (Z.of_nat (n + 1)) with (Z.succ (Z.of_nat n)) by lia; rewrite Z.pow_succ_r by lia; lia). rewrite crc_bit_2. apply IH.
Qed.
Lemma crc_own m : Forall byte m -> crc16 (m ++ [crc16 m mod 256; crc16 m / 256]) = 0.
Proof.
  intros HF. pose proof (crc16_word m HF) as HW. unfold crc16 in *. rewrite fold_left_app. set (c := fold_left crc16_update m 65535) in *. cbn [fold_left]. unfold crc16_update.
  assert (E : Z.lxor c (c mod 256) = 2 ^ Z.of_nat 8 * (c / 256)).
  { change (2 ^ Z.of_nat 8) with 256. change 256 with (2 ^ 8). rewrite <- Z.land_ones by lia. rewrite <- Z.shiftr_div_pow2 by lia. rewrite Z.mul_comm, <- Z.shiftl_mul_pow2 by lia. apply Z.bits_inj'. intros j Hj.
    rewrite Z.lxor_spec, Z.land_spec, Z.shiftl_spec by lia. destruct (Z.lt_ge_cases j 8).
    - rewrite Z.ones_spec_low by lia. rewrite (Z.testbit_neg_r _ (j - 8)) by lia. rewrite andb_true_r. apply xorb_nilpotent.
    - rewrite Z.ones_spec_high by lia. rewrite andb_false_r, xorb_false_r, Z.shiftr_spec by lia. f_equal. lia. }
  rewrite E, shift_256, Z.lxor_nilpotent. apply shift_zero.
Qed.
(** Only the right CRC does. *)
Lemma update_0 c a : word c -> byte a -> crc16_update c a = 0 -> c = a.
Proof. intros Hc Ha H. unfold crc16_update in H. apply iter_0 in H; [|apply lxor_word; [exact Hc|red in Ha; red; lia]]. apply Z.lxor_eq. exact H. Qed.
Lemma crc_loop_spec : forall n buf i c, 0 <= i -> i + Z.of_nat n <= Zlen buf -> crc_loop n buf i c = Some (fold_left crc16_update (firstn n (skipn (Z.to_nat i) buf)) c).
Proof.
  induction n as [|n IH]; intros buf i c Hi Hn; [reflexivity|]. cbn [crc_loop]. rewrite rd_some by lia. cbn [bind]. rewrite IH by lia. f_equal.
  assert (E : skipn (Z.to_nat i) buf = znth buf i :: skipn (Z.to_nat (i + 1)) buf).
  { unfold znth. replace (Z.to_nat (i + 1)) with (S (Z.to_nat i)) by lia. assert (Hl : (Z.to_nat i < length buf)%nat) by (unfold Zlen in Hn; lia). clear -Hl. revert buf Hl. generalize (Z.to_nat i). intros k. induction k as [|k IH]; intros [|x l] Hl; cbn [length] in Hl; try lia; [reflexivity|]. cbn [skipn nth]. rewrite IH by lia. reflexivity. }
  rewrite E. reflexivity.
Qed.
Lemma calc_spec buf len : 0 <= len < 256 -> len <= Zlen buf -> calcCrc buf len = Some (crc16 (firstn (Z.to_nat len) buf)).
Proof. intros H1 H2. unfold calcCrc. rewrite u8_id by (red; lia). rewrite crc_loop_spec by lia. reflexivity. Qed.
Lemma wr_app l1 x l2 v : wr (l1 ++ x :: l2) (Zlen l1) v = Some (l1 ++ v :: l2).
Proof.
  unfold wr. pose proof (Zlen_nonneg l1). pose proof (Zlen_nonneg l2). rewrite blit_some by (change (Zlen [v]) with 1; rewrite ?Zlen_app, ?Zlen_cons; lia).
  - change (Zlen [v]) with 1. f_equal. f_equal.
    + unfold Zlen. rewrite Nat2Z.id, firstn_app, Nat.sub_diag, firstn_all. cbn [firstn]. apply app_nil_r.
    + cbn [app]. f_equal. replace (Z.to_nat (Zlen l1 + 1)) with (length l1 + 1)%nat by (unfold Zlen; lia). rewrite skipn_app. rewrite skipn_all2 by lia. replace (length l1 + 1 - length l1)%nat with 1%nat by lia. reflexivity.
Qed.
Lemma wr_0 x l v : wr (x :: l) 0 v = Some (v :: l). Proof. exact (wr_app [] x l v). Qed.
Lemma wr_1 a x l v : wr (a :: x :: l) 1 v = Some (a :: v :: l). Proof. exact (wr_app [a] x l v). Qed.
Lemma wr_2 a b x l v : wr (a :: b :: x :: l) 2 v = Some (a :: b :: v :: l). Proof. exact (wr_app [a; b] x l v). Qed.
Lemma header_byte j nodeID dest rq cf : 0 <= nodeID <= 31 -> 0 <= node j <= 31 ->
  u8 (Z.lor (if (dest : bool) then Z.lor nodeID 64 else node j) (Z.lor (if (cf : bool) then 128 else 0) (if (rq : bool) then 32 else 0))) = header (node j) (if dest then Some nodeID else None) rq cf.
Proof.
  intros H1 H2. assert (HS : forall x, 0 <= x <= 31 -> forallb (fun b => (u8 (Z.lor (if (fst (fst b) : bool) then Z.lor x 64 else x) (Z.lor (if (snd b : bool) then 128 else 0) (if (snd (fst b) : bool) then 32 else 0))) =? header x (if (fst (fst b) : bool) then Some x else None) (snd (fst b)) (snd b)))
    (list_prod (list_prod [true; false] [true; false]) [true; false]) = true).
  { intros x Hx. assert (HA : forallb (fun x => forallb (fun b => (u8 (Z.lor (if (fst (fst b) : bool) then Z.lor x 64 else x) (Z.lor (if (snd b : bool) then 128 else 0) (if (snd (fst b) : bool) then 32 else 0))) =? header x (if (fst (fst b) : bool) then Some x else None) (snd (fst b)) (snd b)))
      (list_prod (list_prod [true; false] [true; false]) [true; false])) (map Z.of_nat (seq 0 32)) = true) by (vm_compute; reflexivity).
    rewrite forallb_forall in HA. apply HA. apply in_map_iff. exists (Z.to_nat x). split; [lia|]. apply in_seq. lia. }
  assert (HI : In (dest, rq, cf) (list_prod (list_prod [true; false] [true; false]) [true; false])) by (destruct dest, rq, cf; cbn; tauto).
  destruct dest.
  - pose proof (HS nodeID H1) as HX. rewrite forallb_forall in HX. specialize (HX _ HI). cbn [fst snd] in HX. apply Z.eqb_eq in HX. exact HX.
  - pose proof (HS (node j) H2) as HX. rewrite forallb_forall in HX. specialize (HX _ HI). cbn [fst snd] in HX. apply Z.eqb_eq in HX. exact HX.
Qed.
Lemma header_range nd d rq cf : 0 <= nd <= 31 -> (forall x, d = Some x -> 0 <= x <= 31) -> byte (header nd d rq cf).
Proof. intros H1 H2. unfold header. red. destruct d as [x|]; [specialize (H2 x eq_refl)|]; destruct rq, cf; lia. Qed.
(** C125, first half: encode() leaves at the start of the buffer exactly the packet, for payloads of up to 250 bytes. *)
Theorem jee_encode : forall j payload rest nodeID dest rq cf, Forall byte payload -> Zlen payload <= 250 -> 5 <= Zlen rest ->
  0 <= nodeID <= 31 -> 0 <= node j <= 31 -> byte (group j) ->
  encode j (payload ++ rest) (Zlen payload) nodeID dest rq cf =
  Some (Zlen payload + 5, packet (group j) (header (node j) (if dest then Some nodeID else None) rq cf) payload ++ skipn 5 rest).
Proof.
  intros j payload rest nodeID dest rq cf HP HL HR HN HJ HG. unfold encode. replace (31 <? nodeID) with false by lia. pose proof (Zlen_nonneg payload) as HL0.
  destruct rest as [|r0 [|r1 [|r2 [|r3 [|r4 rest]]]]]; [change (Zlen (@nil Z)) with 0 in HR; lia|rewrite ?Zlen_cons in HR; change (Zlen (@nil Z)) with 0 in HR; lia..|]. clear HR. change (skipn 5 (r0 :: r1 :: r2 :: r3 :: r4 :: rest)) with rest.
  pose proof (Zlen_nonneg rest) as HRr.
  assert (ES : sub (payload ++ r0 :: r1 :: r2 :: r3 :: r4 :: rest) 0 (Zlen payload) = Some payload).
  { rewrite sub_some by (rewrite ?Zlen_app, ?Zlen_cons; lia). change (Z.to_nat 0) with O. cbn [skipn]. f_equal. unfold Zlen. rewrite Nat2Z.id, firstn_app, Nat.sub_diag, firstn_all. cbn [firstn]. apply app_nil_r. }
  rewrite ES. cbn [bind].
  assert (EB : exists x0 x1 x2, blit (payload ++ r0 :: r1 :: r2 :: r3 :: r4 :: rest) 3 payload = Some (x0 :: x1 :: x2 :: payload ++ r3 :: r4 :: rest)).
  { rewrite blit_some by (rewrite ?Zlen_app, ?Zlen_cons; lia).
    assert (EK : skipn (Z.to_nat (3 + Zlen payload)) (payload ++ r0 :: r1 :: r2 :: r3 :: r4 :: rest) = r3 :: r4 :: rest).
    { replace (Z.to_nat (3 + Zlen payload)) with (length payload + 3)%nat by (unfold Zlen; lia). rewrite skipn_app, skipn_all2 by lia. replace (length payload + 3 - length payload)%nat with 3%nat by lia. reflexivity. }
    rewrite EK. change (Z.to_nat 3) with 3%nat. assert (EF : exists x0 x1 x2, firstn 3 (payload ++ r0 :: r1 :: r2 :: r3 :: r4 :: rest) = [x0; x1; x2]).
    { destruct payload as [|p0 [|p1 [|p2 p]]]; cbn [app firstn]; do 3 eexists; reflexivity. }
    destruct EF as (x0 & x1 & x2 & ->). exists x0, x1, x2. reflexivity. }
  destruct EB as (x0 & x1 & x2 & ->). cbn [bind].
  rewrite wr_0. cbn [bind]. rewrite wr_1. cbn [bind]. rewrite (header_byte j nodeID dest rq cf HN HJ).
  set (h := header (node j) (if dest then Some nodeID else None) rq cf).
  assert (Hh : byte h) by (apply header_range; [exact HJ|]; intros x Ex; destruct dest; [apply some_inj in Ex as <-; exact HN|discriminate]).
  rewrite wr_2. cbn [bind].
  rewrite calc_spec; [|lia|rewrite !Zlen_cons, Zlen_app, !Zlen_cons; lia].
  set (m := [group j; h; Zlen payload] ++ payload).
  assert (EM : firstn (Z.to_nat (Zlen payload + 3)) (group j :: h :: Zlen payload :: payload ++ r3 :: r4 :: rest) = m).
  { replace (Z.to_nat (Zlen payload + 3)) with (S (S (S (length payload + 0)))) by (unfold Zlen; lia). cbn [firstn]. rewrite firstn_app_2. cbn [firstn]. rewrite app_nil_r. reflexivity. }
  rewrite EM. cbn [bind]. change (group j :: h :: Zlen payload :: payload ++ r3 :: r4 :: rest) with (m ++ r3 :: r4 :: rest).
  assert (HLm : Zlen m = Zlen payload + 3) by (unfold m; rewrite Zlen_app; change (Zlen [group j; h; Zlen payload]) with 3; lia).
  rewrite <- HLm at 1. rewrite wr_app. cbn [bind].
  replace (m ++ u8 (crc16 m) :: r4 :: rest) with ((m ++ [u8 (crc16 m)]) ++ r4 :: rest) by (rewrite <- app_assoc; reflexivity).
  replace (Zlen payload + 4) with (Zlen (m ++ [u8 (crc16 m)])) by (rewrite Zlen_app; change (Zlen [u8 (crc16 m)]) with 1; lia). rewrite wr_app. cbn [bind]. rewrite (u8_id (Zlen payload + 5)) by (red; lia).
  assert (HFm : Forall byte m) by (unfold m; apply Forall_app; split; [repeat (constructor; [first [assumption | red; lia]|]); constructor|exact HP]).
  pose proof (crc16_word m HFm) as HW. red in HW. rewrite (u8_id (crc16 m / 256)) by (red; Z.div_mod_to_equations; lia). unfold packet. fold m. rewrite <- !app_assoc. reflexivity.
Qed.
(** ** Decoding *)
Lemma decode_spec j buf o : 3 <= Zlen buf -> 0 <= znth buf 2 <= 250 -> znth buf 2 + 5 <= Zlen buf ->
  decode j buf o = Some
   (if negb (znth buf 0 =? group j) then (255, buf, o)
    else if negb (crc16 (firstn (Z.to_nat (znth buf 2 + 5)) buf) =? 0) then (254, buf, o)
    else let o1 := mkOut (o_len o) (Z.land (znth buf 1) 31) (negb (Z.land (znth buf 1) 64 =? 0)) (o_ackReq o) (o_ackConf o) in
         if o_dest o1 && negb (o_node o1 =? node j) then (253, buf, o1)
         else (znth buf 2, firstn (Z.to_nat (znth buf 2)) (skipn 3 buf) ++ skipn (Z.to_nat (znth buf 2)) buf,
               mkOut (znth buf 2) (o_node o1) (o_dest o1) (negb (Z.land (znth buf 1) 32 =? 0)) (negb (Z.land (znth buf 1) 128 =? 0)))).
Proof.
  intros H3 HL HB. unfold decode. rewrite (rd_some buf 0) by lia. cbn [bind]. destruct (negb (znth buf 0 =? group j)); [reflexivity|]. rewrite (rd_some buf 2) by lia. cbn [bind].
  rewrite calc_spec by lia. cbn [bind]. destruct (negb (crc16 (firstn (Z.to_nat (znth buf 2 + 5)) buf) =? 0)); [reflexivity|]. rewrite (rd_some buf 1) by lia. cbn [bind]. cbv zeta. destruct (o_dest _ && _); [reflexivity|].
  rewrite sub_some by lia. cbn [bind]. change (Z.to_nat 3) with 3%nat.
  assert (E : Zlen (firstn (Z.to_nat (znth buf 2)) (skipn 3 buf)) = znth buf 2) by (rewrite Zlen_firstn, Zlen_skipn; lia).
  rewrite blit_some by lia. cbn [bind]. rewrite E. rewrite Z.add_0_l. change (Z.to_nat 0) with O. cbn [firstn app]. reflexivity.
Qed.
Lemma header_fields nd d rq cf : 0 <= nd <= 31 -> (forall x, d = Some x -> 0 <= x <= 31) -> let h := header nd d rq cf in
  Z.land h 31 = match d with Some x => x | None => nd end /\ negb (Z.land h 64 =? 0) = (match d with Some _ => true | None => false end) /\ negb (Z.land h 32 =? 0) = rq /\ negb (Z.land h 128 =? 0) = cf.
Proof.
  intros H1 H2 h.
  assert (HA : forallb (fun x => forallb (fun b : bool * bool * bool => let h := x + (if fst (fst b) then 64 else 0) + (if snd (fst b) then 32 else 0) + (if snd b then 128 else 0) in
      (Z.land h 31 =? x) && Bool.eqb (negb (Z.land h 64 =? 0)) (fst (fst b)) && Bool.eqb (negb (Z.land h 32 =? 0)) (snd (fst b)) && Bool.eqb (negb (Z.land h 128 =? 0)) (snd b))
      (list_prod (list_prod [true; false] [true; false]) [true; false])) (map Z.of_nat (seq 0 32)) = true) by (vm_compute; reflexivity).
  set (x := match d with Some x => x | None => nd end). set (dd := match d with Some _ => true | None => false end).
  assert (Eh : h = x + (if dd then 64 else 0) + (if rq then 32 else 0) + (if cf then 128 else 0)) by (unfold h, header, x, dd; destruct d; lia).
  assert (Hx : 0 <= x <= 31) by (unfold x; destruct d; [apply H2; reflexivity|exact H1]).
  rewrite forallb_forall in HA. specialize (HA x ltac:(apply in_map_iff; exists (Z.to_nat x); split; [lia|apply in_seq; lia])).
  rewrite forallb_forall in HA. specialize (HA (dd, rq, cf) ltac:(destruct dd, rq, cf; cbn; tauto)). cbn [fst snd] in HA. cbv zeta in HA. rewrite <- Eh in HA.
  apply andb_true_iff in HA as [HA H128]. apply andb_true_iff in HA as [HA H32]. apply andb_true_iff in HA as [HA H64].
  apply Z.eqb_eq in HA. apply Bool.eqb_prop in H128, H32, H64. auto.
Qed.
Lemma packet_len g h p : Zlen (packet g h p) = Zlen p + 5.
Proof. unfold packet. cbv zeta. rewrite !Zlen_app. change (Zlen [g; h; Zlen p]) with 3. change (Zlen [crc16 ([g; h; Zlen p] ++ p) mod 256; crc16 ([g; h; Zlen p] ++ p) / 256]) with 2. lia. Qed.
Lemma packet_bytes g h p : byte g -> byte h -> Forall byte p -> Zlen p <= 255 -> Forall byte (packet g h p).
Proof.
  intros Hg Hh HP HL. pose proof (Zlen_nonneg p). unfold packet. cbv zeta.
  assert (HF : Forall byte ([g; h; Zlen p] ++ p)) by (apply Forall_app; split; [repeat (constructor; [first [assumption | red; lia]|]); constructor|exact HP]).
  apply Forall_app. split; [exact HF|]. pose proof (crc16_word _ HF) as HW. red in HW. repeat constructor; Z.div_mod_to_equations; lia.
Qed.
(** C125, second half: a packet from a node of the group is decoded to the payload and flags sent, if it is
    broadcast or addressed to the receiver; else reported as not for it (253); and by a node of another
    group as not of its group (255).  Whatever follows in the buffer. *)
Theorem jee_round_trip : forall j nd payload rest d rq cf o, Forall byte payload -> Zlen payload <= 250 -> 0 <= nd <= 31 -> (forall x, d = Some x -> 0 <= x <= 31) -> byte (group j) ->
  let buf := packet (group j) (header nd d rq cf) payload ++ rest in
  match d with
  | Some x => if x =? node j then exists buf', decode j buf o = Some (Zlen payload, payload ++ buf', mkOut (Zlen payload) x true rq cf)
              else exists o', decode j buf o = Some (253, buf, o')
  | None => exists buf', decode j buf o = Some (Zlen payload, payload ++ buf', mkOut (Zlen payload) nd false rq cf)
  end /\
  forall j', group j' <> group j -> decode j' buf o = Some (255, buf, o).
Proof.
  intros j nd payload rest d rq cf o HP HL Hnd Hd Hg buf. set (h := header nd d rq cf) in *. pose proof (Zlen_nonneg payload) as HL0. pose proof (Zlen_nonneg rest) as HR0.
  assert (Hh : byte h) by (apply header_range; assumption).
  assert (HLb : Zlen buf = Zlen payload + 5 + Zlen rest) by (unfold buf; rewrite Zlen_app, packet_len; lia).
  assert (E0 : znth buf 0 = group j) by reflexivity. assert (E1 : znth buf 1 = h) by reflexivity. assert (E2 : znth buf 2 = Zlen payload) by reflexivity.
  assert (C1 : 3 <= Zlen buf) by lia. assert (C2 : 0 <= znth buf 2 <= 250) by (rewrite E2; lia). assert (C3 : znth buf 2 + 5 <= Zlen buf) by (rewrite E2; lia). pose proof (fun j0 => decode_spec j0 buf o C1 C2 C3) as HD. clear C1 C2 C3. rewrite E0, E1, E2 in HD.
  assert (EC : crc16 (firstn (Z.to_nat (Zlen payload + 5)) buf) = 0).
  { unfold buf. rewrite firstn_app. replace (Z.to_nat (Zlen payload + 5)) with (length (packet (group j) h payload)) by (pose proof (packet_len (group j) h payload) as HX; unfold Zlen in HX at 1; lia). rewrite firstn_all, Nat.sub_diag. cbn [firstn]. rewrite app_nil_r.
    apply crc_own. apply Forall_app. split; [repeat (constructor; [first [assumption | red; lia]|]); constructor|exact HP]. }
  rewrite EC in HD. change (0 =? 0) with true in HD. cbn [negb] in HD.
  destruct (header_fields nd d rq cf Hnd Hd) as (F31 & F64 & F32 & F128). fold h in F31, F64, F32, F128. rewrite F31, F64, F32, F128 in HD. cbv zeta in HD. cbn [o_dest o_node] in HD.
  assert (EP : firstn (Z.to_nat (Zlen payload)) (skipn 3 buf) = payload).
  { change (skipn 3 buf) with ((payload ++ [crc16 ([group j; h; Zlen payload] ++ payload) mod 256; crc16 ([group j; h; Zlen payload] ++ payload) / 256]) ++ rest). unfold Zlen. rewrite Nat2Z.id, <- app_assoc, firstn_app, Nat.sub_diag, firstn_all. cbn [firstn]. apply app_nil_r. }
  rewrite EP in HD. split.
  - pose proof (HD j) as HJ. rewrite Z.eqb_refl in HJ. cbn [negb] in HJ. destruct d as [x|].
    + destruct (x =? node j); cbn [andb negb] in HJ; [eexists; exact HJ|]. eexists. exact HJ.
    + cbn [andb] in HJ. eexists. exact HJ.
  - intros j' Hj. rewrite HD. replace (group j =? group j') with false by lia. reflexivity.
Qed.
(** ** The filter *)
Lemma filter_spec buf n : 64 <= Zlen buf -> 0 <= znth buf 2 <= 250 ->
  filter buf n = Some ((znth buf 2 + 5 <=? 64) && (crc16 (firstn (Z.to_nat (znth buf 2 + 5)) buf) =? 0), znth buf 2 + 5).
Proof.
  intros H64 HL. unfold filter. rewrite rd_some by lia. cbn [bind]. cbv zeta. rewrite u8_id by (red; lia). destruct (64 <? znth buf 2 + 5) eqn:E.
  - replace (znth buf 2 + 5 <=? 64) with false by lia. reflexivity.
  - replace (znth buf 2 + 5 <=? 64) with true by lia. rewrite crc_loop_spec by lia. reflexivity.
Qed.
(** C125: the filter passes every packet sent of up to 59 bytes of payload, and gives its length. *)
Theorem jee_filter_passes : forall g h payload rest n, byte g -> byte h -> Forall byte payload -> Zlen payload <= 59 -> 64 <= Zlen payload + 5 + Zlen rest ->
  filter (packet g h payload ++ rest) n = Some (true, Zlen payload + 5).
Proof.
  intros g h payload rest n Hg Hh HP HL HR. pose proof (Zlen_nonneg payload). assert (E2 : znth (packet g h payload ++ rest) 2 = Zlen payload) by reflexivity.
  rewrite filter_spec by (rewrite ?E2, ?Zlen_app, ?packet_len; lia). rewrite E2. replace (Zlen payload + 5 <=? 64) with true by lia.
  rewrite firstn_app. replace (Z.to_nat (Zlen payload + 5)) with (length (packet g h payload)) by (pose proof (packet_len g h payload) as HX; unfold Zlen in HX at 1; lia). rewrite firstn_all, Nat.sub_diag. cbn [firstn]. rewrite app_nil_r.
  unfold packet. cbv zeta. rewrite crc_own; [reflexivity|]. apply Forall_app. split; [repeat (constructor; [first [assumption | red; lia]|]); constructor|exact HP].
Qed.
(** ** Damage *)
(** Kinds of damage: all changed bits among 16 consecutive; exactly two bits; an odd number of bits. *)
Definition damaged (f g : list Z) : Prop :=
  (f <> g /\ exists k0, forall k, (k < 8 * length f)%nat -> abit f k <> abit g k -> (k0 <= k < k0 + 16)%nat) \/
  (exists i j, (i < j < 8 * length f)%nat /\ forall k, (k < 8 * length f)%nat -> (abit f k <> abit g k <-> k = i \/ k = j)) \/
  Nat.odd (length (List.filter (fun k => xorb (abit f k) (abit g k)) (seq 0 (8 * length f)))) = true.
Lemma damaged_crc f g : Forall byte f -> Forall byte g -> length f = length g -> (length f <= 255)%nat -> damaged f g -> crc16 f = 0 -> crc16 g <> 0.
Proof.
  intros Hf Hg HL H255 [(Hn & k0 & HB) | [(i & j & Hij & HB) | HO]] H0 H1.
  - apply (crc16_burst f g k0 Hf Hg HL Hn HB). congruence.
  - apply (crc16_two_bits f g i j Hf Hg HL H255 Hij HB). congruence.
  - apply (crc16_odd f g Hf Hg HL HO). congruence.
Qed.
(** C126: a packet so damaged, other than in its length byte, is not passed by the filter, nor decoded. *)
Theorem jee_damage_rejected : forall j g h payload bad rest n o, byte g -> byte h -> Forall byte payload -> Zlen payload <= 250 ->
  let f := packet g h payload in
  Forall byte bad -> length bad = length f -> znth bad 2 = Zlen payload -> damaged f bad -> 64 <= Zlen bad + Zlen rest ->
  filter (bad ++ rest) n = Some (false, Zlen payload + 5) /\
  exists r, decode j (bad ++ rest) o = Some (r, bad ++ rest, o) /\ (r = 254 \/ r = 255).
Proof.
  intros j g h payload bad rest n o Hg Hh HP HL f HB HLb H2 HD H64. pose proof (Zlen_nonneg payload) as HL0. pose proof (Zlen_nonneg rest) as HR0.
  assert (HLf : Zlen f = Zlen payload + 5) by apply packet_len. assert (HLb' : Zlen bad = Zlen payload + 5) by (unfold Zlen in *; lia).
  assert (HC : crc16 bad <> 0).
  { apply (damaged_crc f bad); [apply packet_bytes; try assumption; lia|exact HB|lia|unfold Zlen in HLf, HL; lia|exact HD|]. apply crc_own. apply Forall_app. split; [repeat (constructor; [first [assumption | red; lia]|]); constructor|exact HP]. }
  assert (E2 : znth (bad ++ rest) 2 = Zlen payload) by (rewrite znth_app by lia; replace (2 <? Zlen bad) with true by lia; exact H2).
  assert (EF : firstn (Z.to_nat (Zlen payload + 5)) (bad ++ rest) = bad) by (rewrite <- HLb'; unfold Zlen; rewrite Nat2Z.id, firstn_app, Nat.sub_diag, firstn_all; cbn [firstn]; apply app_nil_r).
  split.
  - rewrite filter_spec by (rewrite ?E2, ?Zlen_app; lia). rewrite E2, EF. replace (crc16 bad =? 0) with false by (symmetry; apply Z.eqb_neq; exact HC). rewrite andb_false_r. reflexivity.
  - rewrite decode_spec by (rewrite ?E2, ?Zlen_app; lia). rewrite E2, EF. destruct (negb (znth (bad ++ rest) 0 =? group j)); [eexists; split; [reflexivity|auto]|].
    replace (crc16 bad =? 0) with false by (symmetry; apply Z.eqb_neq; exact HC). eexists. split; [reflexivity|auto].
Qed.
(** ** Bounds *)
Lemma byte_in v : byte v -> In v (map Z.of_nat (seq 0 256)).
Proof. intros H. red in H. apply in_map_iff. exists (Z.to_nat v). split; [lia|]. apply in_seq. lia. Qed.
Lemma crc16_snoc m d : crc16 (m ++ [d]) = crc16_update (crc16 m) d. Proof. unfold crc16. rewrite fold_left_app. reflexivity. Qed.
(** With the group the class has, no buffer whose length byte is too large to be true passes the CRC
    (over the wrapped-round length). *)
Lemma wrap_100 buf : Forall byte buf -> 4 <= Zlen buf -> znth buf 0 = 100 -> 251 <= znth buf 2 -> crc16 (firstn (Z.to_nat (u8 (znth buf 2 + 5))) buf) <> 0.
Proof.
  intros HF HL H0 H2 HC. destruct buf as [|a [|b [|c [|d buf]]]]; [change (Zlen (@nil Z)) with 0 in HL; lia|rewrite ?Zlen_cons in HL; change (Zlen (@nil Z)) with 0 in HL; lia..|].
  change (znth (a :: b :: c :: d :: buf) 0) with a in H0. change (znth (a :: b :: c :: d :: buf) 2) with c in H2, HC. subst a.
  inversion HF as [|? ? _ HF1]; subst. inversion HF1 as [|? ? Hb HF2]; subst. inversion HF2 as [|? ? Hc HF3]; subst. inversion HF3 as [|? ? Hd _]; subst.
  assert (HS : forallb (fun b => negb (crc16 [100] =? 0) && negb (crc16 [100; b] =? 0) && negb (crc16 [100; b; 254] =? 0) && (256 <=? crc16 [100; b; 255])) (map Z.of_nat (seq 0 256)) = true) by (vm_compute; reflexivity).
  rewrite forallb_forall in HS. specialize (HS b (byte_in b Hb)). apply andb_true_iff in HS as [HS H255]. apply andb_true_iff in HS as [HS H254]. apply andb_true_iff in HS as [H252 H253].
  red in Hc. assert (c = 251 \/ c = 252 \/ c = 253 \/ c = 254 \/ c = 255) as [-> | [-> | [-> | [-> | ->]]]] by lia.
  - change (Z.to_nat (u8 (251 + 5))) with 0%nat in HC. cbn [firstn] in HC. discriminate HC.
  - change (Z.to_nat (u8 (252 + 5))) with 1%nat in HC. cbn [firstn] in HC. rewrite HC in H252. discriminate H252.
  - change (Z.to_nat (u8 (253 + 5))) with 2%nat in HC. cbn [firstn] in HC. rewrite HC in H253. discriminate H253.
  - change (Z.to_nat (u8 (254 + 5))) with 3%nat in HC. cbn [firstn] in HC. rewrite HC in H254. discriminate H254.
  - change (Z.to_nat (u8 (255 + 5))) with 4%nat in HC. cbn [firstn] in HC.
    assert (HB3 : Forall byte [100; b; 255]) by (constructor; [red; lia|constructor; [exact Hb|constructor; [red; lia|constructor]]]).
    assert (ES : [100; b; 255; d] = [100; b; 255] ++ [d]) by reflexivity. rewrite ES, crc16_snoc in HC. pose proof (crc16_word _ HB3) as HW. revert HC HW H255. generalize (crc16 [100; b; 255]). intros c HC HW H255.
    apply (update_0 _ d HW Hd) in HC. red in Hd. lia.
Qed.
(** C127: on the 64-byte receive buffer: the filter never goes outside it, and after it decode() does not either. *)
Theorem jee_bounds_partial : forall nd buf n o, Zlen buf = 64 -> Forall byte buf ->
  exists r n', filter buf n = Some (r, n') /\ (r = true -> n' <= 64 /\ exists x, decode (mkJee nd 100) buf o = Some x).
Proof.
  intros nd buf n o HL HF. assert (H2 : byte (znth buf 2)) by (apply znth_byte; exact HF). red in H2. destruct (Z.lt_ge_cases 250 (znth buf 2)) as [Hw | Hw].
  - unfold filter. rewrite rd_some by lia. cbn [bind]. cbv zeta. assert (HU : 0 <= u8 (znth buf 2 + 5) < 5) by (unfold u8; Z.div_mod_to_equations; lia). replace (64 <? u8 (znth buf 2 + 5)) with false by lia.
    rewrite crc_loop_spec by lia. cbn [bind]. change (Z.to_nat 0) with O. cbn [skipn]. fold (crc16 (firstn (Z.to_nat (u8 (znth buf 2 + 5))) buf)). eexists _, _. split; [reflexivity|]. intros HC. apply Z.eqb_eq in HC. split; [lia|].
    unfold decode. rewrite (rd_some buf 0) by lia. cbn [bind group]. destruct (znth buf 0 =? 100) eqn:E0; cbn [negb]; [|eexists; reflexivity]. exfalso. apply (wrap_100 buf HF); [lia|lia|lia|exact HC].
  - rewrite filter_spec by lia. eexists _, _. split; [reflexivity|]. intros HC. apply andb_true_iff in HC as [HC _]. split; [lia|]. eexists. apply decode_spec; lia.
Qed.
(** Any buffer of 255 bytes or more is safe to decode unfiltered. *)
Theorem jee_decode_bounds : forall nd buf o, 255 <= Zlen buf -> Forall byte buf -> exists x, decode (mkJee nd 100) buf o = Some x.
Proof.
  intros nd buf o HL HF. assert (H2 : byte (znth buf 2)) by (apply znth_byte; exact HF). red in H2. destruct (Z.lt_ge_cases 250 (znth buf 2)) as [Hw | Hw].
  - unfold decode. rewrite (rd_some buf 0) by lia. cbn [bind group]. destruct (znth buf 0 =? 100) eqn:E0; cbn [negb]; [|eexists; reflexivity]. rewrite (rd_some buf 2) by lia. cbn [bind].
    assert (HU : 0 <= u8 (znth buf 2 + 5) < 5) by (unfold u8; Z.div_mod_to_equations; lia). unfold calcCrc. rewrite crc_loop_spec by lia. cbn [bind]. change (Z.to_nat 0) with O. cbn [skipn]. fold (crc16 (firstn (Z.to_nat (u8 (znth buf 2 + 5))) buf)).
    pose proof (wrap_100 buf HF ltac:(lia) ltac:(lia) ltac:(lia)) as HC. replace (crc16 (firstn (Z.to_nat (u8 (znth buf 2 + 5))) buf) =? 0) with false by (symmetry; apply Z.eqb_neq; exact HC). eexists. reflexivity.
  - eexists. apply decode_spec; lia.
Qed.
(** ** A case, and what does not hold *)
Example jee_case : encode jee_new ([1; 2; 3] ++ repeat 9 8) 3 7 true true false = Some (8, [100; 103; 3; 1; 2; 3; 45; 18] ++ [9; 9; 9]) /\
  decode (mkJee 7 100) [100; 103; 3; 1; 2; 3; 45; 18; 9; 9; 9] (mkOut 0 0 false false true) = Some (3, [1; 2; 3; 1; 2; 3; 45; 18; 9; 9; 9], mkOut 3 7 true true false).
Proof. vm_compute. auto. Qed.

(** The hypotheses of [jee_damage_rejected] met: two bits of one byte of the payload changed. *)
Example jee_damage_case : damaged (packet 100 103 [1; 2; 3]) [100; 103; 3; 1; 2; 5; 45; 18].
Proof. change (packet 100 103 [1; 2; 3]) with [100; 103; 3; 1; 2; 3; 45; 18]. left. split; [discriminate|]. exists 40%nat. intros k Hk. cbn [length] in Hk. do 64 (destruct k as [|k]; [first [intros _; lia | intros HX; exfalso; apply HX; reflexivity]|]). lia. Qed.
(** Refuted: that the filter passes only complete packets.  It is not told (ignores) how much was
    received, so it passes a fragment if the rest is still in the buffer from before. *)
Theorem jee_filter_short_refuted : exists buf n, filter buf n = Some (true, 8) /\ n = 3.
Proof. exists ([100; 103; 3; 1; 2; 3; 45; 18] ++ repeat 0 56), 3. split; [vm_compute; reflexivity|reflexivity]. Qed.
(** Refuted: that the filter passes only lengths that can be.  A length byte of 255 is taken, with 5 for
    header and CRC, as 4: the first four bytes pass with a payload of 255 bytes announced. *)
Theorem jee_filter_wrap_refuted : exists buf, Zlen buf = 64 /\ Forall byte buf /\ znth buf 2 = 255 /\ filter buf 64 = Some (true, 4).
Proof.
  exists ([84; 5; 255; 115] ++ repeat 0 60). split; [reflexivity|]. split; [|split; [reflexivity|vm_compute; reflexivity]].
  apply Forall_app. split; [repeat (constructor; [red; lia|]); constructor|]. apply Forall_forall. intros x Hx. apply repeat_spec in Hx as ->. red. lia.
Qed.
(** A node of that group would then have decode() run over the end of the buffer; and unfiltered, any
    node does. *)
Theorem jee_decode_refuted :
  decode (mkJee 5 84) ([84; 5; 255; 115] ++ repeat 0 60) (mkOut 0 0 false false false) = None /\
  decode (mkJee 5 100) ([100; 5; 200] ++ repeat 0 61) (mkOut 0 0 false false false) = None.
Proof. vm_compute. auto. Qed.
(** Payloads above 250 bytes: the length returned wraps round. *)
Theorem jee_encode_long_refuted : forall j buf nodeID dest rq cf r buf', 0 <= nodeID <= 31 -> encode j buf 252 nodeID dest rq cf = Some (r, buf') -> r = 1.
Proof.
  intros j buf nodeID dest rq cf r buf' HN H. unfold encode in H. replace (31 <? nodeID) with false in H by lia.
  repeat match type of H with bind ?x _ = _ => destruct x; [cbn [bind] in H|discriminate] end. apply some_pair_inj in H as [H _]. rewrite <- H. reflexivity.
Qed.
