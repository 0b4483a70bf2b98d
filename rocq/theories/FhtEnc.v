(** C45 (first half): the FHT8V encoder writes exactly the documented line code. *)
From Verif Require Import Base FhtModel.

(** ** Specification of the line code *)

(** The four bit pairs of a byte, most significant first. *)
Definition bp (b : Z) : list Z := [b / 64; b / 16 mod 4; b / 4 mod 4; b mod 4].
(** The bit pairs of a byte string. *)
Definition bps (l : list Z) : list Z := flat_map bp l.

(** Line code of a logical bit: 0 is sent as 1100, 1 as 111000 (200us units). *)
Definition enc (b : bool) : list Z := if b then [3; 2; 0] else [3; 0].
Definition encs (bs : list bool) : list Z := flat_map enc bs.

(** A byte on the line: eight bits, most significant first, then even parity. *)
Definition bits8 (b : Z) : list bool := map (Z.testbit b) [7; 6; 5; 4; 3; 2; 1; 0].
Definition with_parity (b : Z) : list bool :=
  bits8 b ++ [fold_right xorb false (bits8 b)].

(** The body of a message: house codes, address, command, extension, and the sum of all five
    plus 12. *)
Definition msg_sum (hc1 hc2 addr cmd ext : Z) : Z := (12 + hc1 + hc2 + addr + cmd + ext) mod 256.
Definition body (hc1 hc2 addr cmd ext : Z) : list bool :=
  flat_map with_parity [hc1; hc2; addr; cmd; ext; msg_sum hc1 hc2 addr cmd ext].
(** The whole message: twelve 0s, a 1, the body, a 0, and two more 0s as padding. *)
Definition line (hc1 hc2 addr cmd ext : Z) : list bool :=
  repeat false 12 ++ [true] ++ body hc1 hc2 addr cmd ext ++ [false] ++ [false; false].

(** ** Appending one bit *)

Lemma bps_app a b : bps (a ++ b) = bps a ++ bps b.
Proof. unfold bps. apply flat_map_app. Qed.
Lemma encs_app a b : encs (a ++ b) = encs a ++ encs b.
Proof. unfold encs. apply flat_map_app. Qed.
Lemma bps_len l : Zlen (bps l) = 4 * Zlen l.
Proof. induction l as [|a l IH]; [reflexivity|]. cbn [bps flat_map]. rewrite Zlen_app, Zlen_cons.
  change (flat_map bp l) with (bps l). rewrite IH. change (Zlen (bp a)) with 4. lia. Qed.

Definition zl_eqb (a b : list Z) : bool := if list_eq_dec Z.eq_dec a b then true else false.
Lemma zl_eqb_eq a b : zl_eqb a b = true -> a = b.
Proof. unfold zl_eqb. destruct (list_eq_dec Z.eq_dec a b); [auto|discriminate]. Qed.

(** Bit pairs already filled in the current byte. *)
Definition filled (c : Z) : list Z := firstn (Z.to_nat (3 - Z.land c 3)) (bp c).
Definition cur_ok (c : Z) : bool := (0 <=? c) && (c <? 256) && (negb (Z.land c 3 =? 3) || (c =? 255)).

Definition enc_check (c : Z) (b : bool) : bool :=
  negb (cur_ok c) ||
  (let '(c', nxt) := enc_byte c b in
   match nxt with
   | None => cur_ok c' && zl_eqb (filled c') (filled c ++ enc b)
   | Some v => cur_ok v && (0 <=? c') && (c' <? 256) && zl_eqb (bp c' ++ filled v) (filled c ++ enc b)
   end).

Lemma enc_check_all : below 256 (fun c => enc_check c true && enc_check c false) = true.
Proof. vm_compute. reflexivity. Qed.

Lemma enc_byte_ok c b : cur_ok c = true ->
  match enc_byte c b with
  | (c', None) => cur_ok c' = true /\ filled c' = filled c ++ enc b
  | (c', Some v) => cur_ok v = true /\ byte c' /\ bp c' ++ filled v = filled c ++ enc b
  end.
Proof.
  intros H. assert (R : 0 <= c < 256) by (unfold cur_ok in H; lia).
  pose proof (below_spec _ _ enc_check_all c R) as K. cbn beta in K.
  apply andb_prop in K. destruct K as [K1 K2].
  assert (K : enc_check c b = true) by (destruct b; assumption).
  unfold enc_check in K. rewrite H in K. cbn [negb orb] in K.
  destruct (enc_byte c b) as [c' [v|]].
  - do 3 (apply andb_prop in K; destruct K as [K ?]). split; [exact K|]. split; [unfold byte; lia|].
    apply zl_eqb_eq. assumption.
  - apply andb_prop in K. destruct K as [K ?]. split; auto. apply zl_eqb_eq. assumption.
Qed.

Lemma filled_len c : cur_ok c = true -> Zlen (filled c) = 3 - Z.land c 3 /\ 0 <= Z.land c 3 <= 3.
Proof.
  intros H. unfold filled. rewrite Zlen_firstn. change (Zlen (bp c)) with 4.
  assert (0 <= Z.land c 3 <= 3).
  { change (Z.land c 3) with (Z.land c (Z.ones 2)). rewrite Z.land_ones by lia.
    pose proof (Z.mod_pos_bound c (2 ^ 2) ltac:(lia)) as M. change (2 ^ 2) with 4 in *. lia. }
  lia.
Qed.

(** Buffer state while encoding: complete bytes from [p0] up to [p] and the partial byte at
    [p] hold the bit pairs [ps]; nothing below [p0] or above [p] has changed from [b0], nor the size. *)
Definition est (b0 : list Z) (p0 : Z) (buf : list Z) (p : Z) (ps : list Z) : Prop :=
  Zlen buf = Zlen b0 /\ 0 <= p0 <= p /\ p < Zlen buf /\
  (forall i, 0 <= i < p0 \/ p < i < Zlen b0 -> znth buf i = znth b0 i) /\
  Forall byte (firstn (Z.to_nat (p - p0)) (skipn (Z.to_nat p0) buf)) /\
  cur_ok (znth buf p) = true /\
  bps (firstn (Z.to_nat (p - p0)) (skipn (Z.to_nat p0) buf)) ++ filled (znth buf p) = ps.

Lemma est_pos b0 p0 buf p ps : est b0 p0 buf p ps ->
  p - p0 = Zlen ps / 4.
Proof.
  intros (L & P & Q & _ & _ & C & E). destruct (filled_len _ C) as [FL LB].
  rewrite <- E, Zlen_app, bps_len, FL, Zlen_firstn, Zlen_skipn.
  replace (Z.min (Z.of_nat (Z.to_nat (p - p0))) (Z.max 0 (Zlen buf - Z.of_nat (Z.to_nat p0)))) with (p - p0) by lia.
  Z.div_mod_to_equations. lia.
Qed.

Lemma firstn_snoc_z (l : list Z) (n : Z) : 0 <= n < Zlen l ->
  firstn (Z.to_nat (n + 1)) l = firstn (Z.to_nat n) l ++ [znth l n].
Proof.
  intros H. apply zlist_ext.
  - rewrite Zlen_app, !Zlen_firstn. change (Zlen [znth l n]) with 1. lia.
  - intros i Hi. rewrite Zlen_firstn in Hi.
    rewrite znth_firstn by lia. rewrite znth_app by lia. rewrite Zlen_firstn.
    destruct (Z.eq_dec i n) as [-> |].
    + replace (n <? Z.min (Z.of_nat (Z.to_nat n)) (Zlen l)) with false by lia.
      replace (n - Z.min (Z.of_nat (Z.to_nat n)) (Zlen l)) with 0 by lia. reflexivity.
    + replace (i <? Z.min (Z.of_nat (Z.to_nat n)) (Zlen l)) with true by lia.
      rewrite znth_firstn by lia. reflexivity.
Qed.

Lemma seg_eq (b b' : list Z) p0 n : 0 <= p0 -> 0 <= n -> Zlen b = Zlen b' ->
  (forall i, p0 <= i < p0 + n -> znth b i = znth b' i) ->
  firstn (Z.to_nat n) (skipn (Z.to_nat p0) b) = firstn (Z.to_nat n) (skipn (Z.to_nat p0) b').
Proof.
  intros P N L H. apply zlist_ext.
  - rewrite !Zlen_firstn, !Zlen_skipn. lia.
  - intros i Hi. rewrite Zlen_firstn, Zlen_skipn in Hi.
    rewrite !znth_firstn by lia. rewrite !znth_skipn by lia. apply H. lia.
Qed.

Lemma append_bit_ok b0 p0 buf p ps b : est b0 p0 buf p ps ->
  Zlen (ps ++ enc b) < 4 * (Zlen buf - p0) ->
  exists buf' p', append_bit buf p b = Some (buf', p') /\ est b0 p0 buf' p' (ps ++ enc b).
Proof.
  intros E SZ. pose proof (est_pos _ _ _ _ _ E) as EP.
  destruct E as (L & P & Q & LO & FB & C & E).
  unfold append_bit. rewrite rd_some by lia. cbn [bind].
  pose proof (enc_byte_ok _ b C) as K. destruct (enc_byte (znth buf p) b) as [c' [v|]].
  - destruct K as (K1 & K2 & K3).
    unfold wr. destruct (blit_ok buf p [c'] ltac:(lia)) as [b1 B1]; [change (Zlen [c']) with 1; lia|].
    rewrite B1. cbn [bind]. apply blit_inv in B1. change (Zlen [c']) with 1 in B1. destruct B1 as (_ & _ & L1 & Z1).
    assert (PE : p + 1 < Zlen buf).
    { apply f_equal with (f := fun l => Zlen l) in K3. cbn beta in K3.
      rewrite !Zlen_app in K3. change (Zlen (bp c')) with 4 in K3. pose proof (Zlen_nonneg (filled v)).
      rewrite <- E, !Zlen_app, bps_len, Zlen_firstn, Zlen_skipn in SZ. lia. }
    destruct (blit_ok b1 (p + 1) [v] ltac:(lia)) as [b2 B2]; [change (Zlen [v]) with 1; lia|].
    rewrite B2. cbn [bind]. apply blit_inv in B2. change (Zlen [v]) with 1 in B2. destruct B2 as (_ & _ & L2 & Z2).
    eexists _, _. split; [reflexivity|].
    assert (SEG : firstn (Z.to_nat (p + 1 - p0)) (skipn (Z.to_nat p0) b2)
                  = firstn (Z.to_nat (p - p0)) (skipn (Z.to_nat p0) buf) ++ [c']).
    { replace (p + 1 - p0) with (p - p0 + 1) by lia. rewrite firstn_snoc_z.
      2:{ rewrite Zlen_skipn. lia. }
      f_equal.
      - apply seg_eq; try lia. intros i Hi. rewrite Z2 by lia.
        replace ((p + 1 <=? i) && (i <? p + 1 + 1)) with false by lia.
        rewrite Z1 by lia. replace ((p <=? i) && (i <? p + 1)) with false by lia. reflexivity.
      - f_equal. rewrite znth_skipn by lia. replace (Z.of_nat (Z.to_nat p0) + (p - p0)) with p by lia.
        rewrite Z2 by lia. replace ((p + 1 <=? p) && (p <? p + 1 + 1)) with false by lia.
        rewrite Z1 by lia. replace ((p <=? p) && (p <? p + 1)) with true by lia.
        replace (p - p) with 0 by lia. reflexivity. }
    assert (CUR : znth b2 (p + 1) = v).
    { rewrite Z2 by lia. replace ((p + 1 <=? p + 1) && (p + 1 <? p + 1 + 1)) with true by lia.
      replace (p + 1 - (p + 1)) with 0 by lia. reflexivity. }
    unfold est. rewrite SEG, CUR. repeat split; try lia.
    + intros i Hi. rewrite Z2 by lia. replace ((p + 1 <=? i) && (i <? p + 1 + 1)) with false by lia.
      rewrite Z1 by lia. replace ((p <=? i) && (i <? p + 1)) with false by lia. apply LO. lia.
    + apply Forall_app. split; [exact FB|]. constructor; [exact K2|constructor].
    + rewrite bps_app, <- E, <- !app_assoc, <- K3. reflexivity.
  - destruct K as (K1 & K2).
    unfold wr. destruct (blit_ok buf p [c'] ltac:(lia)) as [b1 B1]; [change (Zlen [c']) with 1; lia|].
    rewrite B1. cbn [bind]. apply blit_inv in B1. change (Zlen [c']) with 1 in B1. destruct B1 as (_ & _ & L1 & Z1).
    eexists _, _. split; [reflexivity|].
    assert (SEG : firstn (Z.to_nat (p - p0)) (skipn (Z.to_nat p0) b1)
                  = firstn (Z.to_nat (p - p0)) (skipn (Z.to_nat p0) buf)).
    { apply seg_eq; try lia. intros i Hi. rewrite Z1 by lia.
      replace ((p <=? i) && (i <? p + 1)) with false by lia. reflexivity. }
    assert (CUR : znth b1 p = c').
    { rewrite Z1 by lia. replace ((p <=? p) && (p <? p + 1)) with true by lia.
      replace (p - p) with 0 by lia. reflexivity. }
    unfold est. rewrite SEG, CUR. repeat split; try lia.
    + intros i Hi. rewrite Z1 by lia. replace ((p <=? i) && (i <? p + 1)) with false by lia. apply LO. lia.
    + exact FB.
    + rewrite K2, app_assoc, E. reflexivity.
Qed.

Lemma append_bits_ok b0 p0 bs : forall buf p ps, est b0 p0 buf p ps ->
  Zlen (ps ++ encs bs) < 4 * (Zlen buf - p0) ->
  exists buf' p', append_bits buf p bs = Some (buf', p') /\ est b0 p0 buf' p' (ps ++ encs bs).
Proof.
  induction bs as [|b bs IH]; intros buf p ps E SZ; cbn [append_bits].
  - eexists _, _. split; [reflexivity|]. cbn [encs flat_map]. rewrite app_nil_r. exact E.
  - cbn [encs flat_map] in *. change (flat_map enc bs) with (encs bs) in *.
    rewrite app_assoc in SZ. pose proof (Zlen_nonneg (encs bs)).
    destruct (append_bit_ok b0 p0 buf p ps b E) as (b1 & p1 & -> & E1).
    { rewrite Zlen_app in SZ. lia. }
    cbn [bind]. destruct (IH b1 p1 (ps ++ enc b) E1) as (b2 & p2 & -> & E2).
    { destruct E as (LE & _). destruct E1 as (LE1 & _). lia. }
    eexists _, _. split; [reflexivity|]. rewrite <- app_assoc in E2. exact E2.
Qed.

(** ** Bytes with parity *)

Definition bl_eqb (a b : list bool) : bool := if list_eq_dec bool_dec a b then true else false.
Lemma byte_ep_all : below 256 (fun b => bl_eqb (byte_ep b) (with_parity b)) = true.
Proof. vm_compute. reflexivity. Qed.
Lemma byte_ep_eq b : byte b -> byte_ep b = with_parity b.
Proof.
  intros H. pose proof (below_spec _ _ byte_ep_all b H) as K. cbn beta in K.
  unfold bl_eqb in K. destruct (list_eq_dec bool_dec (byte_ep b) (with_parity b)); [auto|discriminate].
Qed.

Definition ones (bs : list bool) : Z := Zlen (filter (fun x => x) bs).
Lemma encs_len bs : Zlen (encs bs) = 2 * Zlen bs + ones bs.
Proof.
  induction bs as [|b bs IH]; [reflexivity|]. cbn [encs flat_map]. change (flat_map enc bs) with (encs bs).
  rewrite Zlen_app, IH, Zlen_cons. unfold ones. destruct b; cbn [filter enc].
  - change (Zlen [3; 2; 0]) with 3. rewrite Zlen_cons. lia.
  - change (Zlen [3; 0]) with 2. lia.
Qed.
Lemma wp_len_all : below 256 (fun b => (18 <=? Zlen (encs (with_parity b))) && (Zlen (encs (with_parity b)) <=? 26)) = true.
Proof. vm_compute. reflexivity. Qed.
Lemma wp_len b : byte b -> 18 <= Zlen (encs (with_parity b)) <= 26.
Proof. intros H. pose proof (below_spec _ _ wp_len_all b H) as K. cbn beta in K. lia. Qed.

(** Bit pairs in a whole message. *)
Lemma line_len hc1 hc2 addr cmd ext :
  byte hc1 -> byte hc2 -> byte addr -> byte cmd -> byte ext ->
  141 <= Zlen (encs (line hc1 hc2 addr cmd ext)) <= 189 /\
  (addr = 0 -> Zlen (encs (line hc1 hc2 addr cmd ext)) <= 181).
Proof.
  intros H1 H2 H3 H4 H5.
  assert (BS : byte (msg_sum hc1 hc2 addr cmd ext)) by apply u8_byte.
  pose proof (wp_len _ H1). pose proof (wp_len _ H2). pose proof (wp_len _ H3).
  pose proof (wp_len _ H4). pose proof (wp_len _ H5). pose proof (wp_len _ BS).
  unfold line, body. rewrite !encs_app. cbn [flat_map]. rewrite !encs_app, !Zlen_app.
  change (Zlen (encs (repeat false 12))) with 24. change (Zlen (encs [true])) with 3.
  change (Zlen (encs [false])) with 2. change (Zlen (encs [false; false])) with 4.
  change (Zlen (encs [])) with 0.
  split; [lia|]. intros ->. change (Zlen (encs (with_parity 0))) with 18 in *. lia.
Qed.

Definition addr_of (adr : bool) (m : msg) : Z := if adr then m_address m else 0.
Definition msg_ok (m : msg) : Prop :=
  byte (m_hc1 m) /\ byte (m_hc2 m) /\ byte (m_address m) /\ byte (m_command m) /\ byte (m_extension m).
Definition msg_line (adr : bool) (m : msg) : list bool :=
  line (m_hc1 m) (m_hc2 m) (addr_of adr m) (m_command m) (m_extension m).
Definition pairs_of (adr : bool) (m : msg) : list Z := encs (msg_line adr m).

Lemma est_init b0 p0 : 0 <= p0 -> p0 + 7 <= Zlen b0 ->
  exists b7,
    (do b <- wr b0 p0 0xcc ; do b <- wr b (p0 + 1) 0xcc ; do b <- wr b (p0 + 2) 0xcc ;
     do b <- wr b (p0 + 3) 0xcc ; do b <- wr b (p0 + 4) 0xcc ; do b <- wr b (p0 + 5) 0xcc ;
     wr b (p0 + 6) 0xff) = Some b7 /\
    est b0 p0 b7 (p0 + 6) (encs (repeat false 12)).
Proof.
  intros P L.
  assert (W : forall b i v, Zlen b = Zlen b0 -> p0 <= i -> i < p0 + 7 ->
    exists b', wr b i v = Some b' /\ Zlen b' = Zlen b0 /\
      forall j, 0 <= j < Zlen b0 -> znth b' j = if j =? i then v else znth b j).
  { intros b i v Lb Hi Hi2. unfold wr. destruct (blit_ok b i [v] ltac:(lia)) as [b' B]; [change (Zlen [v]) with 1; lia|].
    exists b'. split; [exact B|]. apply blit_inv in B. change (Zlen [v]) with 1 in B. destruct B as (_ & _ & L' & Z').
    split; [lia|]. intros j Hj. rewrite Z' by lia.
    destruct (j =? i) eqn:E.
    - replace ((i <=? j) && (j <? i + 1)) with true by lia. replace (j - i) with 0 by lia. reflexivity.
    - replace ((i <=? j) && (j <? i + 1)) with false by lia. reflexivity. }
  destruct (W b0 p0 0xcc eq_refl ltac:(lia) ltac:(lia)) as (b1 & -> & L1 & Z1). cbn [bind].
  destruct (W b1 (p0 + 1) 0xcc L1 ltac:(lia) ltac:(lia)) as (b2 & -> & L2 & Z2). cbn [bind].
  destruct (W b2 (p0 + 2) 0xcc L2 ltac:(lia) ltac:(lia)) as (b3 & -> & L3 & Z3). cbn [bind].
  destruct (W b3 (p0 + 3) 0xcc L3 ltac:(lia) ltac:(lia)) as (b4 & -> & L4 & Z4). cbn [bind].
  destruct (W b4 (p0 + 4) 0xcc L4 ltac:(lia) ltac:(lia)) as (b5 & -> & L5 & Z5). cbn [bind].
  destruct (W b5 (p0 + 5) 0xcc L5 ltac:(lia) ltac:(lia)) as (b6 & -> & L6 & Z6). cbn [bind].
  destruct (W b6 (p0 + 6) 0xff L6 ltac:(lia) ltac:(lia)) as (b7 & -> & L7 & Z7).
  exists b7. split; [reflexivity|].
  assert (VAL : forall j, 0 <= j < Zlen b0 ->
     znth b7 j = if (p0 <=? j) && (j <? p0 + 6) then 0xcc else if j =? p0 + 6 then 0xff else znth b0 j).
  { intros j Hj. rewrite Z7, Z6, Z5, Z4, Z3, Z2, Z1 by lia.
    destruct (j =? p0 + 6) eqn:E6; [replace ((p0 <=? j) && (j <? p0 + 6)) with false by lia; reflexivity|].
    destruct ((p0 <=? j) && (j <? p0 + 6)) eqn:E.
    - destruct (j =? p0 + 5) eqn:?; [reflexivity|]. destruct (j =? p0 + 4) eqn:?; [reflexivity|].
      destruct (j =? p0 + 3) eqn:?; [reflexivity|]. destruct (j =? p0 + 2) eqn:?; [reflexivity|].
      destruct (j =? p0 + 1) eqn:?; [reflexivity|]. destruct (j =? p0) eqn:?; [reflexivity|]. lia.
    - replace (j =? p0 + 5) with false by lia. replace (j =? p0 + 4) with false by lia.
      replace (j =? p0 + 3) with false by lia. replace (j =? p0 + 2) with false by lia.
      replace (j =? p0 + 1) with false by lia. replace (j =? p0) with false by lia. reflexivity. }
  assert (SEG : firstn (Z.to_nat (p0 + 6 - p0)) (skipn (Z.to_nat p0) b7) = repeat 0xcc 6).
  { apply zlist_ext.
    - rewrite Zlen_firstn, Zlen_skipn, Zlen_repeat. lia.
    - intros i Hi. rewrite Zlen_firstn, Zlen_skipn in Hi.
      rewrite znth_firstn, znth_skipn by lia. rewrite VAL by lia.
      replace ((p0 <=? Z.of_nat (Z.to_nat p0) + i) && (Z.of_nat (Z.to_nat p0) + i <? p0 + 6)) with true by lia.
      rewrite znth_repeat by lia. reflexivity. }
  assert (CUR : znth b7 (p0 + 6) = 255).
  { rewrite VAL by lia. replace ((p0 <=? p0 + 6) && (p0 + 6 <? p0 + 6)) with false by lia.
    rewrite Z.eqb_refl. reflexivity. }
  unfold est. rewrite SEG, CUR. repeat split; try lia.
  - intros i Hi. rewrite VAL by lia. replace ((p0 <=? i) && (i <? p0 + 6)) with false by lia.
    replace (i =? p0 + 6) with false by lia. reflexivity.
  - cbn [repeat]. repeat (constructor; [unfold byte; lia|]). constructor.
Qed.

Lemma create_eq adr b0 p0 m : msg_ok m ->
  create adr b0 p0 m =
  (do b7 <- (do b <- wr b0 p0 0xcc ; do b <- wr b (p0 + 1) 0xcc ; do b <- wr b (p0 + 2) 0xcc ;
     do b <- wr b (p0 + 3) 0xcc ; do b <- wr b (p0 + 4) 0xcc ; do b <- wr b (p0 + 5) 0xcc ;
     wr b (p0 + 6) 0xff) ;
   do (b, q) <- append_bits b7 (p0 + 6) (skipn 12 (msg_line adr m)) ;
   do b <- wr b q 0xff ; Some (b, q)).
Proof.
  intros (H1 & H2 & H3 & H4 & H5).
  assert (APP : forall bs cs buf p, append_bits buf p (bs ++ cs) =
     (do (b, q) <- append_bits buf p bs ; append_bits b q cs)).
  { induction bs as [|b bs IH]; intros cs buf p; [reflexivity|]. cbn [app append_bits].
    destruct (append_bit buf p b) as [[b1 p1]|]; [|reflexivity]. cbn [bind]. apply IH. }
  assert (ONE : forall b buf p, append_bit buf p b = append_bits buf p [b]).
  { intros b buf p. cbn [append_bits]. destruct (append_bit buf p b) as [[b1 p1]|]; reflexivity. }
  assert (BB : forall (A B C : Type) (x : option A) (f : A -> option B) (g : B -> option C),
     bind (bind x f) g = bind x (fun y => bind (f y) g)).
  { intros. destruct x; reflexivity. }
  assert (A3 : byte (addr_of adr m)) by (unfold addr_of; destruct adr; [assumption|unfold byte; lia]).
  assert (CK : checksum m (addr_of adr m) = msg_sum (m_hc1 m) (m_hc2 m) (addr_of adr m) (m_command m) (m_extension m)) by reflexivity.
  unfold create. rewrite !BB.
  destruct (wr b0 p0 0xcc) as [b1|]; [cbn [bind]|reflexivity]. rewrite ?BB.
  destruct (wr b1 (p0 + 1) 0xcc) as [b2|]; [cbn [bind]|reflexivity]. rewrite ?BB.
  destruct (wr b2 (p0 + 2) 0xcc) as [b3|]; [cbn [bind]|reflexivity]. rewrite ?BB.
  destruct (wr b3 (p0 + 3) 0xcc) as [b4|]; [cbn [bind]|reflexivity]. rewrite ?BB.
  destruct (wr b4 (p0 + 4) 0xcc) as [b5|]; [cbn [bind]|reflexivity]. rewrite ?BB.
  destruct (wr b5 (p0 + 5) 0xcc) as [b6|]; [cbn [bind]|reflexivity]. rewrite ?BB.
  destruct (wr b6 (p0 + 6) 0xff) as [b7|]; [cbn [bind]|reflexivity].
  unfold msg_line, line, body.
  change (skipn 12 (repeat false 12 ++ ?x)) with x.
  cbn [flat_map]. rewrite app_nil_r.
  change (if adr then m_address m else 0) with (addr_of adr m). cbv zeta.
  rewrite CK. set (ck := msg_sum _ _ _ _ _).
  assert (byte ck) by apply u8_byte.
  change ([false] ++ [false; false]) with ([false] ++ [false] ++ [false]).
  rewrite <- !app_assoc.
  repeat rewrite APP. rewrite <- !ONE.
  unfold append_byte_ep. rewrite !byte_ep_eq by assumption.
  destruct (append_bit b7 (p0 + 6) true) as [[c1 q1]|]; [cbn [bind]|reflexivity].
  rewrite APP. destruct (append_bits c1 q1 _) as [[c2 q2]|]; [cbn [bind]|reflexivity].
  rewrite APP. destruct (append_bits c2 q2 _) as [[c3 q3]|]; [cbn [bind]|reflexivity].
  rewrite APP. destruct (append_bits c3 q3 _) as [[c4 q4]|]; [cbn [bind]|reflexivity].
  rewrite APP. destruct (append_bits c4 q4 _) as [[c5 q5]|]; [cbn [bind]|reflexivity].
  rewrite APP. destruct (append_bits c5 q5 _) as [[c6 q6]|]; [cbn [bind]|reflexivity].
  rewrite APP. destruct (append_bits c6 q6 _) as [[c7 q7]|]; [cbn [bind]|reflexivity].
  cbn [append_bits app].
  destruct (append_bit c7 q7 false) as [[c8 q8]|]; [cbn [bind]|reflexivity].
  destruct (append_bit c8 q8 false) as [[c9 q9]|]; [cbn [bind]|reflexivity].
  destruct (append_bit c9 q9 false) as [[c10 q10]|]; [cbn [bind]|reflexivity]. reflexivity.
Qed.

(** No run of six 1s, let alone eight, occurs in the line code. *)
Fixpoint no33 (l : list Z) : bool :=
  match l with
  | a :: (b :: _) as t => negb ((a =? 3) && (b =? 3)) && no33 t
  | _ => true
  end.
Lemma no33_encs bs : no33 (encs bs) = true.
Proof.
  induction bs as [|b bs IH]; [reflexivity|]. cbn [encs flat_map]. change (flat_map enc bs) with (encs bs).
  destruct b; cbn [enc app no33]; destruct (encs bs) as [|x t]; cbn in *; auto.
Qed.
Lemma no33_firstn n : forall l, no33 l = true -> no33 (firstn n l) = true.
Proof.
  induction n as [|n IH]; intros l H; [reflexivity|]. destruct l as [|a [|b t]]; try (destruct n; reflexivity).
  rewrite firstn_cons. destruct n; [reflexivity|].
  change (negb ((a =? 3) && (b =? 3)) && no33 (b :: t) = true) in H.
  apply andb_prop in H. destruct H as [H1 H2]. specialize (IH _ H2). rewrite firstn_cons in *.
  change (negb ((a =? 3) && (b =? 3)) && no33 (b :: firstn n t) = true). rewrite H1. exact IH.
Qed.
Lemma no33_bytes l : no33 (bps l) = true -> Forall (fun b => b <> 255) l.
Proof.
  induction l as [|a l IH]; [constructor|]. cbn [bps flat_map]. change (flat_map bp l) with (bps l).
  intros H. constructor.
  - intros ->. cbn in H. discriminate H.
  - apply IH. cbn [bp app no33] in H. repeat (apply andb_prop in H; destruct H as [_ H]).
    destruct (bps l) as [|x t]; [reflexivity|]. apply andb_prop in H. apply H.
Qed.

(** C45 (encoding).  For every command, given room (see below), the encoder writes at its pointer
    a stream of bytes, none of them 0xff, followed by 0xff at the pointer it returns; the stream is
    the line code of the message (padding cut to whole bytes), and no other byte of the buffer
    changes. *)
Theorem fht_encode adr b0 p0 m : msg_ok m -> 0 <= p0 ->
  Zlen (pairs_of adr m) < 4 * (Zlen b0 - p0) ->
  exists buf' q stream,
    create adr b0 p0 m = Some (buf', q) /\
    Zlen buf' = Zlen b0 /\ q = p0 + Zlen stream /\
    stream = firstn (Z.to_nat (Zlen stream)) (skipn (Z.to_nat p0) buf') /\
    Forall byte stream /\ Forall (fun b => b <> 255) stream /\ znth buf' q = 255 /\
    (forall i, 0 <= i < p0 \/ q < i < Zlen b0 -> znth buf' i = znth b0 i) /\
    Zlen stream = Zlen (pairs_of adr m) / 4 /\
    bps stream = firstn (Z.to_nat (4 * Zlen stream)) (pairs_of adr m).
Proof.
  intros H P SZ. rewrite create_eq by exact H.
  destruct H as (H1 & H2 & H3 & H4 & H5).
  assert (A3 : byte (addr_of adr m)) by (unfold addr_of; destruct adr; [assumption|unfold byte; lia]).
  pose proof (line_len _ _ _ _ _ H1 H2 A3 H4 H5) as [LL _]. fold (msg_line adr m) in LL. fold (pairs_of adr m) in LL.
  destruct (est_init b0 p0 P ltac:(lia)) as (b7 & -> & E7). cbn [bind].
  assert (SPL : encs (repeat false 12) ++ encs (skipn 12 (msg_line adr m)) = pairs_of adr m).
  { rewrite <- encs_app. reflexivity. }
  assert (L7 : Zlen b7 = Zlen b0) by apply E7.
  destruct (append_bits_ok b0 p0 (skipn 12 (msg_line adr m)) b7 (p0 + 6) _ E7) as (b8 & q & -> & E8).
  { rewrite SPL. lia. }
  rewrite SPL in E8. cbn [bind].
  pose proof (est_pos _ _ _ _ _ E8) as EP.
  destruct E8 as (L8 & P8 & Q8 & LO & FB & C & E).
  unfold wr. destruct (blit_ok b8 q [255] ltac:(lia)) as [b9 B9]; [change (Zlen [255]) with 1; lia|].
  rewrite B9. cbn [bind]. apply blit_inv in B9. change (Zlen [255]) with 1 in B9. destruct B9 as (_ & _ & L9 & Z9).
  set (stream := firstn (Z.to_nat (q - p0)) (skipn (Z.to_nat p0) b8)) in *.
  assert (LS : Zlen stream = q - p0) by (unfold stream; rewrite Zlen_firstn, Zlen_skipn; lia).
  assert (BP : bps stream = firstn (Z.to_nat (4 * Zlen stream)) (pairs_of adr m)).
  { rewrite <- E. rewrite firstn_app.
    assert (LB : length (bps stream) = Z.to_nat (4 * Zlen stream)).
    { pose proof (bps_len stream) as X. unfold Zlen in *. lia. }
    rewrite <- LB, firstn_all, Nat.sub_diag. cbn [firstn]. rewrite app_nil_r. reflexivity. }
  exists b9, q, stream. split; [reflexivity|]. split; [lia|]. split; [lia|]. split.
  { rewrite LS. unfold stream. apply seg_eq; try lia. intros i Hi. rewrite Z9 by lia.
    replace ((q <=? i) && (i <? q + 1)) with false by lia. reflexivity. }
  split; [exact FB|]. split.
  { apply no33_bytes. rewrite BP. apply no33_firstn. apply no33_encs. }
  split.
  { rewrite Z9 by lia. replace ((q <=? q) && (q <? q + 1)) with true by lia. replace (q - q) with 0 by lia. reflexivity. }
  split.
  { intros i Hi. rewrite Z9 by lia. replace ((q <=? i) && (i <? q + 1)) with false by lia. apply LO. lia. }
  split; [lia|exact BP].
Qed.

(** The documented room (46 bytes from the pointer) is enough for every message without an
    address byte, and the stream is 35 to 45 bytes long as documented. *)
Theorem fht_encode_fits (b0 : list Z) p0 m : msg_ok m -> 46 <= Zlen b0 - p0 ->
  Zlen (pairs_of false m) < 4 * (Zlen b0 - p0) /\ 35 <= Zlen (pairs_of false m) / 4 <= 45.
Proof.
  intros (H1 & H2 & H3 & H4 & H5) SZ.
  pose proof (line_len (m_hc1 m) (m_hc2 m) 0 (m_command m) (m_extension m) H1 H2 ltac:(unfold byte; lia) H4 H5) as [L1 L2].
  specialize (L2 eq_refl). fold (msg_line false m) in L1, L2.
  change (encs (line (m_hc1 m) (m_hc2 m) 0 (m_command m) (m_extension m))) with (pairs_of false m) in L1, L2.
  split; [lia|]. Z.div_mod_to_equations. lia.
Qed.

(** In the build that sends an address byte the documented room is not enough: 46 bytes are
    overrun by the message of all-0xff bytes that the documentation gives as the longest. *)
Theorem fht_encode_addr_overrun_refuted :
  msg_ok (Msg 255 255 255 255 255) /\ create true (repeat 0 46) 0 (Msg 255 255 255 255 255) = None.
Proof. split; [unfold msg_ok, byte; cbn; lia|vm_compute; reflexivity]. Qed.

Example fht_encode_example :
  exists b q, create false (repeat 0 46) 0 (Msg 13 73 0 0x26 255) = Some (b, q) /\ q = 41 /\ znth b 6 = 0xe3.
Proof. eexists _, _. split; [vm_compute; reflexivity|]. split; reflexivity. Qed.
