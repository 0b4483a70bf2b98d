(** OTV0P2BASE_SoftSerial.{h,cpp}: the older blocking software UART (used by
    the RN2483 link), and C142 about it.  Timing as in SoftModel. *)
From Verif Require Import Base SoftModel SoftProps.

(** SoftSerial.h 68: timeOut, in polls. *)
Definition OLD_TIMEOUT : Z := 30000.

(** SoftSerial.cpp 55-66: begin(); the delay counts are uint8_t, bitCycles
    uint16_t; readTuning = 22, writeTuning = 27 (SoftSerial.h 71-72). *)
Definition old_bitCycles (fcpu baud : Z) : Z := u16 (fcpu / 4 / baud).
Definition old_halfDelay (fcpu baud : Z) : Z := u8 (old_bitCycles fcpu baud / 2 - 22).
Definition old_fullDelay (fcpu baud : Z) : Z := u8 (old_bitCycles fcpu baud).
(** SoftSerial.cpp 84 and 161. *)
Definition old_readDelay (fcpu baud : Z) : Z := u8 (old_fullDelay fcpu baud - 22).
Definition old_writeDelay (fcpu baud : Z) : Z := u8 (old_fullDelay fcpu baud - 27).

(** SoftSerial.cpp 77-106: read() of one byte: 0 on time-out. *)
Definition old_read1 (p : SoftRx) (line : Z -> bool) (t : Z) : Z :=
  match soft_read_f (Z.to_nat OLD_TIMEOUT) p line t with
  | None => 0
  | Some (v, _) => v
  end.

(** SoftSerial.cpp 116-153: read(buf, len), [n] bytes still wanted, the next
    going to buf[count]; [gap] is the loop overhead between bytes.  Result:
    buffer and count returned; None = write outside the buffer. *)
Fixpoint old_read (n : nat) (p : SoftRx) (line : Z -> bool) (gap t : Z)
  (buf : list Z) (count : Z) : option (list Z * Z) :=
  match n with
  | O => Some (buf, count)
  | S n =>
    match soft_wait (Z.to_nat OLD_TIMEOUT) (sr_poll p) line true t with
    | None => Some (buf, count)
    | Some t1 =>
      let (val, t2) := soft_sample 8 0 (sr_step p) line (t1 + sr_half p) 0 in
      do buf' <- wr buf count val ;
      let count' := u8 (count + 1) in
      match soft_wait (Z.to_nat OLD_TIMEOUT) (sr_poll p) line false t2 with
      | None => Some (buf', count')
      | Some t3 => old_read n p line gap (t3 + gap) buf' count'
      end
    end
  end.

(** SoftSerial.cpp 159-182: print(char) drives the same levels as the newer
    port's write: start bit low, mask 1, 2, .. 128, stop bit. *)
Definition old_print (c : Z) : list bool := soft_write c.

(** SoftSerial.cpp 189-195: write(buf, len). *)
Definition old_write (buf : list Z) (len : Z) : option (list (list bool)) :=
  do l <- sub buf 0 len ; Some (map old_print l).

(** ** Proofs *)

Lemma old_timeout_nat : exists F : nat, Z.to_nat OLD_TIMEOUT = F /\ Z.of_nat F = 30000.
Proof. exists (Z.to_nat OLD_TIMEOUT). split; [reflexivity|]. apply Z2Nat.id. discriminate. Qed.

Lemma soft_wait_idle L lvl q (Hq : 0 <= q) : forall fuel t,
  (forall t', t <= t' -> L t' = lvl) -> soft_wait fuel q L lvl t = None.
Proof.
  induction fuel; intros t H; cbn [soft_wait]; [reflexivity|].
  rewrite (H t) by lia. rewrite eqb_reflx. apply IHfuel. intros; apply H; lia.
Qed.

Lemma wr_eq buf i v : 0 <= i < Zlen buf ->
  wr buf i v = Some (firstn (Z.to_nat i) buf ++ [v] ++ skipn (Z.to_nat (i + 1)) buf).
Proof.
  intros H. change (wr buf i v) with (blit buf i [v]). rewrite blit_some by (unfold Zlen in *; cbn [length]; lia).
  reflexivity.
Qed.

Lemma wr_mid pre x rest v : wr (pre ++ x :: rest) (Zlen pre) v = Some (pre ++ v :: rest).
Proof.
  rewrite wr_eq by (rewrite Zlen_app, Zlen_cons; pose proof (Zlen_nonneg pre);
    pose proof (Zlen_nonneg rest); lia).
  f_equal. unfold Zlen. rewrite Nat2Z.id.
  replace (Z.to_nat (Z.of_nat (length pre) + 1)) with (length pre + 1)%nat by lia.
  rewrite firstn_app, Nat.sub_diag, firstn_all. cbn [firstn]. rewrite app_nil_r.
  f_equal. rewrite skipn_app, skipn_all2 by lia.
  replace (length pre + 1 - length pre)%nat with 1%nat by lia. reflexivity.
Qed.

(** The whole message, up to the room in the buffer, whatever the timing
    inside the tolerance. *)
Lemma old_read_ok p T gap L :
  timing_ok p T -> 0 < T -> 0 <= gap -> sr_poll p + gap <= T ->
  forall (bs : list (Z * Z)) (t0 s : Z) (n : nat) pre rest,
    Forall (fun ib => byte (snd ib) /\ 0 <= fst ib /\
                      fst ib + 2 * T <= 29999 * sr_poll p) bs ->
    t0 <= s -> s - t0 <= 2 * T -> (forall t, t0 <= t < s -> L t = true) ->
    carries L T s bs ->
    (n <= length rest)%nat -> Zlen (pre ++ rest) <= 255 ->
    old_read n p L gap t0 (pre ++ rest) (Zlen pre) =
      Some (pre ++ firstn n (map snd bs) ++ skipn (Nat.min n (length bs)) rest,
            Zlen pre + Z.of_nat (Nat.min n (length bs))).
Proof.
  intros Htim HT Hg Hpg bs.
  assert (Hq : 0 < sr_poll p) by (destruct Htim; assumption).
  induction bs as [|[idle b] bs IH]; intros t0 s n pre rest Hf Hle Hlate Hidle Hc Hn H255.
  - cbn [carries] in Hc. cbn [map length]. rewrite firstn_nil, Nat.min_0_r.
    cbn [skipn app Z.of_nat]. rewrite Z.add_0_r.
    destruct n; cbn [old_read]; [reflexivity|].
    rewrite soft_wait_idle; [reflexivity | lia |].
    intros t' Ht'. destruct (Z.ltb_spec t' s); [apply Hidle | apply Hc]; lia.
  - destruct n as [|n].
    { cbn. rewrite Z.add_0_r. reflexivity. }
    apply Forall_cons_iff in Hf. destruct Hf as [(Hb & Hi & Hto) Hf].
    cbn [fst snd] in *. cbn [carries] in Hc. destruct Hc as (Hi' & Hhigh & Hfr & Hc).
    destruct rest as [|x rest]; [cbn in Hn; lia|]. cbn [length] in Hn.
    destruct old_timeout_nat as (F & EF & HF).
    destruct (soft_read_one_f F p L T t0 (s + idle) b) as (t3 & E & R & Hend);
      [assumption | assumption | assumption | lia | lia | lia
       | replace (Z.of_nat F - 1) with 29999 by lia; lia
       | replace (Z.of_nat F - 1) with 29999 by lia; lia | | assumption |].
    { intros t Ht. destruct (Z.ltb_spec t s); [apply Hidle | apply Hhigh]; lia. }
    cbn [old_read]. rewrite EF. unfold soft_read_f in E.
    destruct (soft_wait F (sr_poll p) L true t0) as [t1|]; [|discriminate].
    destruct (soft_sample 8 0 (sr_step p) L (t1 + sr_half p) 0) as [v t2].
    destruct (soft_wait F (sr_poll p) L false t2) as [t3'|]; [|discriminate].
    apply some_pair_inj in E. destruct E as [-> ->].
    rewrite wr_mid. cbn [bind].
    pose proof (Zlen_nonneg pre) as Hp0. pose proof (Zlen_nonneg rest) as Hr0.
    rewrite Zlen_app, Zlen_cons in H255.
    rewrite u8_id by (red; lia).
    replace (pre ++ b :: rest) with ((pre ++ [b]) ++ rest) by (rewrite <- app_assoc; reflexivity).
    replace (Zlen pre + 1) with (Zlen (pre ++ [b])) by (rewrite Zlen_app; reflexivity).
    rewrite (IH (t3 + gap) (s + idle + 10 * T)); [| assumption | lia | lia | | assumption | lia |].
    + rewrite Zlen_app. change (Zlen [b]) with 1.
      cbn [map snd firstn length Nat.min skipn]. f_equal. f_equal; [|lia].
      rewrite <- app_assoc. reflexivity.
    + intros t Ht. apply Hend. lia.
    + rewrite !Zlen_app. change (Zlen [b]) with 1. lia.
Qed.

(** C142.  Whatever message arrives (any bytes, any gaps within the
    time-out), whatever the timing inside the tolerance, read(buf, len)
    stores its first len bytes in order at the start of the buffer, leaves
    the rest of the buffer alone and returns their number. *)
Theorem old_serial_delivers :
  forall (p : SoftRx) (T gap : Z) (L : Z -> bool) (bs : list (Z * Z)) (t0 s : Z)
         (len : nat) (buf : list Z),
    timing_ok p T -> 0 < T -> 0 <= gap -> sr_poll p + gap <= T ->
    Forall (fun ib => byte (snd ib) /\ 0 <= fst ib /\
                      fst ib + 2 * T <= 29999 * sr_poll p) bs ->
    t0 <= s -> s - t0 <= 2 * T -> (forall t, t0 <= t < s -> L t = true) ->
    carries L T s bs ->
    (len <= length buf)%nat -> Zlen buf <= 255 ->
    let k := Nat.min len (length bs) in
    old_read len p L gap t0 buf 0 = Some (firstn k (map snd bs) ++ skipn k buf, Z.of_nat k).
Proof.
  intros p T gap L bs t0 s len buf H1 H2 H3 H4 H5 H6 H7 H8 H9 H10 H11 k.
  pose proof (old_read_ok p T gap L H1 H2 H3 H4 bs t0 s len [] buf H5 H6 H7 H8 H9 H10 H11) as E.
  cbn [app] in E. change (Zlen (@nil Z)) with 0 in E. rewrite E. fold k. f_equal. f_equal. f_equal.
  unfold k. rewrite <- (map_length snd bs). destruct (Nat.min_spec len (length (map snd bs))) as [[Hm ->] | [Hm ->]].
  - reflexivity.
  - rewrite firstn_all. apply firstn_all2. lia.
Qed.

(** And whatever is on the line (noise, a stuck line, another speed) it stays
    inside the buffer and returns a count of bytes it really stored. *)
Theorem old_serial_safe :
  forall (p : SoftRx) (gap t0 : Z) (L : Z -> bool) (len : nat) (buf : list Z),
    (len <= length buf)%nat -> Zlen buf <= 255 ->
    exists got c, old_read len p L gap t0 buf 0 = Some (got ++ skipn c buf, Z.of_nat c) /\
      length got = c /\ (c <= len)%nat /\ Forall byte got.
Proof.
  intros p gap t0 L len buf.
  assert (G : forall n t pre rest, (n <= length rest)%nat -> Zlen (pre ++ rest) <= 255 ->
    exists got c, old_read n p L gap t (pre ++ rest) (Zlen pre) =
        Some (pre ++ got ++ skipn c rest, Zlen pre + Z.of_nat c) /\
        length got = c /\ (c <= n)%nat /\ Forall byte got).
  { assert (HS : forall n i st t v, byte v -> byte (fst (soft_sample n i st L t v))).
    { induction n; intros; cbn [soft_sample]; [assumption|]. apply IHn. apply u8_byte. }
    induction n as [|n IH]; intros t pre rest Hn H255.
    - exists [], 0%nat. cbn. rewrite Z.add_0_r. auto.
    - cbn [old_read]. destruct (soft_wait _ _ _ true t) as [t1|].
      2:{ exists [], 0%nat. cbn. rewrite Z.add_0_r. repeat split; auto. lia. }
      pose proof (HS 8%nat 0 (sr_step p) (t1 + sr_half p) 0 ltac:(red; lia)) as Hv.
      destruct (soft_sample 8 0 (sr_step p) L (t1 + sr_half p) 0) as [v t2]. cbn [fst] in Hv.
      destruct rest as [|x rest]; [cbn in Hn; lia|]. cbn [length] in Hn.
      rewrite wr_mid. cbn [bind].
      pose proof (Zlen_nonneg pre) as Hp0. pose proof (Zlen_nonneg rest) as Hr0.
      rewrite Zlen_app, Zlen_cons in H255.
      rewrite u8_id by (red; lia).
      destruct (soft_wait _ _ _ false t2) as [t3|].
      2:{ exists [v], 1%nat. cbn [app skipn length]. repeat split; auto. lia. }
      replace (pre ++ v :: rest) with ((pre ++ [v]) ++ rest) by (rewrite <- app_assoc; reflexivity).
      replace (Zlen pre + 1) with (Zlen (pre ++ [v])) by (rewrite Zlen_app; reflexivity).
      destruct (IH (t3 + gap) (pre ++ [v]) rest) as (got & c & E & Hl & Hc & Hg).
      { lia. }
      { rewrite !Zlen_app. change (Zlen [v]) with 1. lia. }
      exists (v :: got), (S c). rewrite E. rewrite Zlen_app. change (Zlen [v]) with 1.
      cbn [skipn length]. split; [|split; [lia|split; [lia|auto]]].
      f_equal. f_equal; [rewrite <- app_assoc; reflexivity | lia]. }
  intros Hn H255. destruct (G len t0 [] buf Hn H255) as (got & c & E & H). exists got, c.
  split; [exact E | exact H].
Qed.

(** Case: 2400 baud at 1 MHz: bit time 416 cycles (104 loops of 4), half
    delay 30 loops, 82 loops per bit read; with overheads of 100 cycles
    before and 80 cycles between the samples the tolerance is met. *)
Example old_serial_case :
  old_halfDelay 1000000 2400 = 30 /\ old_readDelay 1000000 2400 = 82 /\
  old_writeDelay 1000000 2400 = 77 /\
  timing_ok (mkSoftRx (4 * 30 + 70) (4 * 82 + 88) 40) 416 /\
  exists L, carries L 416 0 [(100, 111); (0, 107)] /\
    old_read 16 (mkSoftRx 190 416 40) L 40 0 (repeat 0 16) 0 =
      Some (firstn 2 [111; 107] ++ repeat 0 14, 2).
Proof.
  split; [reflexivity|]. split; [reflexivity|]. split; [reflexivity|].
  split; [unfold timing_ok; cbn [sr_poll sr_half sr_step]; lia|].
  set (L := fun t : Z => if t <? 100 then true
              else nth (Z.to_nat ((t - 100) / 416)) (uart_frame 111 ++ uart_frame 107) true).
  exists L.
  assert (C : carries L 416 0 [(100, 111); (0, 107)]).
  { assert (HL : forall k t, 100 + Z.of_nat k * 416 <= t < 100 + (Z.of_nat k + 1) * 416 ->
         L t = nth k (uart_frame 111 ++ uart_frame 107) true).
    { intros k t Ht. unfold L. replace (t <? 100) with false by lia.
      f_equal. replace ((t - 100) / 416) with (Z.of_nat k); [apply Nat2Z.id|].
      apply (Z.div_unique _ _ _ (t - 100 - 416 * Z.of_nat k)); lia. }
    cbn [carries].
    split; [lia|]. split; [intros t Ht; unfold L; replace (t <? 100) with true by lia; reflexivity|].
    split.
    { intros k t Hk Ht. rewrite (HL k) by lia. apply app_nth1. cbn; lia. }
    split; [lia|]. split; [intros; lia|]. split.
    { intros k t Hk Ht. rewrite (HL (10 + k)%nat) by lia.
      rewrite app_nth2 by (cbn; lia). f_equal. cbn. lia. }
    intros t Ht. unfold L. replace (t <? 100) with false by lia.
    apply nth_overflow. cbn [length app uart_frame].
    apply Nat2Z.inj_le. rewrite Z2Nat.id by (apply Z.div_pos; lia).
    apply Z.div_le_lower_bound; lia. }
  split; [exact C|].
  rewrite (old_serial_delivers (mkSoftRx 190 416 40) 416 40 L [(100, 111); (0, 107)] 0 0 16 (repeat 0 16));
    [reflexivity | unfold timing_ok; cbn [sr_poll sr_half sr_step]; lia | lia | lia
     | cbn [sr_poll]; lia | | lia | lia | intros; lia | exact C | cbn; lia | ].
  - repeat (apply Forall_cons; [cbn [fst snd sr_poll]; unfold byte; lia|]). apply Forall_nil.
  - change (Zlen (repeat 0 16)) with 16. lia.
Qed.

(** The delay counts fit their bytes at 1 MHz exactly from 977 to 5555 baud
    (2400 is the default). *)
Theorem old_serial_delays_partial :
  forall baud, 977 <= baud <= 5555 ->
    let n := 1000000 / 4 / baud in
    old_halfDelay 1000000 baud = n / 2 - 22 /\ old_readDelay 1000000 baud = n - 22 /\
    old_writeDelay 1000000 baud = n - 27 /\ 0 <= n / 2 - 22.
Proof.
  intros baud H n.
  assert (Hn : 45 <= n <= 255).
  { unfold n. change (1000000 / 4) with 250000. split.
    - apply Z.div_le_lower_bound; lia.
    - enough (250000 / baud < 256) by lia. apply Z.div_lt_upper_bound; lia. }
  assert (H2 : 22 <= n / 2 <= 127).
  { split; [apply Z.div_le_lower_bound; lia | enough (n / 2 < 128) by lia; apply Z.div_lt_upper_bound; lia]. }
  unfold old_halfDelay, old_readDelay, old_writeDelay, old_fullDelay, old_bitCycles. fold n.
  rewrite u16_id by lia. rewrite (u8_id n) by (red; lia).
  rewrite !u8_id by (red; lia). lia.
Qed.

(** At 9600 baud (as begin() allows) the half-bit delay wraps round to ten
    bit times. *)
Theorem old_serial_fast_baud_refuted :
  old_halfDelay 1000000 9600 = 247 /\ 1000000 / 4 / 9600 = 26.
Proof. vm_compute. split; reflexivity. Qed.

(** The one-byte read() cannot tell a time-out from a received zero. *)
Theorem old_serial_timeout_told_refuted :
  forall (p : SoftRx) (T : Z) (L : Z -> bool) (idle : Z),
    timing_ok p T -> 0 < T -> sr_poll p <= T ->
    0 <= idle -> idle + T <= 29999 * sr_poll p -> carries L T 0 [(idle, 0)] ->
    old_read1 p L 0 = old_read1 p (fun _ => true) 0.
Proof.
  intros p T L idle Ht HT Hq Hi Hto Hc. cbn [carries] in Hc. destruct Hc as (_ & Hh & Hfr & _).
  unfold old_read1. destruct old_timeout_nat as (F & -> & HF).
  destruct (soft_read_one_f F p L T 0 (0 + idle) 0) as (t3 & E & _ & _);
    [red; lia | assumption | assumption | assumption | lia | lia
     | replace (Z.of_nat F - 1) with 29999 by lia; lia
     | replace (Z.of_nat F - 1) with 29999 by lia; lia | exact Hh | exact Hfr |].
  rewrite E. unfold soft_read_f. rewrite soft_wait_idle; [reflexivity | | reflexivity].
  destruct Ht as (Hp & _). lia.
Qed.

Print Assumptions old_serial_delivers.
Print Assumptions old_serial_safe.
