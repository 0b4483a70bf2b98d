(** C139: the blocking software UART delivers every byte sent, for any line
    timing inside the stated tolerance. *)
From Verif Require Import Base SoftModel.

(** ** Specification: what an 8N1 serial line looks like *)

(** Ten bit times: start (low), eight data bits least significant first,
    stop (high). *)
Definition uart_frame (b : Z) : list bool :=
  [false; Z.testbit b 0; Z.testbit b 1; Z.testbit b 2; Z.testbit b 3;
   Z.testbit b 4; Z.testbit b 5; Z.testbit b 6; Z.testbit b 7; true].

(** From time [s], line [L] carries the given bytes with bit time [T], each
    preceded by an idle (high) gap of at least the stated length [idle]. *)
Fixpoint carries (L : Z -> bool) (T s : Z) (bs : list (Z * Z)) : Prop :=
  match bs with
  | [] => forall t, s <= t -> L t = true
  | (idle, b) :: bs =>
      0 <= idle /\ (forall t, s <= t < s + idle -> L t = true) /\
      (forall k t, (k < 10)%nat ->
         s + idle + Z.of_nat k * T <= t < s + idle + (Z.of_nat k + 1) * T ->
         L t = nth k (uart_frame b) true) /\
      carries L T (s + idle + 10 * T) bs
  end.

(** Successive reads, each started [gap] cycles after the last returned. *)
Fixpoint soft_reads (p : SoftRx) (L : Z -> bool) (gap : Z) (t : Z) (n : nat) : list (option Z) :=
  match n with
  | O => []
  | S n =>
    match soft_read p L t with
    | None => [None]
    | Some (v, t') => Some v :: soft_reads p L gap (t' + gap) n
    end
  end.

(** Tolerance: the first and the last data bits are sampled inside their own
    bit times however late (up to one poll) the start edge was noticed. *)
Definition timing_ok (p : SoftRx) (T : Z) : Prop :=
  0 < sr_poll p /\ 0 <= sr_half p /\ 0 < sr_step p /\
  T <= sr_half p + sr_step p /\ sr_poll p + sr_half p + sr_step p <= 2 * T /\
  8 * T <= sr_half p + 8 * sr_step p /\
  sr_poll p + sr_half p + 8 * sr_step p <= 9 * T.

(** ** Transmit *)

Definition write_chk (b : Z) : bool :=
  if list_eq_dec Bool.bool_dec (soft_write b) (uart_frame b) then true else false.
Lemma write_chk_all : below 256 write_chk = true.
Proof. vm_compute. reflexivity. Qed.

Lemma soft_write_frame b : byte b -> soft_write b = uart_frame b.
Proof.
  intros H. pose proof (below_spec 256 write_chk write_chk_all b H) as E.
  unfold write_chk in E. destruct (list_eq_dec _ _ _) as [Eq|]; [exact Eq | discriminate].
Qed.

(** ** Receive *)

Definition sample_val (b : Z) : Z :=
  fst (soft_sample 8 0 1 (fun t => Z.testbit b (t - 1)) 0 0).
Definition sample_chk (b : Z) : bool := sample_val b =? b.
Lemma sample_chk_all : below 256 sample_chk = true.
Proof. vm_compute. reflexivity. Qed.

Lemma soft_sample_ok L step t b : byte b ->
  (forall i, 0 <= i < 8 -> L (t + (i + 1) * step) = Z.testbit b i) ->
  soft_sample 8 0 step L t 0 = (b, t + 8 * step).
Proof.
  intros Hb H.
  pose proof (below_spec 256 sample_chk sample_chk_all b Hb) as E.
  unfold sample_chk, sample_val in E. apply Z.eqb_eq in E.
  cbn [soft_sample fst] in *.
  assert (A : forall i, 0 <= i < 8 -> forall t', t' = t + (i + 1) * step -> L t' = Z.testbit b i)
    by (intros i Hi t' ->; apply H, Hi).
  rewrite (A 0 ltac:(lia) (t + step)) by lia.
  rewrite (A 1 ltac:(lia) (t + step + step)) by lia.
  rewrite (A 2 ltac:(lia) (t + step + step + step)) by lia.
  rewrite (A 3 ltac:(lia) (t + step + step + step + step)) by lia.
  rewrite (A 4 ltac:(lia) (t + step + step + step + step + step)) by lia.
  rewrite (A 5 ltac:(lia) (t + step + step + step + step + step + step)) by lia.
  rewrite (A 6 ltac:(lia) (t + step + step + step + step + step + step + step)) by lia.
  rewrite (A 7 ltac:(lia) (t + step + step + step + step + step + step + step + step)) by lia.
  change (0 + 1 - 1) with 0 in E. change (0 + 1 + 1 - 1) with 1 in E.
  change (0 + 1 + 1 + 1 - 1) with 2 in E. change (0 + 1 + 1 + 1 + 1 - 1) with 3 in E.
  change (0 + 1 + 1 + 1 + 1 + 1 - 1) with 4 in E.
  change (0 + 1 + 1 + 1 + 1 + 1 + 1 - 1) with 5 in E.
  change (0 + 1 + 1 + 1 + 1 + 1 + 1 + 1 - 1) with 6 in E.
  change (0 + 1 + 1 + 1 + 1 + 1 + 1 + 1 + 1 - 1) with 7 in E.
  rewrite E. f_equal. lia.
Qed.

(** Waiting for the line to leave level [lvl]: it is at [lvl] until [s] and
    not from [s] for at least one poll. *)
Lemma soft_wait_ok L lvl q s (Hq : 0 < q)
  (H1 : forall t, s <= t < s + q -> L t = negb lvl) :
  forall fuel t, t < s + q -> s - t <= (Z.of_nat fuel - 1) * q -> (0 < fuel)%nat ->
  (forall t', t <= t' < s -> L t' = lvl) ->
  exists t1, soft_wait fuel q L lvl t = Some t1 /\ t <= t1 /\ s <= t1 < s + q.
Proof.
  induction fuel as [|fuel IH]; intros t Ht Hf H0 HL; [lia|]. cbn [soft_wait].
  destruct (Z.ltb_spec t s) as [Hlt|Hge].
  - rewrite (HL t) by lia. rewrite eqb_reflx.
    destruct fuel as [|fuel].
    + lia.
    + destruct (IH (t + q)) as (t1 & E & Hle & Hr); [lia | nia | lia | |].
      { intros t' Ht'. apply HL. lia. }
      exists t1. split; [exact E|]. lia.
  - rewrite (H1 t) by lia. destruct lvl; cbn [negb Bool.eqb]; exists t; (split; [reflexivity | lia]).
Qed.

Lemma timeout_nat : exists F : nat, Z.to_nat SOFT_TIMEOUT = F /\ Z.of_nat F = 60000.
Proof. exists (Z.to_nat SOFT_TIMEOUT). split; [reflexivity|]. apply Z2Nat.id. discriminate. Qed.

(** One byte. *)
Lemma soft_read_one_f F p L T t0 s b :
  byte b -> timing_ok p T -> 0 < T -> sr_poll p <= T -> (0 < F)%nat ->
  t0 <= s -> s - t0 <= (Z.of_nat F - 1) * sr_poll p -> T <= (Z.of_nat F - 1) * sr_poll p ->
  (forall t, t0 <= t < s -> L t = true) ->
  (forall k t, (k < 10)%nat -> s + Z.of_nat k * T <= t < s + (Z.of_nat k + 1) * T ->
     L t = nth k (uart_frame b) true) ->
  exists t3, soft_read_f F p L t0 = Some (b, t3) /\
    s + 8 * T <= t3 < s + 9 * T + sr_poll p /\
    (forall t, t3 <= t < s + 10 * T -> L t = true).
Proof.
  intros Hb (Hq & Hh & Hp & A1 & A2 & A3 & A4) HT HqT HF Ht0 Hto HTo Hidle Hfr.
  set (q := sr_poll p) in *. set (h := sr_half p) in *. set (P := sr_step p) in *.
  unfold soft_read_f. fold q h P.
  destruct (soft_wait_ok L true q s Hq) with (fuel := F) (t := t0)
    as (t1 & E1 & _ & R1).
  { intros t Ht. rewrite (Hfr 0%nat t) by lia. reflexivity. }
  { lia. }
  { lia. }
  { lia. }
  { exact Hidle. }
  rewrite E1.
  assert (HS : forall i, 0 <= i < 8 -> L (t1 + h + (i + 1) * P) = Z.testbit b i).
  { intros i Hi.
    assert (W : s + (i + 1) * T <= t1 + h + (i + 1) * P < s + (i + 2) * T).
    { clear - Hi A1 A2 A3 A4 R1 Hp HT.
      assert (i = 0 \/ i = 1 \/ i = 2 \/ i = 3 \/ i = 4 \/ i = 5 \/ i = 6 \/ i = 7)
        as [-> | [-> | [-> | [-> | [-> | [-> | [-> | ->]]]]]]] by lia; lia. }
    rewrite (Hfr (Z.to_nat (i + 1))) by (rewrite ?Z2Nat.id by lia; lia).
    assert (i = 0 \/ i = 1 \/ i = 2 \/ i = 3 \/ i = 4 \/ i = 5 \/ i = 6 \/ i = 7)
        as [-> | [-> | [-> | [-> | [-> | [-> | [-> | ->]]]]]]] by lia; reflexivity. }
  rewrite (soft_sample_ok L P (t1 + h) b Hb HS).
  set (t2 := t1 + h + 8 * P).
  assert (W2 : s + 8 * T <= t2 < s + 9 * T) by (unfold t2; lia).
  assert (H7 : forall t, s + 8 * T <= t < s + 9 * T -> L t = Z.testbit b 7)
    by (intros t Ht; rewrite (Hfr 8%nat t) by lia; reflexivity).
  assert (H8 : forall t, s + 9 * T <= t < s + 10 * T -> L t = true)
    by (intros t Ht; rewrite (Hfr 9%nat t) by lia; reflexivity).
  destruct (Z.testbit b 7) eqn:B7.
  - (* last bit high: returns at once *)
    assert (E3 : soft_wait F q L false t2 = Some t2).
    { destruct F; [lia|]. cbn [soft_wait]. rewrite H7 by lia. reflexivity. }
    rewrite E3. exists t2. split; [reflexivity|]. split; [lia|].
    intros t Ht. destruct (Z.ltb_spec t (s + 9 * T)); [apply H7 | apply H8]; lia.
  - destruct (soft_wait_ok L false q (s + 9 * T) Hq) with (fuel := F) (t := t2)
      as (t3 & E3 & _ & R3).
    { intros t Ht. apply H8. lia. }
    { lia. }
    { lia. }
    { lia. }
    { intros t Ht. apply H7. lia. }
    rewrite E3. exists t3. split; [reflexivity|]. split; [lia|].
    intros t Ht. apply H8. lia.
Qed.

Lemma soft_read_one p L T t0 s b :
  byte b -> timing_ok p T -> 0 < T -> sr_poll p <= T ->
  t0 <= s -> s - t0 <= 59999 * sr_poll p -> T <= 59999 * sr_poll p ->
  (forall t, t0 <= t < s -> L t = true) ->
  (forall k t, (k < 10)%nat -> s + Z.of_nat k * T <= t < s + (Z.of_nat k + 1) * T ->
     L t = nth k (uart_frame b) true) ->
  exists t3, soft_read p L t0 = Some (b, t3) /\
    s + 8 * T <= t3 < s + 9 * T + sr_poll p /\
    (forall t, t3 <= t < s + 10 * T -> L t = true).
Proof.
  intros Hb Ht HT Hq H0 H1 H2. unfold soft_read.
  destruct timeout_nat as (F & -> & HF).
  assert (E : Z.of_nat F - 1 = 59999) by lia.
  apply soft_read_one_f; try assumption; rewrite ?E; try assumption. lia.
Qed.

(** C139.  For every message (any bytes, any idle gaps up to the time-out),
    every bit time T and every receiver timing within tolerance, however far
    before the first start bit the first read begins (up to the time-out): a
    caller that reads again within the stop bit receives exactly the bytes
    sent, in order, with no loss and no false time-out.  And what write()
    drives onto the line for a byte is exactly that byte's 8N1 frame. *)
Theorem soft_serial_delivers :
  forall (p : SoftRx) (T gap : Z) (L : Z -> bool),
    timing_ok p T -> 0 < T -> 0 <= gap -> sr_poll p + gap <= T ->
    forall (bs : list (Z * Z)) (t0 s : Z),
      Forall (fun ib => byte (snd ib) /\ 0 <= fst ib /\
                        fst ib + 2 * T <= 59999 * sr_poll p) bs ->
      t0 <= s -> s - t0 <= 2 * T ->
      (forall t, t0 <= t < s -> L t = true) ->
      carries L T s bs ->
      soft_reads p L gap t0 (length bs) = map (fun ib => Some (snd ib)) bs.
Proof.
  intros p T gap L Htim HT Hg Hpg bs.
  assert (Hq : 0 < sr_poll p) by (destruct Htim; assumption).
  induction bs as [|[idle b] bs IH]; intros t0 s Hf Hle Hlate Hidle Hc; [reflexivity|].
  apply Forall_cons_iff in Hf. destruct Hf as [(Hb & Hi & Hto) Hf].
  cbn [fst snd] in *. cbn [carries] in Hc. destruct Hc as (Hi' & Hhigh & Hfr & Hc).
  destruct (soft_read_one p L T t0 (s + idle) b) as (t3 & E & R & Hend);
    [assumption | assumption | assumption | lia | lia | lia | lia | | assumption |].
  { intros t Ht. destruct (Z.ltb_spec t s); [apply Hidle | apply Hhigh]; lia. }
  cbn [length soft_reads map snd]. rewrite E. f_equal.
  apply (IH (t3 + gap) (s + idle + 10 * T)); [assumption | lia | lia | | assumption].
  intros t Ht. apply Hend. lia.
Qed.

Theorem soft_serial_write_is_8N1 :
  forall b, byte b -> soft_write b = uart_frame b.
Proof. exact soft_write_frame. Qed.

(** An idle line times out: read returns -1, and so does a line stuck low. *)
Theorem soft_serial_timeout :
  forall p t, soft_read p (fun _ => true) t = None /\ soft_read p (fun _ => false) t = None.
Proof.
  assert (W : forall fuel q lvl t, soft_wait fuel q (fun _ => lvl) lvl t = None).
  { induction fuel; intros; cbn [soft_wait]; [reflexivity|]. rewrite eqb_reflx. auto. }
  intros p t. unfold soft_read, soft_read_f. destruct timeout_nat as (F & -> & HF).
  split; [rewrite W; reflexivity|].
  destruct F; [lia|]. cbn [soft_wait Bool.eqb].
  destruct (soft_sample _ _ _ _ _ _) as [v t2].
  exact (eq_trans (f_equal (fun o => match o with None => None | Some t3 => Some (v, t3) end)
     (W (S F) (sr_poll p) false t2)) eq_refl).
Qed.

(** Case: 9600 baud at 1 MHz: bit time 104 cycles, halfDelay 13 loops = 52,
    readDelay 18 loops = 72 plus any per-bit overhead from 27 to 33 cycles,
    polling every 16 cycles: inside tolerance; and a line carrying two bytes. *)
Example soft_serial_case :
  (forall o, 27 <= o <= 33 -> timing_ok (mkSoftRx 52 (72 + o) 16) 104) /\
  ss2_halfDelay 1000000 9600 = 13 /\ ss2_readDelay 1000000 9600 = 18 /\
  (exists L, carries L 104 0 [(300, 65); (0, 200)] /\
     soft_reads (mkSoftRx 52 102 16) L 40 0 2 = [Some 65; Some 200]).
Proof.
  split; [|split; [reflexivity|split; [reflexivity|]]].
  - intros o Ho. unfold timing_ok. cbn [sr_poll sr_half sr_step]. lia.
  - set (L := fun t : Z => if t <? 300 then true
              else nth (Z.to_nat ((t - 300) / 104)) (uart_frame 65 ++ uart_frame 200) true).
    exists L.
    assert (C : carries L 104 0 [(300, 65); (0, 200)]).
    { cbn [carries].
      assert (HL : forall k t, 300 + Z.of_nat k * 104 <= t < 300 + (Z.of_nat k + 1) * 104 ->
         L t = nth k (uart_frame 65 ++ uart_frame 200) true).
      { intros k t Ht. unfold L. replace (t <? 300) with false by lia.
        f_equal. replace ((t - 300) / 104) with (Z.of_nat k); [apply Nat2Z.id|].
        apply (Z.div_unique _ _ _ (t - 300 - 104 * Z.of_nat k)); lia. }
      split; [lia|]. split; [intros t Ht; unfold L; replace (t <? 300) with true by lia; reflexivity|].
      split.
      { intros k t Hk Ht. rewrite (HL k) by lia. apply app_nth1. cbn; lia. }
      split; [lia|]. split; [intros; lia|]. split.
      { intros k t Hk Ht. rewrite (HL (10 + k)%nat) by lia.
        rewrite app_nth2 by (cbn; lia). f_equal. cbn. lia. }
      intros t Ht. unfold L. replace (t <? 300) with false by lia.
      apply nth_overflow.
      assert (20 <= (t - 300) / 104) by (apply Z.div_le_lower_bound; lia).
      cbn [length uart_frame app]. lia. }
    split; [exact C|].
    apply (soft_serial_delivers (mkSoftRx 52 102 16) 104 40 L) with (s := 0) (bs := [(300, 65); (0, 200)]).
    + unfold timing_ok. cbn [sr_poll sr_half sr_step]. lia.
    + lia.
    + lia.
    + cbn [sr_poll]. lia.
    + repeat constructor; cbn [fst snd sr_poll]; unfold byte; lia.
    + lia.
    + lia.
    + intros; lia.
    + exact C.
Qed.

(** The compile-time delay counts are exact for 977..22727 baud at 1 MHz (so
    at every documented rate) ... *)
Theorem soft_serial_delays_partial :
  forall baud, 977 <= baud <= 22727 ->
    let n := 1000000 / 4 / baud in
    ss2_bitCycles 1000000 baud = n /\ ss2_writeDelay 1000000 baud = n - 3 /\
    ss2_readDelay 1000000 baud = n - 8 /\ 1 <= n - 8.
Proof.
  intros baud H n.
  assert (Hn : 11 <= n <= 255).
  { unfold n. change (1000000 / 4) with 250000. split.
    - apply Z.div_le_lower_bound; lia.
    - enough (250000 / baud < 256) by lia. apply Z.div_lt_upper_bound; lia. }
  unfold ss2_writeDelay, ss2_readDelay, ss2_bitCycles. fold n.
  rewrite !u8_id by (rewrite ?u8_id by (red; lia); red; lia). lia.
Qed.

(** ... but slower rates are accepted and silently wrong: at 600 baud the
    416-loop bit time becomes 160. *)
Theorem soft_serial_slow_baud_refuted :
  ss2_bitCycles 1000000 600 = 160 /\ 1000000 / 4 / 600 = 416.
Proof. split; vm_compute; reflexivity. Qed.

Print Assumptions soft_serial_delivers.
