(** C186: text and numbers printed on the older software UART
    (OTV0P2BASE_SoftSerial.cpp 197-237), end to end. *)
From Verif Require Import Base SoftModel SoftProps SoftOld JsonSpec JsonModel JsonWrite.

(** SoftSerial.cpp 203-212: print(const char * ) on the memory from the
    pointer on: frames sent, and the uint8_t count returned.  None = reads past
    the end of the memory given. *)
Fixpoint old_puts (mem : list Z) (i : Z) : option (list (list bool) * Z) :=
  match mem with
  | [] => None
  | c :: mem =>
    if c =? 0 then Some ([], i)                                       (* 206, 211 *)
    else do r <- old_puts mem (u8 (i + 1)) ;                          (* 208-209 *)
         Some (old_print c :: fst r, snd r)                           (* 207 *)
  end.

(** SoftSerial.cpp 226-237: printNum.  itoa(number, buf, 10) stores the decimal
    text and a NUL: taken from its specification, the text being computed by
    [dec] (proved decimal by json_decimal). *)
Definition old_printNum (number : Z) : option (list (list bool)) :=
  do buf <- blit (repeat 0 5) 0 (dec number ++ [0]) ;                 (* 229-233 *)
  do r <- old_puts buf 0 ;                                            (* 236 *)
  Some (fst r).

Lemma old_puts_spec : forall str rest i, Forall (fun c => byte c /\ c <> 0) str -> byte i ->
  old_puts (str ++ 0 :: rest) i = Some (map uart_frame str, (i + Zlen str) mod 256).
Proof.
  induction str as [|c str IH]; intros rest i F Bi.
  - cbn [app old_puts map]. change (0 =? 0) with true. cbv iota. f_equal. f_equal.
    change (Zlen (@nil Z)) with 0. rewrite Z.add_0_r, Z.mod_small by exact Bi. reflexivity.
  - apply Forall_cons_iff in F. destruct F as [[Bc Nc] F]. cbn [app old_puts map].
    replace (c =? 0) with false by lia. rewrite IH by (auto using u8_byte).
    cbn [bind fst snd]. unfold old_print. rewrite soft_write_frame by exact Bc.
    f_equal. f_equal. rewrite Zlen_cons. unfold u8. rewrite Zplus_mod_idemp_l. f_equal. lia.
Qed.

(** Printing a NUL-terminated text sends exactly its characters, in order, and
    reads nothing past the terminator; the count returned is its length mod
    256. *)
Theorem text_sent : forall str rest, Forall (fun c => byte c /\ c <> 0) str ->
  old_puts (str ++ 0 :: rest) 0 = Some (map uart_frame str, Zlen str mod 256).
Proof. intros. apply (old_puts_spec str rest 0); [assumption|red; lia]. Qed.

(** A text of 256 characters is sent but reported as empty. *)
Theorem text_count_refuted : exists str, Forall (fun c => byte c /\ c <> 0) str /\
  str <> [] /\ old_puts (str ++ [0]) 0 = Some (map uart_frame str, 0).
Proof.
  assert (F : Forall (fun c => byte c /\ c <> 0) (repeat 65 256)).
  { apply Forall_forall. intros c H. apply repeat_spec in H. subst c. split; [red; lia|lia]. }
  exists (repeat 65 256). split; [exact F|]. split; [discriminate|].
  rewrite (text_sent _ [] F). reflexivity.
Qed.

Lemma numeral_bytes n l : numeral n l -> Forall (fun c => byte c /\ c <> 0) l.
Proof.
  intros (H & _). apply Forall_impl with (2 := H). unfold is_digit, byte. intros; lia.
Qed.
Lemma decimal_bytes n l : decimal n l -> Forall (fun c => byte c /\ c <> 0) l.
Proof.
  unfold decimal. destruct (n <? 0).
  - intros (r & -> & H). constructor; [unfold byte; lia|eapply numeral_bytes; eassumption].
  - apply numeral_bytes.
Qed.

Definition dec_short (z : Z) : bool := Zlen (dec (z - 128)) <=? 4.
Lemma dec_len n : -128 <= n < 128 -> Zlen (dec n) <= 4.
Proof.
  intros H. assert (S : below 256 dec_short = true) by (vm_compute; reflexivity).
  pose proof (below_spec _ _ S (n + 128) ltac:(lia)) as E. unfold dec_short in E.
  replace (n + 128 - 128) with n in E by lia. lia.
Qed.

(** Every int8_t number is printed as its decimal numeral, without superfluous
    zeros, in at most four characters: never outside its buffer. *)
Theorem number_sent : forall n, -128 <= n < 128 ->
  exists ds, decimal n ds /\ 1 <= Zlen ds <= 4 /\ old_printNum n = Some (map uart_frame ds).
Proof.
  intros n Hn. destruct (json_decimal n ltac:(lia)) as [D L]. pose proof (dec_len n Hn) as L4.
  exists (dec n). split; [exact D|]. split; [lia|]. unfold old_printNum.
  rewrite blit_some by (rewrite ?Zlen_app; change (Zlen [0]) with 1; change (Zlen (repeat 0 5)) with 5; lia).
  cbn [bind]. change (Z.to_nat 0) with 0%nat. cbn [firstn app].
  rewrite <- app_assoc. cbn [app].
  rewrite (text_sent (dec n) _ (decimal_bytes _ _ D)). cbn [bind fst]. reflexivity.
Qed.

(** And it arrives: if the line then carries those frames (with any idle gaps,
    and any timing, inside the tolerance), the receiver's buffer begins with
    the decimal numeral and the count is its length. *)
Theorem number_arrives :
  forall n (p : SoftRx) (T gap : Z) (L : Z -> bool) (bs : list (Z * Z)) (t0 s : Z)
         (len : nat) (buf : list Z),
    -128 <= n < 128 ->
    timing_ok p T -> 0 < T -> 0 <= gap -> sr_poll p + gap <= T ->
    Forall (fun ib => 0 <= fst ib /\ fst ib + 2 * T <= 29999 * sr_poll p) bs ->
    t0 <= s -> s - t0 <= 2 * T -> (forall t, t0 <= t < s -> L t = true) ->
    carries L T s bs ->
    old_printNum n = Some (map uart_frame (map snd bs)) -> Forall byte (map snd bs) ->
    (4 <= len <= length buf)%nat -> Zlen buf <= 255 ->
    exists ds, decimal n ds /\
      old_read len p L gap t0 buf 0 = Some (ds ++ skipn (length ds) buf, Zlen ds).
Proof.
  intros n p T gap L bs t0 s len buf Hn H1 H2 H3 H4 H5 H6 H7 H8 H9 E Hb H10 H11.
  destruct (number_sent n Hn) as (ds & D & Ld & E'). rewrite E in E'. apply some_inj in E'.
  assert (Inj : forall a b, Forall byte a -> Forall byte b -> map uart_frame a = map uart_frame b -> a = b).
  { clear. assert (I1 : forall x y, byte x -> byte y -> uart_frame x = uart_frame y -> x = y).
    { intros x y Bx By H. unfold uart_frame in H.
      assert (HT : forall k, 0 <= k < 8 -> Z.testbit x k = Z.testbit y k).
      { intros k Hk. pose proof (f_equal (fun l => nth (S (Z.to_nat k)) l true) H) as Q.
        assert (C : k = 0 \/ k = 1 \/ k = 2 \/ k = 3 \/ k = 4 \/ k = 5 \/ k = 6 \/ k = 7) by lia.
        destruct C as [-> | [-> | [-> | [-> | [-> | [-> | [-> | ->]]]]]]]; exact Q. }
      apply Z.bits_inj'. intros k Hk. destruct (Z_lt_le_dec k 8); [apply HT; lia|].
      assert (Hp : forall z, byte z -> Z.testbit z k = false).
      { intros z Bz. red in Bz. rewrite Z.testbit_false by lia.
        rewrite Z.div_small; [reflexivity|]. split; [lia|].
        assert (2 ^ 8 <= 2 ^ k) by (apply Z.pow_le_mono_r; lia). change (2 ^ 8) with 256 in *. lia. }
      rewrite !Hp by assumption. reflexivity. }
    induction a as [|x a IH]; intros [|y b] Ha Hb H; try discriminate; [reflexivity|].
    apply Forall_cons_iff in Ha, Hb. destruct Ha as [Hx Ha], Hb as [Hy Hb].
    cbn [map] in H.
    pose proof (f_equal (fun l => match l with z :: _ => z | [] => [] end) H) as Q1.
    pose proof (f_equal (@tl _) H) as Q2. cbn in Q1, Q2. f_equal; [apply I1; assumption|apply IH; assumption]. }
  assert (Hds : Forall byte ds).
  { apply Forall_impl with (2 := decimal_bytes _ _ D). intros c Hc. exact (proj1 Hc). }
  pose proof (Inj _ _ Hb Hds E') as Eb. exists ds. split; [exact D|].
  assert (F : Forall (fun ib => byte (snd ib) /\ 0 <= fst ib /\ fst ib + 2 * T <= 29999 * sr_poll p) bs).
  { clear - H5 Hb. induction bs as [|ib bs IH]; [constructor|]. cbn [map] in Hb.
    apply Forall_cons_iff in H5, Hb. destruct H5 as [A B], Hb as [C D].
    constructor; [tauto|apply IH; assumption]. }
  pose proof (old_serial_delivers p T gap L bs t0 s len buf H1 H2 H3 H4 F H6 H7 H8 H9
                (proj2 H10) H11) as Q. cbv zeta in Q. rewrite Q. clear Q.
  assert (Hlb : length bs = length ds) by (rewrite <- Eb, map_length; reflexivity).
  unfold Zlen in Ld. replace (Nat.min len (length bs)) with (length ds) by lia.
  rewrite Eb, firstn_all. reflexivity.
Qed.

Example number_sent_case :
  old_printNum (-128) = Some (map uart_frame [45; 49; 50; 56]) /\
  old_printNum 7 = Some (map uart_frame [55]) /\
  (* a five-character text and its terminator would not have fitted *)
  blit (repeat 0 5) 0 ([45; 49; 50; 51; 52] ++ [0]) = None.
Proof. split; [|split]; vm_compute; reflexivity. Qed.

(** A line carrying "-5" exists. *)
Example number_arrives_case :
  old_printNum (-5) = Some (map uart_frame (map snd [(0, 45); (100, 53)])).
Proof. vm_compute. reflexivity. Qed.

Print Assumptions text_sent.
Print Assumptions text_count_refuted.
Print Assumptions number_sent.
Print Assumptions number_arrives.
