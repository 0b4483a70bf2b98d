(** C140: the interrupt-driven software UART. *)
From Verif Require Import Base SoftModel SoftProps.

(** ** Specification *)

(** What three samples of bit [v] look like with at most one of them wrong. *)
Definition noisy (v : bool) (s : bool * bool * bool) : Prop :=
  s = (v, v, v) \/ s = (negb v, v, v) \/ s = (v, negb v, v) \/ s = (v, v, negb v).

(** The samples of the first seven data bits of byte [b]. *)
Definition frame_of (b : Z) (f : list (bool * bool * bool)) : Prop :=
  Forall2 (fun i s => noisy (Z.testbit b i) s) [0;1;2;3;4;5;6] f.


(** Reference behaviour: bytes waiting, and how many were accepted since the
    last restart; a byte is accepted while fewer than 32 have been. *)
Definition ref_arrive (st : list Z * Z) (b : Z) : list Z * Z :=
  if snd st <? 32 then (fst st ++ [b mod 128], snd st + 1) else st.
Definition ref_arrivals (st : list Z * Z) (bs : list Z) : list Z * Z :=
  fold_left ref_arrive bs st.

(** [ref_run st os res]: operations [os] with read results [res]. *)
Inductive Op := OArrive (b : Z) | ORead (b1 b2 : list Z) | OWrite.
Fixpoint ref_run (st : list Z * Z) (os : list Op) : (list Z * Z) * list Z :=
  match os with
  | [] => (st, [])
  | OArrive b :: os => ref_run (ref_arrive st b) os
  | OWrite :: os => ref_run ([], 0) os
  | ORead b1 b2 :: os =>
      let st1 := ref_arrivals st b1 in
      let '(st2, r) :=
        match fst st1 with
        | [] => (ref_arrivals st1 b2, -1)
        | x :: _ => let st2 := ref_arrivals st1 b2 in ((tl (fst st2), snd st2), x)
        end in
      let '(st', rs) := ref_run st2 os in (st', r :: rs)
  end.

(** The concrete operation performs the abstract one with these frames. *)
Inductive does_op : Op -> AsyncOp -> Prop :=
| do_arrive b f : byte b -> frame_of b f -> does_op (OArrive b) (AFrame f)
| do_read b1 b2 f1 f2 :
    Forall byte b1 -> Forall byte b2 ->
    Forall2 frame_of b1 f1 -> Forall2 frame_of b2 f2 ->
    does_op (ORead b1 b2) (ARead f1 f2)
| do_write : does_op OWrite AWrite.

(** ** Proof *)

Lemma async_bit_noisy v s : noisy v s -> async_bit s = v.
Proof. destruct v; intros [-> | [-> | [-> | ->]]]; reflexivity. Qed.

Definition clean (b : Z) : list (bool * bool * bool) :=
  map (fun i => (Z.testbit b i, Z.testbit b i, Z.testbit b i)) [0;1;2;3;4;5;6].
Definition abyte_chk (b : Z) : bool := async_byte (clean b) 0 =? b mod 128.
Lemma abyte_chk_all : below 256 abyte_chk = true.
Proof. vm_compute. reflexivity. Qed.

Lemma async_byte_ext f g : map async_bit f = map async_bit g ->
  forall v, async_byte f v = async_byte g v.
Proof.
  revert g. induction f as [|s f IH]; destruct g as [|s' g]; cbn [map]; intros H v;
    try discriminate; [reflexivity|].
  cbn [async_byte]. inversion H as [[Hs Hm]]. rewrite (IH g) by assumption. rewrite Hs. reflexivity.
Qed.

Lemma async_byte_ok b f : byte b -> frame_of b f -> async_byte f 0 = b mod 128.
Proof.
  intros Hb Hf.
  pose proof (below_spec 256 abyte_chk abyte_chk_all b Hb) as E.
  unfold abyte_chk in E. apply Z.eqb_eq in E. rewrite <- E.
  apply async_byte_ext. unfold frame_of in Hf. unfold clean. rewrite map_map.
  revert f Hf. generalize [0;1;2;3;4;5;6]. induction l as [|i l IH]; intros f Hf;
    inversion Hf; subst; cbn [map]; [reflexivity|].
  rewrite IH by assumption. f_equal.
  rewrite (async_bit_noisy (Z.testbit b i)) by assumption.
  destruct (Z.testbit b i); reflexivity.
Qed.

(** Concrete state against reference state. *)
Definition ainv (s : Async) (st : list Z * Z) : Prop :=
  Zlen (as_buf s) = 32 /\ as_tail s = snd st /\
  0 <= as_head s /\ as_head s + Zlen (fst st) = as_tail s /\ as_tail s <= 32 /\
  firstn (Z.to_nat (Zlen (fst st))) (skipn (Z.to_nat (as_head s)) (as_buf s)) = fst st.

Lemma firstn_blit (l : list Z) (h n : nat) v :
  (h + n < length l)%nat ->
  forall l', blit l (Z.of_nat (h + n)) [v] = Some l' ->
  firstn (S n) (skipn h l') = firstn n (skipn h l) ++ [v] /\ length l' = length l.
Proof.
  intros H l' E. unfold blit in E. change (Zlen [v]) with 1 in *.
  destruct (_ && _) eqn:Hc in E; [|discriminate]. apply some_inj in E. subst l'.
  split.
  - rewrite Nat2Z.id.
    replace (Z.to_nat (Z.of_nat (h + n) + 1)) with (S (h + n)) by lia.
    rewrite skipn_app, skipn_firstn_comm.
    rewrite firstn_length_le by lia.
    replace (h + n - h)%nat with n by lia.
    replace (h - (h + n))%nat with 0%nat by lia.
    rewrite skipn_O, firstn_app.
    rewrite firstn_firstn, Nat.min_r by lia.
    rewrite firstn_length, skipn_length.
    replace (Nat.min n (length l - h)) with n by lia.
    replace (S n - n)%nat with 1%nat by lia. reflexivity.
  - rewrite !app_length, firstn_length, skipn_length. cbn [length]. unfold Zlen in *. lia.
Qed.

Lemma async_isr_ok s st b f :
  ainv s st -> byte b -> frame_of b f ->
  exists s', async_isr s f = Some s' /\ ainv s' (ref_arrive st b) /\
    as_head s' = as_head s.
Proof.
  intros (HL & Ht & Hh & Hlen & Hmax & Hc) Hb Hf.
  unfold async_isr, ref_arrive, ASYNC_SIZE. rewrite <- Ht.
  destruct (as_tail s <? 32) eqn:E.
  - rewrite (async_byte_ok b f Hb Hf).
    set (n := Z.to_nat (Zlen (fst st))) in *. set (h := Z.to_nat (as_head s)) in *.
    assert (Hlen' : as_tail s = Z.of_nat (h + n)) by (unfold Zlen in *; lia).
    destruct (blit (as_buf s) (as_tail s) [b mod 128]) as [l'|] eqn:EB.
    2:{ exfalso. rewrite blit_some in EB; [discriminate | lia |].
        rewrite HL; change (Zlen [b mod 128]) with 1; lia. }
    cbn [bind]. rewrite Hlen' in EB.
    destruct (firstn_blit (as_buf s) h n (b mod 128)) with (l' := l') as [F1 F2];
      [unfold Zlen in *; lia | exact EB |].
    eexists. split; [reflexivity|]. split; [|reflexivity].
    unfold ainv; cbn [as_buf as_tail as_head fst snd].
    rewrite u8_id by (red; lia). rewrite Zlen_app. change (Zlen [b mod 128]) with 1.
    split; [unfold Zlen in *; lia|]. split; [lia|]. split; [lia|]. split; [lia|].
    split; [lia|].
    replace (Z.to_nat (Zlen (fst st) + 1)) with (S n) by (unfold Zlen in *; lia).
    fold h. rewrite F1, Hc. reflexivity.
  - exists s. split; [reflexivity|]. split; [|reflexivity].
    unfold ainv. tauto.
Qed.

Lemma async_isrs_ok : forall bs fs s st,
  ainv s st -> Forall byte bs -> Forall2 frame_of bs fs ->
  exists s', async_isrs s fs = Some s' /\ ainv s' (ref_arrivals st bs) /\
    as_head s' = as_head s.
Proof.
  induction bs as [|b bs IH]; intros fs s st Hi Hb Hf; inversion Hf as [|? y ? l' Hy Hl']; subst.
  - exists s. cbn. auto.
  - apply Forall_cons_iff in Hb. destruct Hb as [Hb Hbs].
    destruct (async_isr_ok s st b y Hi Hb) as (s1 & E1 & I1 & H1); [assumption|].
    destruct (IH l' s1 (ref_arrive st b) I1 Hbs) as (s2 & E2 & I2 & H2); [assumption|].
    exists s2. cbn [async_isrs]. rewrite E1. cbn [bind]. rewrite E2.
    split; [reflexivity|]. split; [exact I2 | congruence].
Qed.

(** Arrivals only append. *)
Lemma ref_arrivals_app bs : forall st, exists l, fst (ref_arrivals st bs) = fst st ++ l.
Proof.
  unfold ref_arrivals. induction bs as [|b bs IH]; intros st; cbn [fold_left].
  - exists []. rewrite app_nil_r. reflexivity.
  - destruct (IH (ref_arrive st b)) as [l E]. rewrite E. unfold ref_arrive.
    destruct (snd st <? 32); cbn [fst].
    + exists ((b mod 128) :: l). rewrite <- app_assoc. reflexivity.
    + exists l. reflexivity.
Qed.

Lemma ainv_nil s n : Zlen (as_buf s) = 32 -> as_head s = n -> as_tail s = n ->
  0 <= n <= 32 -> ainv s ([], n).
Proof.
  intros. unfold ainv; cbn [fst snd]. change (@Zlen Z []) with 0.
  repeat (split; [lia|]). reflexivity.
Qed.

Lemma skipn_S (l : list Z) : forall h, skipn (S h) l = tl (skipn h l).
Proof.
  induction l as [|x l IH]; intros h; [destruct h; reflexivity|].
  destruct h; [reflexivity|]. cbn [skipn] in *. apply IH.
Qed.

Lemma async_read_ok s st b1 b2 f1 f2 :
  ainv s st -> Forall byte b1 -> Forall byte b2 ->
  Forall2 frame_of b1 f1 -> Forall2 frame_of b2 f2 ->
  exists s' st' r,
    async_read s f1 f2 = Some (s', r) /\ ainv s' st' /\
    (st', r) = (let st1 := ref_arrivals st b1 in
        match fst st1 with
        | [] => (ref_arrivals st1 b2, -1)
        | x :: _ => let st2 := ref_arrivals st1 b2 in ((tl (fst st2), snd st2), x)
        end).
Proof.
  intros Hi B1 B2 F1 F2. unfold async_read.
  destruct (async_isrs_ok b1 f1 s st Hi B1 F1) as (s1 & E1 & I1 & H1).
  rewrite E1. cbn [bind]. set (st1 := ref_arrivals st b1) in *.
  destruct (async_isrs_ok b2 f2 s1 st1 I1 B2 F2) as (s2 & E2 & I2 & H2).
  rewrite E2. cbn [bind]. cbv zeta. set (st2 := ref_arrivals st1 b2) in *.
  destruct (ref_arrivals_app b2 st1) as [l El]. fold st2 in El.
  destruct I1 as (L1 & T1 & P1 & Q1 & M1 & C1).
  pose proof I2 as (L2 & T2 & P2 & Q2 & M2 & C2).
  destruct (fst st1) as [|x xs] eqn:Ex.
  - change (@Zlen Z []) with 0 in Q1.
    replace ((0 <? as_tail s1) && (as_head s <? as_tail s1)) with false by lia.
    eexists s2, st2, (-1). split; [reflexivity|]. split; [exact I2 | reflexivity].
  - rewrite Zlen_cons in Q1. pose proof (Zlen_nonneg xs).
    replace ((0 <? as_tail s1) && (as_head s <? as_tail s1)) with true by lia.
    cbn [app] in El. rewrite El in *. rewrite Zlen_cons in Q2.
    pose proof (Zlen_nonneg (xs ++ l)).
    rewrite Zlen_cons in C2.
    set (h := Z.to_nat (as_head s2)) in *.
    assert (Hsk : exists rest, skipn h (as_buf s2) = x :: rest /\
       firstn (Z.to_nat (Zlen (xs ++ l))) rest = xs ++ l).
    { destruct (skipn h (as_buf s2)) as [|y rest] eqn:Es.
      - rewrite firstn_nil in C2. discriminate.
      - replace (Z.to_nat (1 + Zlen (xs ++ l))) with (S (Z.to_nat (Zlen (xs ++ l)))) in C2 by lia
        || replace (Z.to_nat (Zlen (xs ++ l) + 1)) with (S (Z.to_nat (Zlen (xs ++ l)))) in C2 by lia.
        cbn [firstn] in C2. inversion C2 as [[Hy Hr]]. rewrite Hr. exists rest. split; [congruence | exact Hr]. }
    destruct Hsk as (rest & Es & Er).
    assert (Hrd : rd (as_buf s2) (as_head s) = Some x).
    { rewrite rd_some by lia. f_equal. rewrite <- H1, <- H2. unfold znth. fold h.
      rewrite <- (firstn_skipn h (as_buf s2)), Es.
      rewrite app_nth2; rewrite firstn_length_le by (unfold Zlen in *; lia); [|lia].
      rewrite Nat.sub_diag. reflexivity. }
    rewrite Hrd. cbn [bind tl].
    eexists _, (xs ++ l, snd st2), x. split; [reflexivity|]. split; [|reflexivity].
    unfold ainv. cbn [as_buf as_tail as_head fst snd].
    rewrite u8_id by (red; lia).
    split; [exact L2|]. split; [exact T2|]. split; [lia|]. split; [lia|]. split; [exact M2|].
    replace (Z.to_nat (as_head s + 1)) with (S h) by (unfold h; lia).
    replace (skipn (S h) (as_buf s2)) with rest; [exact Er|].
    rewrite skipn_S, Es. reflexivity.
Qed.

(** C140.  For every interleaving of received frames (also in the middle of a
    read), reads and writes, with at most one of the three samples of each bit
    wrong: no access leaves the buffer, and every result is that of a queue -
    reads return the low seven bits of the bytes received since the last
    write, oldest first, -1 exactly when none is waiting; of the bytes
    received since the last write the first 32 are kept; available() is the
    number waiting and peek() the next one. *)
Theorem async_serial_queue_partial :
  forall (junk : list Z) (ops : list Op) (cops : list AsyncOp),
    Zlen junk = 32 -> Forall2 does_op ops cops ->
    exists s rs,
      async_run (async_init junk) cops = Some (s, rs) /\
      rs = snd (ref_run ([], 0) ops) /\
      async_available s = Zlen (fst (fst (ref_run ([], 0) ops))) /\
      async_peek s = Some (match fst (fst (ref_run ([], 0) ops)) with [] => -1 | x :: _ => x end).
Proof.
  intros junk ops cops Hj H.
  assert (G : forall ops cops s st, Forall2 does_op ops cops -> ainv s st ->
    exists s' rs, async_run s cops = Some (s', rs) /\ rs = snd (ref_run st ops) /\
       ainv s' (fst (ref_run st ops))).
  { clear. induction ops as [|o ops IH]; intros cops s st H Hi; inversion H as [|? c ? cs Ho Hos]; subst.
    - exists s, []. cbn. auto.
    - inversion Ho; subst; cbn [async_run ref_run].
      + destruct (async_isr_ok s st b f Hi) as (s1 & E1 & I1 & _); [assumption|assumption|].
        rewrite E1. cbn [bind]. apply IH; assumption.
      + destruct (async_read_ok s st b1 b2 f1 f2 Hi) as (s1 & st1 & r & E1 & I1 & Er); try assumption.
        rewrite E1. cbn [bind]. cbv zeta in Er. rewrite <- Er.
        destruct (IH cs s1 st1 Hos I1) as (s2 & rs & E2 & -> & I2).
        rewrite E2. cbn [bind]. destruct (ref_run st1 ops) as [st' rs'] eqn:ER.
        cbn [fst snd] in *. exists s2, (r :: rs'). auto.
      + apply IH; [assumption|].
        apply (ainv_nil (async_write s) 0); try reflexivity; lia. }
  destruct (G ops cops (async_init junk) ([], 0) H) as (s & rs & E & Er & I).
  { apply (ainv_nil (async_init junk) 0); try reflexivity; [exact Hj | lia]. }
  exists s, rs. split; [exact E|]. split; [exact Er|].
  destruct I as (L & T & P & Q & M & C).
  set (q := fst (fst (ref_run ([], 0) ops))) in *.
  split; [unfold async_available; lia|].
  unfold async_peek. destruct q as [|x xs].
  - change (@Zlen Z []) with 0 in Q.
    replace ((0 <? as_tail s) && (as_head s <? as_tail s)) with false by lia. reflexivity.
  - rewrite Zlen_cons in Q, C. pose proof (Zlen_nonneg xs).
    replace ((0 <? as_tail s) && (as_head s <? as_tail s)) with true by lia.
    rewrite rd_some by lia. f_equal. unfold znth.
    set (h := Z.to_nat (as_head s)) in *.
    destruct (skipn h (as_buf s)) as [|y rest] eqn:Es.
    + rewrite firstn_nil in C. discriminate.
    + assert (y = x).
      { destruct (Z.to_nat _) as [|n] eqn:En in C; [cbn in C; discriminate|].
        cbn [firstn] in C. congruence. }
      subst y. rewrite <- (firstn_skipn h (as_buf s)), Es.
      rewrite app_nth2; rewrite firstn_length_le by (unfold Zlen in *; lia); [|lia].
      rewrite Nat.sub_diag. reflexivity.
Qed.

Lemma clean_frame b : frame_of b (clean b).
Proof.
  unfold frame_of, clean. generalize [0;1;2;3;4;5;6].
  induction l as [|i l IH]; cbn [map]; [apply Forall2_nil|].
  apply Forall2_cons; [left; reflexivity | exact IH].
Qed.

(** Case: text with a noisy sample, a read overtaken by an arrival. *)
Example async_serial_case :
  let f72 := (false, true, false) :: tl (clean 72) in
  frame_of 72 f72 /\ frame_of 105 (clean 105) /\
  does_op (ORead [72] [105]) (ARead [f72] [clean 105]) /\
  snd (ref_run ([], 0) [ORead [] []; ORead [72] [105]; ORead [] []; ORead [] []])
    = [-1; 72; 105; -1].
Proof.
  assert (A : frame_of 72 ((false, true, false) :: tl (clean 72))).
  { pose proof (clean_frame 72) as C. unfold frame_of in *.
    unfold clean in *. cbn [map tl] in *. inversion C; subst.
    apply Forall2_cons; [|assumption]. right; right; left. reflexivity. }
  assert (B : frame_of 105 (clean 105)) by apply clean_frame.
  split; [exact A|]. split; [exact B|]. split; [|vm_compute; reflexivity].
  apply do_read.
  - apply Forall_cons; [red; lia | apply Forall_nil].
  - apply Forall_cons; [red; lia | apply Forall_nil].
  - apply Forall2_cons; [exact A | apply Forall2_nil].
  - apply Forall2_cons; [exact B | apply Forall2_nil].
Qed.

(** Not an 8-bit channel: every byte from 128 up is delivered wrong. *)
Theorem async_serial_8bit_refuted :
  forall b f, byte b -> 128 <= b -> frame_of b f -> async_byte f 0 <> b.
Proof.
  intros b f Hb H Hf. rewrite (async_byte_ok b f Hb Hf).
  pose proof (Z.mod_pos_bound b 128). lia.
Qed.

(** begin() on a port with unread input does not empty it: the waiting bytes
    are replaced by zero bytes, which are then delivered. *)
Theorem async_begin_clean_refuted :
  exists s1 s2, async_isr (async_init (repeat 7 32)) (clean 72) = Some s1 /\
    async_available (async_begin s1) = 1 /\
    async_read (async_begin s1) [] [] = Some (s2, 0).
Proof. eexists _, _. vm_compute. repeat split. Qed.

Print Assumptions async_serial_queue_partial.
