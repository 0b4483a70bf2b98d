(** C48: raw JSON messages, their transmission form and the receive check.
    content/OTRadioLink/utility/OTV0P2BASE_JSONStats.cpp lines 43-170.
    Memory is a list of bytes; [None] is a read outside it.  char is signed (AVR, x86). *)
From Verif Require Import Base CrcModel CrcSpec CrcLin CrcProofs.

(** ** Model *)

Definition OPEN : Z := 123.   (* '{' *)
Definition CLOSE : Z := 125.  (* '}' *)
Definition CLOSE_HI : Z := 253. (* '}' | 0x80 *)

(** The test (c < 32) || (c > 126) on a char, lines 54 and 153. *)
Definition unprintable (c : Z) : bool := (i8 c <? 32) || (i8 c >? 126).

(** quickValidateRawSimpleJSONMessage, 43-59; [n] iterations left. *)
Fixpoint qv (n : nat) (buf : list Z) (i : Z) : option bool :=
  match n with
  | O => Some false                                          (* 58 *)
  | S n =>
      do c <- rd buf i ;                                     (* 50 *)
      do fin <- (if c =? CLOSE then do d <- rd buf (i + 1) ; Some (d =? 0) else Some false) ; (* 52 *)
      if fin then Some true
      else if unprintable c then Some false                  (* 54 *)
      else if c =? 0 then Some false                         (* 56 *)
      else qv n buf (i + 1)
  end.
Definition quickValidate (buf : list Z) : option bool :=
  do c <- rd buf 0 ;
  if negb (c =? OPEN) then Some false                        (* 45 *)
  else qv 53 buf 1.                                          (* 47-48; MSG_JSON_MAX_LENGTH = 54 *)

(** adjustJSONMsgForTXAndComputeCRC, 68-91: new buffer contents and CRC (255 = error). *)
Fixpoint adj (fuel : nat) (buf : list Z) (i crc : Z) : option (list Z * Z) :=
  match fuel with
  | O => None
  | S fuel =>
      do c <- rd buf i ;                                     (* 75 *)
      if c =? 0 then Some (buf, 255) else                    (* 89 *)
      do fin <- (if c =? CLOSE then do d <- rd buf (i + 1) ; Some (d =? 0) else Some false) ; (* 79 *)
      if fin then
        do buf' <- wr buf i (Z.lor c 128) ;                  (* 82-83 *)
        Some (buf', crc7_5B_update crc (Z.lor c 128))        (* 84-85 *)
      else adj fuel buf (i + 1) (crc7_5B_update crc c)       (* 87 *)
  end.
Definition adjustForTX (buf : list Z) : option (list Z * Z) :=
  do ok <- quickValidate buf ;
  if negb ok then Some (buf, 255)                            (* 71 *)
  else adj (length buf) buf 1 OPEN.

(** checkJSONMsgRXCRC, 120-170. *)
Fixpoint ck (n : nat) (buf : list Z) (i crc : Z) : option Z :=
  match n with
  | O => Some (-1)                                           (* 169 *)
  | S n =>
      do c <- rd buf i ;                                     (* 132 *)
      let crc := crc7_5B_update crc c in                     (* 133 *)
      do raw <- (if c =? CLOSE then do d <- rd buf (i + 1) ; Some (d =? 0) else Some false) ; (* 135 *)
      if raw then Some (i8 (i + 1)) else                     (* 141 *)
      do fin <- (if c =? CLOSE_HI then do d <- rd buf (i + 1) ;
                    Some ((crc =? d) || ((crc =? 0) && (d =? 128))) else Some false) ; (* 145 *)
      if fin then Some (i8 (i + 1)) else                     (* 150 *)
      if unprintable c then Some (-1)                        (* 153-161 *)
      else ck n buf (i + 1) crc
  end.
Definition checkRX (buf : list Z) (bufLen : Z) : option Z :=
  do c <- rd buf 0 ;
  if negb (c =? OPEN) then Some (-1)                         (* 122 *)
  else ck (Z.to_nat (Z.min 55 bufLen - 1)) buf 1 OPEN.       (* 126-130 *)

(** ** Specification *)

Definition printable (c : Z) : Prop := 32 <= c <= 126.
(** An acceptable message: an object of 2..54 printable characters. *)
Definition json_message (s : list Z) : Prop :=
  exists body, s = OPEN :: body ++ [CLOSE] /\ Forall printable body /\ Zlen s <= 54.
(** A C string: no zero byte in it. *)
Definition cstring (s : list Z) : Prop := Forall (fun c => 1 <= c < 256) s.
(** The CRC of the transmitted form. *)
Definition json_crc (body : list Z) : Z := crc7_run OPEN (body ++ [CLOSE_HI]).
(** A received frame of [r] bytes at the start of [buf]: raw (followed by 0) or with a good CRC. *)
Definition json_frame (buf : list Z) (r : Z) : Prop :=
  exists body last next rest, buf = OPEN :: body ++ last :: next :: rest /\
    Forall printable body /\ r = Zlen body + 2 /\
    ((last = CLOSE /\ next = 0) \/
     (last = CLOSE_HI /\ (next = json_crc body \/ (json_crc body = 0 /\ next = 128)))).

(** ** Proofs *)

Lemma unprintable_spec c : byte c -> unprintable c = false <-> printable c.
Proof.
  intros B. unfold byte in B. unfold unprintable, printable, i8.
  destruct (Z_lt_le_dec c 128).
  - rewrite (Z.mod_small (c + 128)) by lia. lia.
  - replace ((c + 128) mod 256) with (c - 128) by (apply (Z.mod_unique _ _ 1); lia). lia.
Qed.

Lemma rd_app2 pre t i : i = Zlen pre -> rd (pre ++ t) i = rd t 0.
Proof.
  intros ->. pose proof (Zlen_nonneg pre). pose proof (Zlen_nonneg t). unfold rd. rewrite Zlen_app.
  replace (Zlen pre <? Zlen pre + Zlen t) with (0 <? Zlen t) by lia.
  replace (0 <=? Zlen pre) with true by lia. cbn [andb]. destruct (0 <? Zlen t); [|reflexivity].
  change (0 <=? 0) with true. cbn [andb]. rewrite znth_app by lia.
  replace (Zlen pre <? Zlen pre) with false by lia. rewrite Z.sub_diag. reflexivity.
Qed.
Lemma rd0 c t : rd (c :: t) 0 = Some c.
Proof. unfold rd. pose proof (Zlen_nonneg t). rewrite Zlen_cons. replace (0 <? 1 + Zlen t) with true by lia. reflexivity. Qed.
Lemma rd_at pre c t i : i = Zlen pre -> rd (pre ++ c :: t) i = Some c.
Proof. intros H. rewrite rd_app2 by exact H. apply rd0. Qed.
Lemma rd_next pre c d t i : i = Zlen pre -> rd (pre ++ c :: d :: t) (i + 1) = Some d.
Proof.
  intros H. replace (pre ++ c :: d :: t) with ((pre ++ [c]) ++ d :: t) by (rewrite <- app_assoc; reflexivity).
  apply rd_at. rewrite Zlen_app, Zlen_cons. change (Zlen (@nil Z)) with 0. lia.
Qed.

Lemma Zlen_snoc (pre : list Z) c : Zlen (pre ++ [c]) = Zlen pre + 1.
Proof. rewrite Zlen_app, Zlen_cons. change (Zlen (@nil Z)) with 0. lia. Qed.

Lemma app_inj_len (a b c d : list Z) : a ++ c = b ++ d -> length a = length b -> a = b /\ c = d.
Proof.
  revert b. induction a as [|x a IH]; intros [|y b] H L; cbn in *; try lia; [auto|].
  assert (x = y) by congruence. destruct (IH b) as [-> ->]; [congruence|lia|]. subst. auto.
Qed.

Lemma snoc_cases (c : Z) t body x : c :: t = body ++ [x] -> (body = [] /\ c = x /\ t = []) \/ exists b, body = c :: b /\ t = b ++ [x].
Proof.
  destruct body as [|b0 b]; cbn; intros H.
  - left. assert (c = x) by congruence. assert (t = []) by congruence. auto.
  - right. exists b. assert (b0 = c) by congruence. subst. split; [reflexivity|congruence].
Qed.

Lemma qv_spec rest : forall t pre n, cstring t ->
  exists b, qv n (pre ++ t ++ 0 :: rest) (Zlen pre) = Some b /\
    (b = true <-> exists body, t = body ++ [CLOSE] /\ Forall printable body /\ Zlen t <= Z.of_nat n).
Proof.
  induction t as [|c t IH]; intros pre n C.
  - destruct n as [|n]; cbn [qv].
    + exists false. split; [reflexivity|]. split; [discriminate|]. intros (b & E & _). destruct b; discriminate.
    + cbn [app]. rewrite rd_at by reflexivity. cbn [bind]. change (0 =? CLOSE) with false. cbn [bind].
      change (unprintable 0) with true. cbn iota. exists false. split; [reflexivity|]. split; [discriminate|].
      intros (b & E & _). destruct b; discriminate.
  - apply Forall_cons_iff in C. destruct C as [C0 C].
    destruct n as [|n].
    + exists false. cbn [qv]. split; [reflexivity|]. split; [discriminate|]. intros (b & E & _ & L).
      rewrite Zlen_cons in L. pose proof (Zlen_nonneg t). lia.
    + cbn [qv]. change ((c :: t) ++ 0 :: rest) with (c :: (t ++ 0 :: rest)). rewrite rd_at by reflexivity. cbn [bind].
      assert (FIN : exists fin, (if c =? CLOSE then do d <- rd (pre ++ c :: t ++ 0 :: rest) (Zlen pre + 1) ; Some (d =? 0) else Some false) = Some fin /\
         (fin = true <-> c = CLOSE /\ t = [])).
      { destruct (c =? CLOSE) eqn:CE; [|exists false; split; [reflexivity|]; split; [discriminate|lia]].
        destruct t as [|d t]; cbn [app]; rewrite rd_next by reflexivity; cbn [bind].
        - exists true. split; [reflexivity|]. split; [intros _; split; [lia|reflexivity]|reflexivity].
        - apply Forall_cons_iff in C. destruct C as [D0 _]. exists (d =? 0). split; [reflexivity|].
          split; [lia|]. intros [_ X]. discriminate. }
      destruct FIN as (fin & -> & FIN). cbn [bind]. destruct fin.
      * destruct (proj1 FIN eq_refl) as [-> ->]. exists true. split; [reflexivity|]. split; [intros _|reflexivity].
        exists []. split; [reflexivity|]. split; [constructor|]. rewrite Zlen_cons. change (Zlen (@nil Z)) with 0. lia.
      * assert (NF : ~ (c = CLOSE /\ t = [])) by (intros X; apply FIN in X; discriminate).
        destruct (unprintable c) eqn:U.
        { exists false. split; [reflexivity|]. split; [discriminate|]. intros (b & E & F & L).
          apply snoc_cases in E. destruct E as [(-> & -> & ->) | (b1 & -> & ->)].
          - exfalso. apply NF. auto.
          - apply Forall_cons_iff in F. destruct F as [F0 _]. apply unprintable_spec in F0; [congruence|]. unfold byte; lia. }
        replace (c =? 0) with false by lia.
        assert (PC : printable c) by (apply unprintable_spec; [unfold byte; lia|exact U]).
        destruct (IH (pre ++ [c]) n C) as (b & E & SP).
        rewrite Zlen_snoc in E. rewrite <- app_assoc in E. cbn [app] in E. exists b. split; [exact E|].
        rewrite SP. rewrite Zlen_cons. split.
        -- intros (body & -> & F & L). exists (c :: body). split; [reflexivity|]. split; [constructor; assumption|lia].
        -- intros (body & E2 & F & L). apply snoc_cases in E2. destruct E2 as [(-> & -> & ->) | (b1 & -> & ->)].
           { exfalso. apply NF. auto. }
           exists b1. apply Forall_cons_iff in F. destruct F as [_ F]. split; [reflexivity|]. split; [exact F|lia].
Qed.

(** Validation never reads past the string's terminating zero and accepts exactly the acceptable messages. *)
Theorem json_quick_validate s rest : cstring s ->
  exists b, quickValidate (s ++ 0 :: rest) = Some b /\ (b = true <-> json_message s).
Proof.
  intros C. unfold quickValidate. destruct s as [|c t].
  - cbn [app]. rewrite rd0. cbn [bind]. exists false. split; [reflexivity|]. split; [discriminate|]. intros (b & E & _); discriminate.
  - cbn [app]. rewrite rd0. cbn [bind]. apply Forall_cons_iff in C. destruct C as [C0 C].
    destruct (c =? OPEN) eqn:CO; cbn [negb].
    + destruct (qv_spec rest t [c] 53 C) as (b & E & SP). exists b. split; [exact E|]. rewrite SP. split.
      * intros (body & -> & F & L). exists body. split; [f_equal; lia|]. split; [exact F|]. rewrite Zlen_cons. lia.
      * intros (body & E2 & F & L). exists body. split; [congruence|]. split; [exact F|]. rewrite Zlen_cons in L. lia.
    + exists false. split; [reflexivity|]. split; [discriminate|]. intros (b & E & _).
      assert (c = OPEN) by congruence. lia.
Qed.

Lemma adj_spec rest : forall body pre crc fuel, Forall printable body -> (length body < fuel)%nat ->
  adj fuel (pre ++ body ++ [CLOSE] ++ 0 :: rest) (Zlen pre) crc =
  Some (pre ++ body ++ [CLOSE_HI] ++ 0 :: rest, crc7_run crc (body ++ [CLOSE_HI])).
Proof.
  induction body as [|c body IH]; intros pre crc fuel F LE; (destruct fuel as [|fuel]; [cbn in LE; lia|]).
  - cbn [adj app]. rewrite rd_at by reflexivity. cbn [bind]. change (CLOSE =? 0) with false. cbn iota.
    rewrite (Z.eqb_refl CLOSE). rewrite rd_next by reflexivity. cbn [bind]. change (0 =? 0) with true. cbn iota.
    change (Z.lor CLOSE 128) with CLOSE_HI. unfold wr.
    rewrite blit_some by (pose proof (Zlen_nonneg pre); pose proof (Zlen_nonneg rest); autorewrite with zlen; lia).
    cbn [bind]. f_equal. f_equal.
    rewrite Zlen_cons. change (Zlen (@nil Z)) with 0.
    replace (Z.to_nat (Zlen pre)) with (length pre) by (unfold Zlen; lia).
    rewrite firstn_app, firstn_all, Nat.sub_diag. cbn [firstn]. rewrite app_nil_r. f_equal. cbn [app]. f_equal.
    replace (Z.to_nat (Zlen pre + (1 + 0))) with (length pre + 1)%nat by (unfold Zlen; lia).
    rewrite skipn_app. rewrite skipn_all2 by lia. replace (length pre + 1 - length pre)%nat with 1%nat by lia. reflexivity.
  - apply Forall_cons_iff in F. destruct F as [F0 F]. cbn in LE. cbn [adj app]. rewrite rd_at by reflexivity. cbn [bind].
    unfold printable in F0. replace (c =? 0) with false by lia.
    assert (ND : (if c =? CLOSE then do d <- rd (pre ++ c :: body ++ CLOSE :: 0 :: rest) (Zlen pre + 1) ; Some (d =? 0) else Some false) = Some false).
    { destruct (c =? CLOSE); [|reflexivity]. destruct body as [|d body]; cbn [app]; rewrite rd_next by reflexivity; cbn [bind]; [reflexivity|].
      apply Forall_cons_iff in F. destruct F as [D0 _]. unfold printable in D0. f_equal. lia. }
    rewrite ND. cbn [bind]. specialize (IH (pre ++ [c]) (crc7_5B_update crc c) fuel F ltac:(lia)).
    rewrite Zlen_snoc in IH. rewrite <- !app_assoc in IH. cbn [app] in IH. rewrite IH. reflexivity.
Qed.

(** Preparing for transmission changes nothing but the high bit of the closing brace and returns the
    7-bit CRC; an unacceptable string is left alone and reported with 0xff. *)
Theorem json_adjust s rest : cstring s ->
  (forall body, s = OPEN :: body ++ [CLOSE] -> Forall printable body -> Zlen s <= 54 ->
     adjustForTX (s ++ 0 :: rest) = Some (OPEN :: body ++ CLOSE_HI :: 0 :: rest, json_crc body) /\ 0 <= json_crc body < 128) /\
  (~ json_message s -> adjustForTX (s ++ 0 :: rest) = Some (s ++ 0 :: rest, 255)).
Proof.
  intros C. unfold adjustForTX. destruct (json_quick_validate s rest C) as (b & -> & SP). cbn [bind]. split.
  - intros body -> F L.
    assert (B : b = true) by (apply SP; exists body; auto). subst b. cbn [negb]. split.
    + pose proof (adj_spec rest body [OPEN] OPEN (length ((OPEN :: body ++ [CLOSE]) ++ 0 :: rest)) F) as A.
      cbn [app] in *. rewrite <- app_assoc. cbn [app]. rewrite <- app_assoc in A. cbn [app] in A.
      change (Zlen [OPEN]) with 1 in A. apply A. cbn [length]. rewrite app_length. lia.
    + apply crc7_run_range. unfold OPEN. lia.
  - intros N. destruct b; [exfalso; apply N; apply SP; reflexivity|]. reflexivity.
Qed.

Lemma ck_spec : forall (t pre : list Z) n crc, Forall byte t -> 1 <= Zlen pre -> Zlen pre + Z.of_nat n <= 55 ->
  Z.of_nat n < Zlen t ->
  exists r, ck n (pre ++ t) (Zlen pre) crc = Some r /\
    (forall k, k <> -1 -> r = k <-> exists body last next rest, t = body ++ last :: next :: rest /\ Forall printable body /\
       k = Zlen pre + Zlen body + 1 /\ Zlen body < Z.of_nat n /\
       ((last = CLOSE /\ next = 0) \/ (last = CLOSE_HI /\
          (next = crc7_run crc (body ++ [CLOSE_HI]) \/ (crc7_run crc (body ++ [CLOSE_HI]) = 0 /\ next = 128))))).
Proof.
  induction t as [|c t IH]; intros pre n crc B LP LN LT.
  { change (Zlen (@nil Z)) with 0 in LT. lia. }
  destruct n as [|n].
  { exists (-1). split; [reflexivity|]. intros k K. split; [congruence|]. intros (body & _ & _ & _ & _ & _ & _ & X & _).
    pose proof (Zlen_nonneg body). lia. }
  apply Forall_cons_iff in B. destruct B as [B0 B]. rewrite Zlen_cons in LT.
  destruct t as [|d t]; [change (Zlen (@nil Z)) with 0 in LT; lia|].
  cbn [ck]. rewrite rd_at by reflexivity. cbn [bind]. rewrite !rd_next by reflexivity. cbn [bind].
  set (crc1 := crc7_5B_update crc c).
  assert (SHIFT : forall b1, crc7_run crc1 (b1 ++ [CLOSE_HI]) = crc7_run crc ((c :: b1) ++ [CLOSE_HI])) by reflexivity.
  assert (NXT : printable c -> ~ (c = CLOSE /\ d = 0) ->
    exists r, ck n (pre ++ c :: d :: t) (Zlen pre + 1) crc1 = Some r /\
    (forall k, k <> -1 -> r = k <-> exists body last next rest, c :: d :: t = body ++ last :: next :: rest /\ Forall printable body /\
       k = Zlen pre + Zlen body + 1 /\ Zlen body < Z.of_nat (S n) /\
       ((last = CLOSE /\ next = 0) \/ (last = CLOSE_HI /\
          (next = crc7_run crc (body ++ [CLOSE_HI]) \/ (crc7_run crc (body ++ [CLOSE_HI]) = 0 /\ next = 128)))))).
  { intros PC NC. destruct (IH (pre ++ [c]) n crc1 B) as (r & E & SP).
    { rewrite Zlen_snoc. lia. } { rewrite Zlen_snoc. lia. } { lia. }
    rewrite Zlen_snoc in E. rewrite <- app_assoc in E. cbn [app] in E. exists r. split; [exact E|].
    intros k K. rewrite (SP k K). rewrite Zlen_snoc. split.
    - intros (body & last & next & rest & E2 & F & KE & LB & D). exists (c :: body), last, next, rest.
      cbn [app]. rewrite E2. split; [reflexivity|]. split; [constructor; assumption|]. rewrite Zlen_cons. split; [lia|]. split; [lia|].
      exact D.
    - intros (body & last & next & rest & E2 & F & KE & LB & D). destruct body as [|b0 body].
      { exfalso. cbn [app] in E2. assert (c = last) by congruence. assert (d = next) by congruence. subst last next.
        unfold printable in PC. unfold CLOSE_HI in D. destruct D as [D | [D _]]; [auto|lia]. }
      cbn [app] in E2. assert (b0 = c) by congruence. subst b0. apply Forall_cons_iff in F. destruct F as [_ F].
      rewrite Zlen_cons in *. exists body, last, next, rest. split; [congruence|]. split; [exact F|]. split; [lia|]. split; [lia|exact D]. }
  assert (BAD : forall r, r = -1 -> unprintable c = true -> ~ (c = CLOSE_HI /\ (d = crc1 \/ (crc1 = 0 /\ d = 128))) ->
    (forall k, k <> -1 -> r = k <-> exists body last next rest, c :: d :: t = body ++ last :: next :: rest /\ Forall printable body /\
       k = Zlen pre + Zlen body + 1 /\ Zlen body < Z.of_nat (S n) /\
       ((last = CLOSE /\ next = 0) \/ (last = CLOSE_HI /\
          (next = crc7_run crc (body ++ [CLOSE_HI]) \/ (crc7_run crc (body ++ [CLOSE_HI]) = 0 /\ next = 128)))))).
  { intros r -> U NH k K. split; [congruence|]. intros (body & last & next & rest & E2 & F & KE & LB & D). exfalso.
    destruct body as [|b0 body].
    - cbn [app] in E2. assert (c = last) by congruence. assert (d = next) by congruence. subst last next.
      destruct D as [[-> ->] | [-> D]]; [discriminate|]. apply NH. split; [reflexivity|exact D].
    - cbn [app] in E2. assert (b0 = c) by congruence. subst b0. apply Forall_cons_iff in F. destruct F as [F0 _].
      apply unprintable_spec in F0; [congruence|exact B0]. }
  assert (HERE : (c = CLOSE /\ d = 0) \/ (c = CLOSE_HI /\ (d = crc1 \/ (crc1 = 0 /\ d = 128))) ->
    (forall k, k <> -1 -> i8 (Zlen pre + 1) = k <-> exists body last next rest, c :: d :: t = body ++ last :: next :: rest /\ Forall printable body /\
       k = Zlen pre + Zlen body + 1 /\ Zlen body < Z.of_nat (S n) /\
       ((last = CLOSE /\ next = 0) \/ (last = CLOSE_HI /\
          (next = crc7_run crc (body ++ [CLOSE_HI]) \/ (crc7_run crc (body ++ [CLOSE_HI]) = 0 /\ next = 128)))))).
  { intros H k K. rewrite i8_id by lia. split.
    - intros <-. exists [], c, d, t. split; [reflexivity|]. split; [constructor|]. change (Zlen (@nil Z)) with 0.
      split; [lia|]. split; [lia|].
      destruct H as [H | [HC H]]; [left; exact H|right; split; [exact HC|]]. unfold crc1 in H. rewrite HC in H. exact H.
    - intros (body & last & next & rest & E2 & F & KE & LB & D). destruct body as [|b0 body].
      { change (Zlen (@nil Z)) with 0 in KE. lia. }
      exfalso. cbn [app] in E2. assert (b0 = c) by congruence. subst b0. apply Forall_cons_iff in F. destruct F as [F0 F].
      destruct H as [[-> ->] | [-> _]].
      + assert (E3 : 0 :: t = body ++ last :: next :: rest) by congruence. destruct body as [|b1 body]; cbn [app] in E3.
        * assert (last = 0) by congruence. subst last. destruct D as [[D _] | [D _]]; discriminate.
        * assert (b1 = 0) by congruence. subst b1. apply Forall_cons_iff in F. destruct F as [F1 _]. unfold printable in F1. lia.
      + unfold printable, CLOSE_HI in F0. lia. }
  destruct (c =? CLOSE) eqn:CC.
  - assert (c = CLOSE) by lia. subst c. clear CC. cbn [bind].
    destruct (d =? 0) eqn:D0.
    + assert (d = 0) by lia. subst d. eexists. split; [reflexivity|]. apply HERE. auto.
    + change (CLOSE =? CLOSE_HI) with false. cbn [bind]. change (unprintable CLOSE) with false.
      apply NXT; [unfold printable, CLOSE; lia|lia].
  - cbn [bind]. destruct (c =? CLOSE_HI) eqn:CH.
    + assert (c = CLOSE_HI) by lia. subst c. cbn [bind].
      destruct ((crc1 =? d) || ((crc1 =? 0) && (d =? 128))) eqn:DC.
      * eexists. split; [reflexivity|]. apply HERE. right. split; [reflexivity|lia].
      * change (unprintable CLOSE_HI) with true. eexists. split; [reflexivity|]. apply BAD; [reflexivity|reflexivity|lia].
    + cbn [bind]. destruct (unprintable c) eqn:U.
      * eexists. split; [reflexivity|]. apply BAD; [reflexivity|reflexivity|lia].
      * apply NXT; [apply unprintable_spec; assumption|lia].
Qed.

(** The receive check, on any buffer with one readable byte beyond the part to be examined, reads
    nothing else, and returns r exactly when a frame of r bytes, r at most the given length and 55, is there;
    otherwise -1. *)
Theorem json_rx_accepts_iff buf bufLen : Forall byte buf -> byte bufLen -> Z.min 55 bufLen < Zlen buf ->
  exists r, checkRX buf bufLen = Some r /\
    (forall k, k <> -1 -> r = k <-> json_frame buf k /\ k <= Z.min 55 bufLen).
Proof.
  intros B BL L. unfold byte in BL. destruct buf as [|c t]; [change (Zlen (@nil Z)) with 0 in L; lia|].
  apply Forall_cons_iff in B. destruct B as [B0 B]. unfold checkRX. rewrite rd0. cbn [bind].
  destruct (c =? OPEN) eqn:CO; cbn [negb].
  2:{ exists (-1). split; [reflexivity|]. intros k K. split; [congruence|]. intros [(body & last & next & rest & E & _) _].
      assert (c = OPEN) by congruence. lia. }
  assert (c = OPEN) by lia. subst c. rewrite Zlen_cons in L.
  destruct t as [|d t].
  { change (Zlen (@nil Z)) with 0 in L. replace (Z.to_nat (Z.min 55 bufLen - 1)) with 0%nat by lia.
    exists (-1). split; [reflexivity|]. intros k K. split; [congruence|]. intros [(body & last & next & rest & E & _) KL].
    destruct body; discriminate. }
  destruct (ck_spec (d :: t) [OPEN] (Z.to_nat (Z.min 55 bufLen - 1)) OPEN B) as (r & E & SP).
  { change (Zlen [OPEN]) with 1. lia. } { change (Zlen [OPEN]) with 1. lia. } { pose proof (Zlen_nonneg t). rewrite Zlen_cons in *. lia. }
  exists r. split; [exact E|]. intros k K. rewrite (SP k K). change (Zlen [OPEN]) with 1. split.
  - intros (body & last & next & rest & E2 & F & KE & LB & D). pose proof (Zlen_nonneg body). split; [|lia].
    exists body, last, next, rest. split; [f_equal; exact E2|]. split; [exact F|]. split; [lia|exact D].
  - intros [(body & last & next & rest & E2 & F & KE & D) KL]. exists body, last, next, rest.
    pose proof (Zlen_nonneg body).
    split; [congruence|]. split; [exact F|]. split; [lia|]. split; [|exact D].
    rewrite Z2Nat.id; lia.
Qed.

(** With only the given number of readable bytes the check can read one byte too far. *)
Theorem json_rx_overread_refuted : exists buf, Forall byte buf /\ checkRX buf (Zlen buf) = None.
Proof.
  exists [OPEN; CLOSE]. split; [repeat constructor; unfold byte, OPEN, CLOSE; lia|]. reflexivity.
Qed.

(** C48 (round trip).  Any acceptable message, made ready for transmission and sent followed by its
    CRC (as 0x80 or 0 when zero), is accepted by the receiver with its own length; content is the
    message with the high bit of the last byte set. *)
Theorem json_round_trip body rest crcb bufLen after : Forall printable body -> Zlen body <= 52 -> Forall byte after ->
  Zlen body + 2 <= bufLen < 256 -> Z.min 55 bufLen < Zlen body + 3 + Zlen after ->
  crcb = json_crc body \/ (json_crc body = 0 /\ crcb = 128) ->
  adjustForTX (OPEN :: body ++ CLOSE :: 0 :: rest) = Some (OPEN :: body ++ CLOSE_HI :: 0 :: rest, json_crc body) /\
  checkRX (OPEN :: body ++ CLOSE_HI :: crcb :: after) bufLen = Some (Zlen body + 2).
Proof.
  intros F L BA BL LL CR. pose proof (Zlen_nonneg body). split.
  - destruct (json_adjust (OPEN :: body ++ [CLOSE]) rest) as [A _].
    { constructor; [unfold OPEN; lia|]. apply Forall_app. split; [|constructor; [unfold CLOSE; lia|constructor]].
      eapply Forall_impl; [|exact F]. unfold printable. intros; lia. }
    destruct (A body eq_refl F) as [A1 _].
    { autorewrite with zlen. lia. }
    cbn [app] in A1. rewrite <- app_assoc in A1. cbn [app] in A1. exact A1.
  - assert (CB : byte crcb).
    { assert (0 <= json_crc body < 128) by (apply crc7_run_range; unfold OPEN; lia). unfold byte. lia. }
    destruct (json_rx_accepts_iff (OPEN :: body ++ CLOSE_HI :: crcb :: after) bufLen) as (r & E & SP).
    { constructor; [unfold byte, OPEN; lia|]. apply Forall_app. split; [eapply Forall_impl; [|exact F]; unfold printable, byte; intros; lia|].
      constructor; [unfold byte, CLOSE_HI; lia|]. constructor; assumption. }
    { unfold byte. lia. } { rewrite Zlen_cons, Zlen_app, !Zlen_cons. lia. }
    rewrite E. f_equal. apply SP; [lia|]. split; [|lia].
    exists body, CLOSE_HI, crcb, after. split; [reflexivity|]. split; [exact F|]. split; [reflexivity|]. right. split; [reflexivity|exact CR].
Qed.

(** C48 (corruption).  A message sent with a non-zero CRC byte and hit, in the bytes after the opening
    brace, by any odd number of bit errors or a burst of at most 7 bits is not accepted at its
    original length.  Missing from the full claim: acceptance of a shorter frame, see below. *)
Theorem json_corruption_partial body m' e after bufLen : Forall printable body -> Forall byte m' ->
  diff (body ++ [CLOSE_HI]) m' e -> ones_l e mod 2 = 1 \/ burst7 e ->
  byte bufLen -> Z.min 55 bufLen < Zlen body + 3 + Zlen after -> Forall byte after ->
  forall crcb, (crcb = json_crc body /\ crcb <> 0) \/ (json_crc body = 0 /\ crcb = 128) ->
  checkRX (OPEN :: m' ++ crcb :: after) bufLen <> Some (Zlen body + 2).
Proof.
  intros F B D ER BL LL BA crcb CR X. pose proof (Zlen_nonneg body).
  assert (CB : byte crcb /\ crcb <> 0).
  { assert (0 <= json_crc body < 128) by (apply crc7_run_range; unfold OPEN; lia). unfold byte. lia. }
  assert (LM : Zlen m' = Zlen body + 1).
  { destruct D as (D1 & _). unfold Zlen. rewrite <- D1, app_length. cbn. lia. }
  destruct (json_rx_accepts_iff (OPEN :: m' ++ crcb :: after) bufLen) as (r & E & SP).
  { constructor; [unfold byte, OPEN; lia|]. apply Forall_app. split; [exact B|]. constructor; [apply CB|exact BA]. }
  { exact BL. } { rewrite Zlen_cons, Zlen_app, Zlen_cons. lia. }
  rewrite E in X. apply some_inj in X. apply SP in X; [|lia].
  destruct X as [(b2 & last & next & rest & EQ & F2 & L2 & A) _].
  assert (EQ2 : m' ++ crcb :: after = (b2 ++ [last]) ++ next :: rest) by (rewrite <- app_assoc; cbn [app]; congruence).
  apply app_inj_len in EQ2.
  2:{ rewrite app_length. cbn. unfold Zlen in *. lia. }
  destruct EQ2 as [-> EQ3]. assert (next = crcb) by congruence. subst next.
  assert (DE : crc7_run OPEN (body ++ [CLOSE_HI]) <> crc7_run OPEN (b2 ++ [last])).
  { assert (BB : Forall byte (body ++ [CLOSE_HI])).
    { apply Forall_app. split; [eapply Forall_impl; [|exact F]; unfold printable, byte; intros; lia|].
      constructor; [unfold byte, CLOSE_HI; lia|constructor]. }
    destruct ER as [ER | ER]; [eapply crc7_odd | eapply crc7_burst]; eauto; unfold OPEN; lia. }
  pose proof (crc7_run_range OPEN (body ++ [CLOSE_HI]) ltac:(unfold OPEN; lia)).
  pose proof (crc7_run_range OPEN (b2 ++ [CLOSE_HI]) ltac:(unfold OPEN; lia)).
  unfold json_crc in *. destruct A as [[-> A] | [-> A]]; lia.
Qed.

(** The full claim fails.  {"b":{"j":1},"c":2} sent with its CRC; a single bit error in the inner
    brace makes the receiver accept its first 12 bytes, {"b":{"j":1} , as a message. *)
Definition nested : list Z := [34;98;34;58;123;34;106;34;58;49;125;44;34;99;34;58;50].
Definition nested_hit : list Z := [34;98;34;58;123;34;106;34;58;49;253;44;34;99;34;58;50].
Theorem json_truncated_accepted_refuted :
  Forall printable nested /\ json_message (OPEN :: nested ++ [CLOSE]) /\
  ones_l (map (fun p => Z.lxor (fst p) (snd p)) (combine nested nested_hit)) = 1 /\
  checkRX (OPEN :: nested ++ [CLOSE_HI; json_crc nested]) 20 = Some 19 /\
  checkRX (OPEN :: nested_hit ++ [CLOSE_HI; json_crc nested]) 20 = Some 12.
Proof.
  assert (F : Forall printable nested) by (unfold nested, printable; repeat (constructor; [lia|]); constructor).
  split; [exact F|]. split; [exists nested; split; [reflexivity|]; split; [exact F|vm_compute; discriminate]|].
  split; [reflexivity|]. split; vm_compute; reflexivity.
Qed.
(** And {"k":5}, whose CRC is 0, sent with CRC byte 0: one bit error makes it a raw message. *)
Definition zero_crc : list Z := [34;107;34;58;53].
Theorem json_raw_accepted_refuted : json_crc zero_crc = 0 /\
  checkRX (OPEN :: zero_crc ++ [CLOSE_HI; 0]) 7 = Some 7 /\ checkRX (OPEN :: zero_crc ++ [CLOSE; 0]) 7 = Some 7.
Proof. vm_compute. auto. Qed.

(** Non-vacuity: a message, its frame, a corrupted copy. *)
Example json_message_met : json_message (OPEN :: nested ++ [CLOSE]) /\ cstring (OPEN :: nested ++ [CLOSE]) /\
  ~ json_message [OPEN; 10; CLOSE] /\ quickValidate ((OPEN :: nested ++ [CLOSE]) ++ [0]) = Some true.
Proof.
  split; [apply json_truncated_accepted_refuted|].
  split; [unfold cstring, nested, OPEN, CLOSE; cbn; repeat (constructor; [lia|]); constructor|]. split; [|reflexivity].
  intros (b & E & F & _). destruct b as [|x [|y b]]; try discriminate.
  - cbn [app] in E; assert (x = 10) by congruence. subst. apply Forall_cons_iff in F. destruct F as [F _]. unfold printable in F. lia.
  - destruct b; discriminate.
Qed.
Example json_corruption_met : exists e, diff (zero_crc ++ [CLOSE_HI]) ([34;107;34;58;52] ++ [CLOSE_HI]) e /\ ones_l e mod 2 = 1 /\ burst7 e /\
  checkRX (OPEN :: ([34;107;34;58;52] ++ [CLOSE_HI]) ++ 128 :: []) 7 = Some (-1).
Proof.
  exists [0;0;0;0;1;0]. split; [split; [reflexivity|]; split; [reflexivity|]|].
  { intros i H. change (Zlen (zero_crc ++ [CLOSE_HI])) with 6 in H.
    assert (D : i = 0 \/ i = 1 \/ i = 2 \/ i = 3 \/ i = 4 \/ i = 5) by lia.
    repeat (destruct D as [-> | D]; [reflexivity|]). subst i. reflexivity. }
  split; [reflexivity|]. split; [exists 1, 8; split; [lia|]; split; [lia|reflexivity]|]. vm_compute. reflexivity.
Qed.
