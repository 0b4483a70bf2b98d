(** C62: the received-frame trimming filter and the 0xff-terminated length helper.
    content/OTRadioLink/utility/OTRadioLink_OTRadioLink.cpp lines 41-51 and 99-108. *)
From Verif Require Import Base.

(** Loop of frameFilterTrailingZeros, lines 105-106: [b] is the index last looked at. *)
Fixpoint tz_loop (fuel : nat) (buf : list Z) (b : Z) : option Z :=
  match fuel with
  | O => None
  | S fuel =>
      let b := b - 1 in
      do v <- rd buf b ;                                     (* 105: 0 == *--b *)
      if v =? 0 then (if b =? 0 then Some 1 else tz_loop fuel buf b)  (* 105 *)
      else Some (u8 (b + 2))                                 (* 106 *)
  end.

(** frameFilterTrailingZeros, lines 99-108: the new value of buflen (the result is always true).
    [None] is a read outside the buffer. *)
Definition filterTrailingZeros (buf : list Z) (buflen : Z) : option Z :=
  if buflen <=? 1 then Some buflen else                      (* 101 *)
  do v <- rd buf (buflen - 1) ;                              (* 102-103 *)
  if negb (v =? 0) then Some buflen else
  tz_loop (Z.to_nat buflen) buf (buflen - 1).

Lemma tz_loop_ok buf fuel : forall b, 1 <= b -> b < Zlen buf -> b <= 254 -> (Z.to_nat b <= fuel)%nat ->
  znth buf b = 0 ->
  exists n, tz_loop fuel buf b = Some n /\ 1 <= n <= b + 1 /\
    (forall i, n <= i <= b -> znth buf i = 0) /\ znth buf (n - 1) = 0 /\ (n = 1 \/ znth buf (n - 2) <> 0).
Proof.
  induction fuel as [|fuel IH]; intros b B1 B2 B3 F Z0; [lia|].
  cbn [tz_loop]. rewrite rd_some by lia. cbn [bind].
  destruct (znth buf (b - 1) =? 0) eqn:E.
  - destruct (b - 1 =? 0) eqn:E1.
    + exists 1. split; [reflexivity|]. split; [lia|]. split.
      * intros i Hi. replace i with b by lia. exact Z0.
      * split; [|auto]. replace (1 - 1) with (b - 1) by lia. lia.
    + destruct (IH (b - 1)) as (n & -> & N1 & N2 & N3 & N4); try lia.
      exists n. split; [reflexivity|]. split; [lia|]. split; [|auto].
      intros i Hi. destruct (Z.eq_dec i b) as [-> |]; [exact Z0|]. apply N2. lia.
  - exists (b + 1). rewrite u8_id by (unfold byte; lia).
    split; [f_equal; lia|]. split; [lia|]. split; [intros; lia|].
    replace (b + 1 - 1) with b by lia. split; [exact Z0|]. right.
    replace (b + 1 - 2) with (b - 1) by lia. lia.
Qed.

(** C62 (filter).  On any frame held in a buffer at least as long as its stated length the filter
    stays inside the frame and returns a length that drops only zero bytes, keeps at least one
    byte of a non-empty frame, and leaves at most one trailing zero (after a non-zero byte). *)
Theorem trailing_zero_filter buf buflen :
  0 <= buflen <= 255 -> buflen <= Zlen buf ->
  exists n, filterTrailingZeros buf buflen = Some n /\
    n <= buflen /\ (1 <= buflen -> 1 <= n) /\
    (forall i, n <= i < buflen -> znth buf i = 0) /\
    (n < buflen -> znth buf (n - 1) = 0) /\
    (2 <= n -> znth buf (n - 1) <> 0 \/ znth buf (n - 2) <> 0).
Proof.
  intros B L. unfold filterTrailingZeros.
  destruct (buflen <=? 1) eqn:E.
  - exists buflen. split; [reflexivity|]. repeat split; intros; lia.
  - rewrite rd_some by lia. cbn [bind].
    destruct (znth buf (buflen - 1) =? 0) eqn:E1; cbn [negb].
    + destruct (tz_loop_ok buf (Z.to_nat buflen) (buflen - 1)) as (n & -> & N1 & N2 & N3 & N4); try lia.
      exists n. split; [reflexivity|]. split; [lia|]. split; [lia|].
      split; [intros i Hi; apply N2; lia|]. split; [auto|]. intros. destruct N4; [lia|auto].
    + exists buflen. split; [reflexivity|]. repeat split; intros; lia.
Qed.

(** The filter reads nothing beyond the frame: bytes after it do not matter. *)
Theorem trailing_zero_filter_local buf tail buflen :
  0 <= buflen <= 255 -> buflen = Zlen buf ->
  filterTrailingZeros (buf ++ tail) buflen = filterTrailingZeros buf buflen.
Proof.
  intros B L. pose proof (Zlen_nonneg tail). unfold filterTrailingZeros. destruct (buflen <=? 1) eqn:E; [reflexivity|].
  assert (RD : forall i, i < buflen -> rd (buf ++ tail) i = rd buf i).
  { intros i Hi. unfold rd. rewrite Zlen_app.
    destruct (0 <=? i) eqn:E0; [|reflexivity]. replace (i <? Zlen buf) with true by lia.
    replace (i <? Zlen buf + Zlen tail) with true by lia. cbn [andb]. rewrite znth_app by lia.
    replace (i <? Zlen buf) with true by lia. reflexivity. }
  rewrite RD by lia. destruct (rd buf (buflen - 1)) as [v|]; cbn [bind]; [|reflexivity].
  destruct (negb (v =? 0)); [reflexivity|].
  assert (G : forall fuel b, b < buflen -> tz_loop fuel (buf ++ tail) b = tz_loop fuel buf b).
  { induction fuel as [|fuel IH]; intros b Hb; [reflexivity|]. cbn [tz_loop]. rewrite RD by lia.
    destruct (rd buf (b - 1)) as [w|]; cbn [bind]; [|reflexivity]. rewrite IH by lia. reflexivity. }
  apply G. lia.
Qed.

Example trailing_zero_example :
  filterTrailingZeros [5;0;7;0;0;0] 6 = Some 4 /\ filterTrailingZeros [0;0;0] 3 = Some 1 /\
  filterTrailingZeros [1;0] 2 = Some 2 /\ filterTrailingZeros [1;2] 2 = Some 2.
Proof. repeat split; vm_compute; reflexivity. Qed.

(** frameLenFFTerminated, lines 41-51 (non-NULL argument). [len] counts as a uint8_t;
    [fuel] bounds the at most 256 iterations before it wraps to 0. *)
Fixpoint ff_loop (fuel : nat) (buf : list Z) (pos len : Z) : option Z :=
  match fuel with
  | O => None
  | S fuel =>
      do v <- rd buf pos ;                                   (* 45 *)
      if v =? 255 then Some len else
      let len := u8 (len + 1) in                             (* 47 *)
      if len =? 0 then Some 0 else ff_loop fuel buf (pos + 1) len  (* 48 *)
  end.
Definition frameLenFF (buf : list Z) : option Z := ff_loop 257 buf 0 0.

Lemma ff_loop_ok buf fuel : forall pos, 0 <= pos <= 255 -> (Z.to_nat (256 - pos) < fuel)%nat ->
  (forall i, 0 <= i < pos -> znth buf i <> 255) ->
  (forall k, pos <= k <= 255 -> k < Zlen buf -> znth buf k = 255 -> (forall i, 0 <= i < k -> znth buf i <> 255) ->
     ff_loop fuel buf pos pos = Some k) /\
  ((forall i, 0 <= i <= 255 -> znth buf i <> 255) -> 256 <= Zlen buf -> ff_loop fuel buf pos pos = Some 0).
Proof.
  induction fuel as [|fuel IH]; intros pos P F B; [lia|]. cbn [ff_loop]. split.
  - intros k K L E FR. rewrite rd_some by lia. cbn [bind].
    destruct (Z.eq_dec pos k) as [-> | NE].
    + rewrite E. reflexivity.
    + pose proof (FR pos ltac:(lia)). replace (znth buf pos =? 255) with false by lia.
      rewrite u8_id by (unfold byte; lia). replace (pos + 1 =? 0) with false by lia.
      apply IH; try lia; auto. intros i Hi. apply FR. lia.
  - intros A L. rewrite rd_some by lia. cbn [bind].
    pose proof (A pos ltac:(lia)). replace (znth buf pos =? 255) with false by lia.
    destruct (Z.eq_dec pos 255) as [-> | NE]; [reflexivity|].
    rewrite u8_id by (unfold byte; lia). replace (pos + 1 =? 0) with false by lia.
    apply IH; try lia; auto. intros i Hi. apply A. lia.
Qed.

(** C62 (length helper).  For a buffer whose first 0xff is at index k <= 255 the result is k, even
    if the buffer ends right there; with no 0xff in the first 256 bytes it is 0. *)
Theorem ff_length buf k :
  0 <= k <= 255 -> k < Zlen buf -> znth buf k = 255 -> (forall i, 0 <= i < k -> znth buf i <> 255) ->
  frameLenFF buf = Some k.
Proof. intros. apply (ff_loop_ok buf 257 0); auto; try lia. Qed.

Theorem ff_length_unterminated buf :
  (forall i, 0 <= i <= 255 -> znth buf i <> 255) -> 256 <= Zlen buf -> frameLenFF buf = Some 0.
Proof. intros. apply (ff_loop_ok buf 257 0); auto; lia. Qed.

Example ff_length_example : frameLenFF [1;2;3;255] = Some 3 /\ frameLenFF (repeat 0 256) = Some 0.
Proof. split; vm_compute; reflexivity. Qed.
