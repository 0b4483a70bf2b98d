(** Hourly statistics: smoothing (C50) and temperature compression (C51). *)
From Verif Require Import Base EepromModel StatsModel.

Lemma land7 r : Z.land r 7 = r mod 8.
Proof. change 7 with (Z.ones 3). rewrite Z.land_ones by lia. reflexivity. Qed.

(** Closed form. *)
Lemma smooth_eq rnd old new : byte old -> byte new ->
  smooth rnd old new = if old =? new then old else (7 * old + new + rnd mod 8) / 8.
Proof.
  intros Ho Hn. unfold smooth. destruct (old =? new); [reflexivity|]. rewrite land7.
  pose proof (Z.mod_pos_bound rnd 8). unfold byte in *.
  rewrite Z.shiftl_mul_pow2 by lia. change (2 ^ 3) with 8.
  rewrite (u16_id (old * 8)) by lia. rewrite u16_id by lia.
  rewrite Z.shiftr_div_pow2 by lia. change (2 ^ 3) with 8.
  replace (old * 8 - old + new + rnd mod 8) with (7 * old + new + rnd mod 8) by lia.
  apply u8_id. unfold byte. set (r := rnd mod 8) in *. clearbody r.
  split; [apply Z.div_pos; lia|apply Z.div_lt_upper_bound; lia].
Qed.

(** The smoothed value lies between the old value and the new sample, whatever
    the random number. *)
Theorem smooth_between : forall rnd old new, byte old -> byte new ->
  Z.min old new <= smooth rnd old new <= Z.max old new.
Proof.
  intros rnd old new Ho Hn. rewrite smooth_eq by auto. destruct (old =? new) eqn:E; [lia|].
  pose proof (Z.mod_pos_bound rnd 8). set (r := rnd mod 8) in *. clearbody r. unfold byte in *.
  clear rnd. Z.div_mod_to_equations. lia.
Qed.
Example smooth_between_ex : smooth 5 100 20 = 90 /\ smooth 7 100 20 = 90 /\ smooth 0 0 254 = 31 /\ smooth 7 0 254 = 32.
Proof. vm_compute. auto. Qed.

(** So a set value never turns into the 'unset' value. *)
Theorem smooth_never_unset : forall rnd old new, 0 <= old < 255 -> 0 <= new < 255 ->
  0 <= smooth rnd old new < 255.
Proof.
  intros rnd old new Ho Hn. pose proof (smooth_between rnd old new). unfold byte in *. lia.
Qed.

(** Averaged over the eight equally likely roundings the result is exactly
    (7*old + new)/8: the stochastic rounding is unbiased. *)
Theorem smooth_unbiased : forall old new, byte old -> byte new ->
  smooth 0 old new + smooth 1 old new + smooth 2 old new + smooth 3 old new +
  smooth 4 old new + smooth 5 old new + smooth 6 old new + smooth 7 old new = 7 * old + new.
Proof.
  intros old new Ho Hn. rewrite !smooth_eq by auto. destruct (old =? new) eqn:E; [lia|].
  change (0 mod 8) with 0. change (1 mod 8) with 1. change (2 mod 8) with 2. change (3 mod 8) with 3.
  change (4 mod 8) with 4. change (5 mod 8) with 5. change (6 mod 8) with 6. change (7 mod 8) with 7.
  set (x := 7 * old + new). clearbody x. clear. Z.div_mod_to_equations. lia.
Qed.
Example smooth_unbiased_ex :
  map (fun r => smooth r 100 98) [0;1;2;3;4;5;6;7] = [99; 99; 100; 100; 100; 100; 100; 100].
Proof. reflexivity. Qed.

(** Exactly when an update moves the value. *)
Theorem smooth_moves_iff : forall rnd old new, byte old -> byte new ->
  (smooth rnd old new <> old <->
   (new < old /\ rnd mod 8 < old - new) \/ (old < new /\ 8 <= new - old + rnd mod 8)).
Proof.
  intros rnd old new Ho Hn. rewrite smooth_eq by auto. destruct (old =? new) eqn:E; [lia|].
  pose proof (Z.mod_pos_bound rnd 8). set (r := rnd mod 8) in *. clearbody r. clear rnd.
  unfold byte in *. Z.div_mod_to_equations. lia.
Qed.

(** ** A constant input *)
Definition smooth_run (new : Z) (rs : list Z) (old : Z) : Z :=
  fold_left (fun o r => smooth r o new) rs old.

Lemma smooth_byte rnd old new : byte old -> byte new -> byte (smooth rnd old new).
Proof. intros Ho Hn. pose proof (smooth_between rnd old new Ho Hn). unfold byte in *. lia. Qed.
Lemma smooth_run_byte new rs : byte new -> forall old, byte old -> byte (smooth_run new rs old).
Proof.
  intros Hn. induction rs; intros old Ho; [exact Ho|]. apply IHrs. apply smooth_byte; auto.
Qed.

(** The distance to a constant input never grows and the value never crosses it... *)
Theorem smooth_distance_shrinks : forall rs new old, byte old -> byte new ->
  Z.abs (smooth_run new rs old - new) <= Z.abs (old - new) /\
  (old <= new -> smooth_run new rs old <= new) /\ (new <= old -> new <= smooth_run new rs old).
Proof.
  induction rs as [|r rs IH]; intros new old Ho Hn; [cbn; lia|].
  cbn [smooth_run fold_left]. fold (smooth_run new rs (smooth r old new)).
  pose proof (smooth_between r old new Ho Hn).
  specialize (IH new (smooth r old new) (smooth_byte r old new Ho Hn) Hn). lia.
Qed.

(** ... and after 248 updates it is within 7 of it, for every random sequence. *)
Theorem smooth_converges_near_partial : forall rs new old, byte old -> byte new ->
  (248 <= length rs)%nat -> Z.abs (smooth_run new rs old - new) <= 7.
Proof.
  assert (G : forall rs new old, byte old -> byte new ->
    Z.abs (smooth_run new rs old - new) <= Z.max 7 (Z.abs (old - new) - Z.of_nat (length rs))).
  { induction rs as [|r rs IH]; intros new old Ho Hn; [cbn; lia|].
    cbn [smooth_run fold_left length]. fold (smooth_run new rs (smooth r old new)).
    pose proof (smooth_between r old new Ho Hn).
    specialize (IH new (smooth r old new) (smooth_byte r old new Ho Hn) Hn).
    pose proof (smooth_moves_iff r old new Ho Hn) as HM. pose proof (Z.mod_pos_bound r 8 ltac:(lia)).
    destruct (Z.eq_dec (smooth r old new) old) as [E|E].
    - assert (~ ((new < old /\ r mod 8 < old - new) \/ (old < new /\ 8 <= new - old + r mod 8))) by tauto. lia.
    - clear HM. lia. }
  intros rs new old Ho Hn HL. specialize (G rs new old Ho Hn). unfold byte in *. lia.
Qed.

(** Full convergence needs luck: with an unlucky generator the last step is
    never taken, for any number of updates. *)
Theorem smooth_converges_refuted : exists old new r, byte old /\ byte new /\ old <> new /\
  forall n, smooth_run new (repeat r n) old <> new.
Proof.
  exists 100, 99, 7. split; [unfold byte; lia|]. split; [unfold byte; lia|]. split; [lia|].
  intros n. assert (smooth_run 99 (repeat 7 n) 100 = 100); [|lia].
  induction n; [reflexivity|]. cbn [repeat smooth_run fold_left]. exact IHn.
Qed.

(** But it suffices that the rounding goes the right way |old - new| times,
    anywhere in the sequence: a draw of 0 (mod 8) when the value is too high, of
    7 when it is too low. *)
Definition lucky (old new r : Z) : bool := if new <? old then r mod 8 =? 0 else r mod 8 =? 7.
Fixpoint count_lucky (old new : Z) (rs : list Z) : Z :=
  match rs with [] => 0 | r :: rs => (if lucky old new r then 1 else 0) + count_lucky old new rs end.
Theorem smooth_converges_with_luck : forall rs new old, byte old -> byte new ->
  Z.abs (old - new) <= count_lucky old new rs -> smooth_run new rs old = new.
Proof.
  assert (G : forall rs new old o, byte o -> byte new -> (new < old -> new <= o) -> (old <= new -> o <= new) ->
    Z.abs (smooth_run new rs o - new) <= Z.max 0 (Z.abs (o - new) - count_lucky old new rs)).
  { induction rs as [|r rs IH]; intros new old o Ho Hn H1 H2; [cbn; lia|].
    cbn [smooth_run fold_left count_lucky]. fold (smooth_run new rs (smooth r o new)).
    pose proof (smooth_between r o new Ho Hn).
    specialize (IH new old (smooth r o new) (smooth_byte r o new Ho Hn) Hn ltac:(lia) ltac:(lia)).
    pose proof (smooth_moves_iff r o new Ho Hn) as HM. pose proof (Z.mod_pos_bound r 8 ltac:(lia)).
    unfold lucky in *.
    assert (0 <= count_lucky old new rs).
    { clear. induction rs; cbn [count_lucky]; [lia|]. destruct (lucky old new a); lia. }
    destruct (Z.eq_dec (smooth r o new) o) as [E|E].
    - assert (~ ((new < o /\ r mod 8 < o - new) \/ (o < new /\ 8 <= new - o + r mod 8))) by tauto.
      clear HM. rewrite E in *. destruct (new <? old) eqn:E1; destruct (r mod 8 =? _) eqn:E2; lia.
    - clear HM. destruct (new <? old) eqn:E1; destruct (r mod 8 =? _) eqn:E2; lia. }
  intros rs new old Ho Hn HL. specialize (G rs new old old Ho Hn ltac:(lia) ltac:(lia)). lia.
Qed.
Example smooth_converges_with_luck_ex :
  smooth_run 99 [7; 3; 7; 0; 5; 7] 100 = 99 /\ count_lucky 100 99 [7; 3; 7; 0; 5; 7] = 1.
Proof. vm_compute. auto. Qed.

(** ** Temperature compression *)
Ltac cmp t := unfold compressTempC16;
  destruct (t <=? 0) eqn:?; destruct (t <? 256) eqn:?; destruct (t <? 384) eqn:?; destruct (t <? 1600) eqn:?;
  rewrite ?Z.shiftr_div_pow2 by lia; change (2 ^ 3) with 8; change (2 ^ 1) with 2.

Lemma compress_eq t : compressTempC16 t =
  if t <=? 0 then 0 else if t <? 256 then t / 8 else if t <? 384 then (t - 256) / 2 + 32
  else if t <? 1600 then (t - 384) / 8 + 96 else 248.
Proof.
  cmp t; try lia; try (rewrite u8_id; [reflexivity|unfold byte; Z.div_mod_to_equations; lia]).
Qed.
Lemma expand_eq c : byte c -> expandTempC16 c =
  if c <? 32 then 8 * c else if c <? 96 then 2 * (c - 32) + 256
  else if c <=? 248 then 8 * (c - 96) + 384 else UNSET_INT.
Proof.
  unfold expandTempC16, byte. intros.
  destruct (c <? 32) eqn:?; destruct (c <? 96) eqn:?; destruct (c <=? 248) eqn:?; try lia;
  rewrite ?Z.shiftl_mul_pow2 by lia; change (2 ^ 3) with 8; change (2 ^ 1) with 2;
  rewrite ?i16_id by lia; lia.
Qed.

(** The compressed value is in 0..248: never the 'unset' byte. *)
Theorem compress_range : forall t, 0 <= compressTempC16 t <= 248.
Proof.
  intros t. rewrite compress_eq.
  destruct (t <=? 0) eqn:?; destruct (t <? 256) eqn:?; destruct (t <? 384) eqn:?; destruct (t <? 1600) eqn:?;
  Z.div_mod_to_equations; lia.
Qed.
(** Monotone. *)
Theorem compress_monotone : forall t t', t <= t' -> compressTempC16 t <= compressTempC16 t'.
Proof.
  intros t t' H. rewrite !compress_eq.
  destruct (t <=? 0) eqn:?; destruct (t <? 256) eqn:?; destruct (t <? 384) eqn:?; destruct (t <? 1600) eqn:?;
  destruct (t' <=? 0) eqn:?; destruct (t' <? 256) eqn:?; destruct (t' <? 384) eqn:?; destruct (t' <? 1600) eqn:?;
  Z.div_mod_to_equations; lia.
Qed.
(** Round trip: truncation to 1/2 C everywhere in 0..100 C, to 1/8 C between
    16 C and 24 C; saturation outside. *)
Theorem compress_expand_accuracy : forall t,
  (t <= 0 -> expandTempC16 (compressTempC16 t) = 0) /\
  (0 <= t <= 1600 -> 0 <= t - expandTempC16 (compressTempC16 t) < 8) /\
  (256 <= t < 384 -> 0 <= t - expandTempC16 (compressTempC16 t) < 2) /\
  (1600 <= t -> expandTempC16 (compressTempC16 t) = 1600).
Proof.
  intros t. pose proof (compress_range t). rewrite expand_eq by (unfold byte; lia).
  rewrite compress_eq in *. unfold UNSET_INT.
  destruct (t <=? 0) eqn:E0; destruct (t <? 256) eqn:E1; destruct (t <? 384) eqn:E2; destruct (t <? 1600) eqn:E3;
  match goal with |- context [?c <? 32] => destruct (c <? 32) eqn:?; destruct (c <? 96) eqn:?; destruct (c <=? 248) eqn:? end;
  Z.div_mod_to_equations; lia.
Qed.
(** Every stored value is its own round trip; invalid bytes expand to UNSET_INT. *)
Theorem expand_compress : forall c, byte c ->
  (c <= 248 -> compressTempC16 (expandTempC16 c) = c /\ 0 <= expandTempC16 c <= 1600) /\
  (248 < c -> expandTempC16 c = 32767).
Proof.
  intros c H. unfold byte in *. rewrite expand_eq by (unfold byte; lia).
  destruct (c <? 32) eqn:?; destruct (c <? 96) eqn:?; destruct (c <=? 248) eqn:?;
  (split; intros; [split|]); try rewrite compress_eq; unfold UNSET_INT; try lia;
  match goal with |- context [?t <=? 0] => destruct (t <=? 0) eqn:?; destruct (t <? 256) eqn:?; destruct (t <? 384) eqn:?; destruct (t <? 1600) eqn:? end;
  Z.div_mod_to_equations; lia.
Qed.
Example compress_ex : compressTempC16 (20 * 16 + 5) = 66 /\ expandTempC16 66 = 20 * 16 + 4 /\
  compressTempC16 (-3) = 0 /\ compressTempC16 3000 = 248 /\ expandTempC16 255 = 32767.
Proof. vm_compute. auto 6. Qed.
