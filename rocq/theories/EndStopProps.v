(** C178: the temperature dial's end stops are at the ends of its travel. *)
From Verif Require Import Base EepromModel EepromProofs OccModel ScheduleModel TempModel TempProps DialProps.

(** read(), 206-207: the reading, turned round if the range is given backwards (180). *)
Definition corrected (mn mx tp : Z) : Z := if mn >? mx then u16 (1023 - tp) else tp.
(** One read() of a dial declared with range [mn] (cold end) to [mx] (hot end), when the ADC reads [tp]:
    SensorTemperaturePot.h 184, 192-265. *)
Definition dial_read (mn mx : Z) (s : Pot) (tp : Z) : Pot * list PotCall :=
  pot_read (computeLoEndStop mn mx) (computeHiEndStop mn mx) s (corrected mn mx tp).

(** ** Specification *)
(** A dial that has been read before, at [s], and is then seen to have moved to the reading [r] (after correction). *)
Definition seen_to_move (s : Pot) (r : Z) : Prop :=
  0 <= pot_raw s <= 1023 /\ byte (pot_value s) /\
  (pot_value s < r / 4 /\ pot_raw s + 4 <= r \/ r / 4 < pot_value s /\ r + 4 <= pot_raw s).
(** How far from the cold end, in 256ths of the whole scale, whichever way round the dial is. *)
Definition usable (mn mx : Z) : Prop := 0 <= mn /\ mn < 988 /\ mx <= 1023 /\ mn + 72 <= mx.

Lemma shr2 x : Z.shiftr x 2 = x / 4. Proof. rewrite Z.shiftr_div_pow2 by lia. reflexivity. Qed.
Theorem endstop_values mn mx : 0 <= mn <= 1023 -> 0 <= mx <= 1023 ->
  computeLoEndStop mn mx = (if Z.min mn mx / 4 <? 247 then Z.min mn mx / 4 + 8 else Z.min mn mx / 4) /\
  computeHiEndStop mn mx = (if Z.max mn mx / 4 <? 8 then Z.max mn mx / 4 else Z.max mn mx / 4 - 8).
Proof.
  intros H1 H2. unfold computeLoEndStop, computeHiEndStop, RN_FRBO. cbv zeta. rewrite ?fnmax_max, ?fnmin_min, !shr2.
  assert (A : Z.min (mn / 4) (mx / 4) = Z.min mn mx / 4).
  { destruct (Z_le_gt_dec mn mx); [rewrite (Z.min_l mn), Z.min_l by (try apply Z.div_le_mono; lia)|rewrite (Z.min_r mn), Z.min_r by (try apply Z.div_le_mono; lia)]; reflexivity. }
  assert (B : Z.max (mn / 4) (mx / 4) = Z.max mn mx / 4).
  { destruct (Z_le_gt_dec mn mx); [rewrite (Z.max_r mn), Z.max_r by (try apply Z.div_le_mono; lia)|rewrite (Z.max_l mn), Z.max_l by (try apply Z.div_le_mono; lia)]; reflexivity. }
  rewrite A, B. set (a := Z.min mn mx / 4). set (b := Z.max mn mx / 4).
  assert (0 <= a <= 255) by (unfold a; clear -H1 H2; lia). assert (0 <= b <= 255) by (unfold b; clear -H1 H2; lia).
  clearbody a b. rewrite (u8_id a), (u8_id b) by (red; lia). split.
  - change (255 - 8) with 247. destruct (a <? 247) eqn:F.
    + apply Z.ltb_lt in F. replace (a >=? 247) with false by (symmetry; rewrite Z.geb_leb; apply Z.leb_gt; lia). apply u8_id. red; lia.
    + apply Z.ltb_ge in F. replace (a >=? 247) with true by (symmetry; apply Z.geb_le; lia). reflexivity.
  - destruct (b <? 8) eqn:F; [reflexivity|]. apply Z.ltb_ge in F. apply u8_id. red; lia.
Qed.

(** The notifications given by a read that sees the dial move. *)
Lemma moved_calls lo hi s r : 0 <= r <= 1023 -> seen_to_move s r ->
  snd (pot_read lo hi s r) = (if r / 4 <? lo then [CallFrost] else if r / 4 >? hi then [CallBakeStart]
    else if r / 4 <? pot_value s then [CallBakeCancel] else [CallWarm]) ++ [CallOccupied].
Proof.
  intros Hr (H1 & H2 & H3). unfold pot_read. cbv zeta. rewrite shr2.
  assert (byte (r / 4)) by (red; clear -Hr; lia). rewrite u8_id by assumption. unfold byte in *.
  assert (G : (r / 4 >? pot_value s) && (u16 (r - pot_raw s) >=? 4) || (r / 4 <? pot_value s) && (u16 (pot_raw s - r) >=? 4) = true).
  { destruct H3 as [[A B]|[A B]].
    - assert (u16 (r - pot_raw s) = r - pot_raw s) as -> by (unfold u16; rewrite Z.mod_small; lia).
      replace (r / 4 >? pot_value s) with true by (symmetry; apply Z.gtb_lt; lia). replace (r - pot_raw s >=? 4) with true by (symmetry; apply Z.geb_le; lia). reflexivity.
    - assert (u16 (pot_raw s - r) = pot_raw s - r) as -> by (unfold u16; rewrite Z.mod_small; lia).
      replace (r / 4 <? pot_value s) with true by (symmetry; apply Z.ltb_lt; lia). replace (pot_raw s - r >=? 4) with true by (symmetry; apply Z.geb_le; lia). cbn [andb]. apply orb_true_r. }
  rewrite G. replace (65535 =? pot_raw s) with false by (symmetry; apply Z.eqb_neq; lia). cbn [negb snd].
  destruct (r / 4 <? lo); [reflexivity|]. destruct (r / 4 >? hi); [reflexivity|]. destruct (r / 4 <? pot_value s) eqn:E; [reflexivity|].
  replace (r / 4 >? pot_value s) with true; [reflexivity|]. symmetry. apply Z.gtb_lt. apply Z.ltb_ge in E. clear - E H3. destruct H3; lia.
Qed.

(** A dial that isn't turned round, or whose range is symmetric about the middle: turning it to the cold end forces
    FROST, to the hot end starts a BAKE, and anywhere between only up/down. *)
Theorem endstop_dial_partial mn mx s tp : usable (Z.min mn mx) (Z.max mn mx) -> mn < mx \/ mn + mx = 1023 ->
  Z.min mn mx <= tp <= Z.max mn mx -> seen_to_move s (corrected mn mx tp) ->
  let from_cold := Z.abs (tp - mn) in let from_hot := Z.abs (tp - mx) in
  (from_cold <= 28 -> snd (dial_read mn mx s tp) = [CallFrost; CallOccupied]) /\
  (from_hot <= 28 -> snd (dial_read mn mx s tp) = [CallBakeStart; CallOccupied]) /\
  (36 <= from_cold -> 36 <= from_hot ->
    snd (dial_read mn mx s tp) = [if corrected mn mx tp / 4 <? pot_value s then CallBakeCancel else CallWarm; CallOccupied]).
Proof.
  intros (U1 & U2 & U3 & U4) D Ht M from_cold from_hot.
  assert (C : corrected mn mx tp = (if mn >? mx then 1023 - tp else tp)).
  { unfold corrected. destruct (mn >? mx); [|reflexivity]. unfold u16. apply Z.mod_small. lia. }
  assert (R : 0 <= corrected mn mx tp <= 1023) by (rewrite C; destruct (mn >? mx); lia).
  unfold dial_read. rewrite !(moved_calls _ _ _ _ R M).
  destruct (endstop_values mn mx) as [-> ->]; [lia|lia|].
  rewrite !C in *. clear C M. unfold from_cold, from_hot in *. clear from_cold from_hot.
  assert (L : exists a b, Z.min mn mx = a /\ Z.max mn mx = b /\ 0 <= a /\ a < 988 /\ b <= 1023 /\ a + 72 <= b) by (eexists _, _; repeat (split; [reflexivity|]); lia).
  destruct L as (a & b & Ea & Eb & L1 & L2 & L3 & L4). rewrite Ea, Eb in *.
  replace (a / 4 <? 247) with true by (symmetry; apply Z.ltb_lt; clear - L2; lia).
  replace (b / 4 <? 8) with false by (symmetry; apply Z.ltb_ge; clear - L1 L4; lia).
  set (r := if mn >? mx then 1023 - tp else tp) in *.
  assert (Q : a <= r <= b /\ Z.abs (tp - mn) = r - a /\ Z.abs (tp - mx) = b - r).
  { unfold r. destruct (mn >? mx) eqn:E; [apply Z.gtb_lt in E|rewrite Z.gtb_ltb in E; apply Z.ltb_ge in E];
      clear - E D Ea Eb Ht L4; [destruct D as [D|D]; [lia|]|]; lia. }
  destruct Q as (Q & -> & ->). clearbody r. clear - Q L1 L3 L4.
  refine (conj _ (conj _ _)).
  - intros F. replace (r / 4 <? a / 4 + 8) with true by (symmetry; apply Z.ltb_lt; lia). reflexivity.
  - intros F. replace (r / 4 <? a / 4 + 8) with false by (symmetry; apply Z.ltb_ge; lia).
    replace (r / 4 >? b / 4 - 8) with true by (symmetry; apply Z.gtb_lt; lia). reflexivity.
  - intros F G. replace (r / 4 <? a / 4 + 8) with false by (symmetry; apply Z.ltb_ge; lia).
    replace (r / 4 >? b / 4 - 8) with false by (symmetry; rewrite Z.gtb_ltb; apply Z.ltb_ge; lia).
    destruct (r / 4 <? pot_value s); reflexivity.
Qed.

(** A dial turned round (cold end given by the higher reading) whose range isn't symmetric: the end stops are computed from the
    readings as they are before they are turned round, so they aren't where the dial is.  When the travel is all below about the middle of the
    ADC's scale, every position of the dial counts as its hot end: nothing but BAKE can be asked for, and never FROST. *)
Theorem endstop_reversed_refuted mn mx s tp : 32 <= mn -> 0 <= mx -> mx < mn -> mn <= 523 -> mn + mx <= 980 -> mx <= tp <= mn ->
  seen_to_move s (corrected mn mx tp) -> snd (dial_read mn mx s tp) = [CallBakeStart; CallOccupied].
Proof.
  intros H1 H2 H3 H4 H5 Ht M.
  assert (C : corrected mn mx tp = 1023 - tp).
  { unfold corrected. replace (mn >? mx) with true by (symmetry; apply Z.gtb_lt; lia). unfold u16. apply Z.mod_small. lia. }
  unfold dial_read. rewrite C in *. rewrite moved_calls by (assumption || lia).
  destruct (endstop_values mn mx) as [-> ->]; [lia|lia|]. rewrite Z.min_r, Z.max_l by lia. clear C M.
  replace (mx / 4 <? 247) with true by (symmetry; apply Z.ltb_lt; clear - H3 H4; lia).
  replace (mn / 4 <? 8) with false by (symmetry; apply Z.ltb_ge; clear - H1; lia).
  replace ((1023 - tp) / 4 <? mx / 4 + 8) with false by (symmetry; apply Z.ltb_ge; clear - H3 H4 H5 Ht; lia).
  replace ((1023 - tp) / 4 >? mn / 4 - 8) with true by (symmetry; apply Z.gtb_lt; clear - H3 H4 H5 Ht; lia). reflexivity.
Qed.
(** All above the middle: every position is the cold end, so any turn of the dial switches the heating off to FROST. *)
Theorem endstop_reversed_high_refuted mn mx s tp : 0 <= mx -> mx < mn -> mn <= 1023 -> 500 <= mx < 988 -> mx <= tp <= mn ->
  seen_to_move s (corrected mn mx tp) -> snd (dial_read mn mx s tp) = [CallFrost; CallOccupied].
Proof.
  intros H1 H2 H3 H4 Ht M.
  assert (C : corrected mn mx tp = 1023 - tp).
  { unfold corrected. replace (mn >? mx) with true by (symmetry; apply Z.gtb_lt; lia). unfold u16. apply Z.mod_small. lia. }
  unfold dial_read. rewrite C in *. rewrite moved_calls by (assumption || lia).
  destruct (endstop_values mn mx) as [-> ->]; [lia|lia|]. rewrite Z.min_r, Z.max_l by lia. clear C M.
  replace (mx / 4 <? 247) with true by (symmetry; apply Z.ltb_lt; clear - H4; lia).
  replace ((1023 - tp) / 4 <? mx / 4 + 8) with true by (symmetry; apply Z.ltb_lt; clear - H4 Ht; lia). reflexivity.
Qed.

(** The REV7 dial [48,296]; turned down, up and to the middle; and the same travel turned round. *)
Example endstop_nonvacuous :
  usable 48 296 /\ dial_read 48 296 (mkPot 200 50) 60 = (mkPot 60 15, [CallFrost; CallOccupied]) /\
  dial_read 48 296 (mkPot 200 50) 290 = (mkPot 290 72, [CallBakeStart; CallOccupied]) /\
  dial_read 48 296 (mkPot 200 50) 180 = (mkPot 180 45, [CallBakeCancel; CallOccupied]) /\
  dial_read 48 296 (mkPot 160 40) 180 = (mkPot 180 45, [CallWarm; CallOccupied]) /\
  dial_read 1023 0 (mkPot 200 50) 1020 = (mkPot 3 0, [CallFrost; CallOccupied]) /\
  seen_to_move (mkPot 823 205) (corrected 296 48 296) /\ dial_read 296 48 (mkPot 823 205) 296 = (mkPot 727 181, [CallBakeStart; CallOccupied]).
Proof.
  refine (conj _ (conj _ (conj _ (conj _ (conj _ (conj _ (conj _ _))))))); try reflexivity.
  - unfold usable; lia.
  - unfold seen_to_move. replace (corrected 296 48 296) with 727 by reflexivity. cbn [pot_raw pot_value]. unfold byte. change (727 / 4) with 181. lia.
Qed.
