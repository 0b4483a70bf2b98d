(** C38: the temperature dial and stored targets; C55: the dial sensor; C56: setback
    lockout. *)
From Verif Require Import Base EepromModel EepromProofs OccModel ScheduleModel TempModel TempProps.

(** ** C38 *)
Lemma dial_loop_spec : forall fuel ppot band r b mx,
  0 <= ppot < 256 -> 0 < band -> 0 < b -> 0 <= r <= mx -> mx < 256 -> mx - r <= Z.of_nat fuel ->
  b + (mx - r - 1) * band <= 255 ->
  dial_loop fuel ppot band r b mx = if ppot <? b then r else Z.min mx (r + 1 + (ppot - b) / band).
Proof.
  induction fuel as [|k IH]; intros ppot band r b mx Hp Hband Hb Hr Hmx Hf Hw.
  - cbn [dial_loop]. destruct (ppot <? b) eqn:E; [reflexivity|].
    assert (0 <= (ppot - b) / band) by (apply Z.div_pos; lia). lia.
  - cbn [dial_loop]. destruct (ppot <? b) eqn:E.
    + replace (ppot >=? b) with false by lia. reflexivity.
    + replace (ppot >=? b) with true by lia. cbn [andb]. assert (Hq : 0 <= (ppot - b) / band) by (apply Z.div_pos; lia).
      destruct (r <? mx) eqn:E2; [|lia]. rewrite (u8_id (r + 1)) by (unfold byte; lia).
      destruct (Z.eq_dec (r + 1) mx) as [E3|E3].
      * assert (HL : forall f b', dial_loop f ppot band (r + 1) b' mx = r + 1).
        { intros f b'. destruct f; cbn [dial_loop]; [reflexivity|]. replace (r + 1 <? mx) with false by lia. rewrite andb_false_r. reflexivity. }
        rewrite HL. lia.
      * assert (Hbb : band <= 255 - b) by nia.
        rewrite (u8_id (b + band)) by (unfold byte; lia). rewrite IH; try lia.
        assert (HD : (ppot - b) / band = (ppot - (b + band)) / band + 1).
        { replace (ppot - b) with (ppot - (b + band) + 1 * band) by lia. apply Z.div_add. lia. }
        destruct (ppot <? b + band) eqn:E4; [|lia].
        assert ((ppot - b) / band = 0) by (apply Z.div_small; lia). lia.
Qed.
Lemma dial_loop_0 : forall fuel ppot r mx, 0 <= ppot -> 0 <= r <= mx -> mx < 256 -> mx - r <= Z.of_nat fuel -> dial_loop fuel ppot 0 r 0 mx = mx.
Proof.
  induction fuel as [|k IH]; intros ppot r mx Hp Hr Hm Hf; cbn [dial_loop]; [lia|].
  replace (ppot >=? 0) with true by lia. cbn [andb]. destruct (r <? mx) eqn:E; [|lia].
  rewrite u8_id by (unfold byte; lia). change (u8 (0 + 0)) with 0. apply IH; lia.
Qed.

(** The radiator sets: dial number of the scale, shim and band width. *)
Definition bands (p : VCP) : Z := if ecoWarmC p =? 17 then 8 else 9.
Definition has_shim (p : VCP) : bool := ecoWarmC p =? 17.
Definition band_of p lo hi := ((hi - lo + 1) mod 256 + 4) / bands p.
Definition shim_of p lo hi := if has_shim p then band_of p lo hi / 2 else 0.
Lemma dial_eq p pot lo hi : radiator p -> byte pot -> byte lo -> byte hi ->
  computeWARMTargetC p pot lo hi = Some (
    if pot <=? lo then scale_min p else if pot >=? hi then scale_max p
    else if has_shim p && (pot - lo <=? shim_of p lo hi) then scale_min p
    else if band_of p lo hi =? 0 then scale_max p
    else Z.min (scale_max p) (scale_min p + (pot - lo - shim_of p lo hi) / band_of p lo hi)).
Proof.
  intros Hp H1 H2 H3. unfold byte in *. unfold computeWARMTargetC.
  destruct (pot <=? lo) eqn:E1; [destruct Hp as [-> | ->]; reflexivity|].
  destruct (pot >=? hi) eqn:E2; [destruct Hp as [-> | ->]; reflexivity|]. cbv zeta.
  rewrite (u8_id (pot - lo)) by (unfold byte; lia). unfold shim_of.
  assert (HB : 0 <= (hi - lo + 1) mod 256 <= 255) by (pose proof (Z.mod_pos_bound (hi - lo + 1) 256 ltac:(lia)); lia).
  destruct Hp as [-> | ->].
  - change (TEMP_SCALE_MAX DEFAULT_Params) with 22. change (TEMP_SCALE_MIN DEFAULT_Params) with 16. change (u8 (22 - 16 + 1)) with 7.
    change (negb (0 =? 7) && (0 =? Z.land 7 (7 + 1))) with true. cbv iota. change (u8 (7 + 1)) with 8. change (8 / 2) with 4.
    change (has_shim DEFAULT_Params) with true. change (scale_min DEFAULT_Params) with 16. change (scale_max DEFAULT_Params) with 22. unfold band_of. change (bands DEFAULT_Params) with 8.
    change (u8 (hi - lo + 1)) with ((hi - lo + 1) mod 256). set (us := (hi - lo + 1) mod 256) in *.
    assert (Hb : 0 <= (us + 4) / 8 <= 32) by (Z.div_mod_to_equations; lia). rewrite !(u8_id ((us + 4) / 8)) by (unfold byte; lia).
    set (band := (us + 4) / 8) in *. rewrite Z.shiftr_div_pow2 by lia. change (2 ^ 1) with 2. cbn [andb].
    assert (Hs : 0 <= band / 2 <= band) by (clearbody band; Z.div_mod_to_equations; lia).
    destruct (pot - lo <=? band / 2) eqn:E3; [reflexivity|]. rewrite u8_id by (unfold byte; lia). change (7 <? 10) with true. cbv iota. f_equal.
    destruct (band =? 0) eqn:E4.
    + replace band with 0 in * by lia. rewrite dial_loop_0; try lia.
    + rewrite dial_loop_spec; try lia. destruct (pot - lo - band / 2 <? band) eqn:E5.
      * rewrite (Z.div_small (pot - lo - band / 2)) by lia. lia.
      * replace (pot - lo - band / 2 - band) with (pot - lo - band / 2 + (-1) * band) by lia. rewrite Z.div_add by lia. lia.
  - change (TEMP_SCALE_MAX Proposed_Params) with 23. change (TEMP_SCALE_MIN Proposed_Params) with 15. change (u8 (23 - 15 + 1)) with 9.
    change (negb (0 =? 9) && (0 =? Z.land 9 (9 + 1))) with false. cbv iota. change (9 / 2) with 4.
    change (has_shim Proposed_Params) with false. change (scale_min Proposed_Params) with 15. change (scale_max Proposed_Params) with 23. unfold band_of. change (bands Proposed_Params) with 9.
    cbn [andb]. change (9 <? 10) with true. cbv iota. change (u8 (hi - lo + 1)) with ((hi - lo + 1) mod 256). set (us := (hi - lo + 1) mod 256) in *.
    assert (Hb : 0 <= (us + 4) / 9 <= 28) by (Z.div_mod_to_equations; lia). rewrite !(u8_id ((us + 4) / 9)) by (unfold byte; lia).
    set (band := (us + 4) / 9) in *. f_equal. rewrite Z.sub_0_r.
    destruct (band =? 0) eqn:E4.
    + replace band with 0 in * by lia. rewrite dial_loop_0; try lia.
    + rewrite dial_loop_spec; try lia. destruct (pot - lo <? band) eqn:E5.
      * rewrite (Z.div_small (pot - lo)) by lia. lia.
      * replace (pot - lo - band) with (pot - lo + (-1) * band) by lia. rewrite Z.div_add by lia. lia.
Qed.
Lemma band_nonneg p lo hi : radiator p -> 0 <= band_of p lo hi /\ 0 <= shim_of p lo hi.
Proof.
  intros Hp. pose proof (Z.mod_pos_bound (hi - lo + 1) 256 ltac:(lia)) as HB.
  assert (H : 0 <= band_of p lo hi) by (unfold band_of; apply Z.div_pos; [lia|unfold bands; destruct (_ =? 17); lia]).
  split; [exact H|]. unfold shim_of. destruct (has_shim p); [apply Z.div_pos; lia|lia].
Qed.
Lemma scale_order p : radiator p -> scale_min p < scale_max p.
Proof. intros [-> | ->]; reflexivity. Qed.

(** For the radiator parameter sets: every dial position and every pair of end stops gives
    a temperature on the scale; the ends give the ends; turning up never lowers it. *)
Theorem C38_dial : forall p lo hi, radiator p -> byte lo -> byte hi ->
  exists f, (forall pot, byte pot -> computeWARMTargetC p pot lo hi = Some (f pot)) /\
    (forall pot, byte pot -> scale_min p <= f pot <= scale_max p) /\
    (forall pot, byte pot -> pot <= lo -> f pot = scale_min p) /\
    (forall pot, byte pot -> lo < pot -> hi <= pot -> f pot = scale_max p) /\
    (forall pot pot', byte pot -> byte pot' -> pot <= pot' -> f pot <= f pot').
Proof.
  intros p lo hi Hp H1 H2.
  eexists. split; [intros pot Hpot; apply (dial_eq p pot lo hi Hp Hpot H1 H2)|].
  pose proof (band_nonneg p lo hi Hp) as [HB HS]. pose proof (scale_order p Hp) as HO.
  set (mn := scale_min p) in *. set (mx := scale_max p) in *. set (band := band_of p lo hi) in *. set (sh := shim_of p lo hi) in *.
  assert (HN : has_shim p = false -> sh = 0) by (unfold sh, shim_of; intros ->; reflexivity).
  clearbody mn mx band sh.
  assert (HQ : forall pot, lo < pot -> has_shim p && (pot - lo <=? sh) = false -> band <> 0 -> 0 <= (pot - lo - sh) / band).
  { intros pot Hl He Hb0. apply Z.div_pos; [|lia]. destruct (has_shim p); [cbn in He; lia|rewrite HN by reflexivity; lia]. }
  split.
  { intros pot Hpot. destruct (pot <=? lo) eqn:E1; [lia|]. destruct (pot >=? hi) eqn:E2; [lia|].
    destruct (has_shim p && (pot - lo <=? sh)) eqn:E3; [lia|]. destruct (band =? 0) eqn:E4; [lia|].
    specialize (HQ pot ltac:(lia) E3 ltac:(lia)). lia. }
  split; [intros pot _ Hl; replace (pot <=? lo) with true by lia; reflexivity|].
  split; [intros pot _ Hl Hh; replace (pot <=? lo) with false by lia; replace (pot >=? hi) with true by lia; reflexivity|].
  intros x y Hx Hy Hxy.
  destruct (x <=? lo) eqn:X1; destruct (y <=? lo) eqn:Y1; try lia;
  destruct (x >=? hi) eqn:X2; destruct (y >=? hi) eqn:Y2; try lia;
  destruct (has_shim p && (x - lo <=? sh)) eqn:X3; destruct (has_shim p && (y - lo <=? sh)) eqn:Y3;
  destruct (band =? 0) eqn:E4; try lia;
  try (specialize (HQ y ltac:(lia) Y3 ltac:(lia)); lia).
  all: try (specialize (HQ x ltac:(lia) X3 ltac:(lia)); lia).
  all: try (destruct (has_shim p); cbn in X3, Y3; lia).
  assert ((x - lo - sh) / band <= (y - lo - sh) / band) by (apply Z.div_le_mono; lia). lia.
Qed.
(** Every temperature of the scale can be selected if the end stops are at least 18 apart
    (and are not the full 0..255, for which the scale wraps: next theorem). *)
Theorem C38_all_selectable : forall p lo hi t, radiator p -> byte lo -> byte hi -> 18 <= hi - lo < 255 -> scale_min p <= t <= scale_max p ->
  exists pot, lo <= pot <= hi /\ computeWARMTargetC p pot lo hi = Some t.
Proof.
  intros p lo hi t Hp H1 H2 Hd Ht. unfold byte in *.
  assert (HC : t = scale_max p \/ t < scale_max p) by lia. destruct HC as [-> |HC].
  { exists hi. split; [lia|]. rewrite dial_eq by (auto; unfold byte; lia). replace (hi <=? lo) with false by lia. replace (hi >=? hi) with true by lia. reflexivity. }
  assert (HC3 : t = scale_min p \/ scale_min p < t) by lia. destruct HC3 as [-> |HC2].
  { exists lo. split; [lia|]. rewrite dial_eq by (auto; unfold byte; lia). replace (lo <=? lo) with true by lia. reflexivity. }
  assert (HBAND : 1 <= band_of p lo hi /\ 0 <= shim_of p lo hi /\ (t - scale_min p) * band_of p lo hi + shim_of p lo hi < hi - lo).
  { unfold shim_of, band_of. rewrite Z.mod_small by lia. destruct Hp as [-> | ->].
    - change (bands DEFAULT_Params) with 8. change (has_shim DEFAULT_Params) with true. cbv iota. change (scale_min DEFAULT_Params) with 16 in *. change (scale_max DEFAULT_Params) with 22 in *.
      clear HC2. assert (Hq : 1 <= (hi - lo + 1 + 4) / 8 /\ 8 * ((hi - lo + 1 + 4) / 8) <= hi - lo + 5) by (clear - Hd; Z.div_mod_to_equations; lia).
      set (b := (hi - lo + 1 + 4) / 8) in *. clearbody b. assert (Hh : 0 <= b / 2 /\ 2 * (b / 2) <= b) by (clear - Hq; Z.div_mod_to_equations; lia). assert ((t - 16) * b <= 5 * b) by (apply Z.mul_le_mono_nonneg_r; lia). lia.
    - change (bands Proposed_Params) with 9. change (has_shim Proposed_Params) with false. cbv iota. change (scale_min Proposed_Params) with 15 in *. change (scale_max Proposed_Params) with 23 in *.
      assert (Hq : 1 <= (hi - lo + 1 + 4) / 9 /\ 9 * ((hi - lo + 1 + 4) / 9) <= hi - lo + 5) by (clear - Hd; Z.div_mod_to_equations; lia).
      set (b := (hi - lo + 1 + 4) / 9) in *. clearbody b. assert ((t - 15) * b <= 7 * b) by (apply Z.mul_le_mono_nonneg_r; lia). lia. }
  destruct HBAND as (Hb1 & Hs & Hlt). set (b := band_of p lo hi) in *. set (sh := shim_of p lo hi) in *.
  exists (lo + sh + (t - scale_min p) * b). assert (1 <= (t - scale_min p) * b) by nia.
  split; [lia|]. rewrite dial_eq by (auto; unfold byte; lia). fold b sh. f_equal.
  replace (lo + sh + (t - scale_min p) * b <=? lo) with false by lia.
  replace (lo + sh + (t - scale_min p) * b >=? hi) with false by lia.
  replace (lo + sh + (t - scale_min p) * b - lo <=? sh) with false by lia. rewrite andb_false_r.
  replace (b =? 0) with false by lia.
  replace (lo + sh + (t - scale_min p) * b - lo - sh) with ((t - scale_min p) * b) by lia. rewrite Z.div_mul by lia. lia.
Qed.
(** With end stops 0 and 255 the scale width wraps to 0 and all positions off the bottom
    select the maximum. *)
Theorem C38_full_range_refuted : forall pot, 0 < pot < 256 -> computeWARMTargetC DEFAULT_Params pot 0 255 = Some 22.
Proof.
  intros pot H. rewrite dial_eq by (unfold byte, radiator; auto; lia). replace (pot <=? 0) with false by lia.
  destruct (pot >=? 255); [reflexivity|]. change (shim_of DEFAULT_Params 0 255) with 0. change (band_of DEFAULT_Params 0 255) with 0.
  replace (pot - 0 <=? 0) with false by lia. reflexivity.
Qed.
(** The hot-water set: with the default dial's end stops (8, 247) the dial passes the top
    of the scale, then drops back; close end stops divide by zero. *)
Theorem C38_dhw_refuted :
  computeLoEndStop 0 1023 = 8 /\ computeHiEndStop 0 1023 = 247 /\ scale_max DHW_Params = 66 /\
  computeWARMTargetC DHW_Params 246 8 247 = Some 67 /\ computeWARMTargetC DHW_Params 247 8 247 = Some 66 /\
  computeWARMTargetC DHW_Params 105 100 110 = None.
Proof. repeat split. Qed.
(** What does hold of it. *)
Theorem C38_dhw_partial : forall lo hi pot pot', byte pot -> byte pot' -> byte lo -> byte hi -> 11 <= hi - lo < 255 ->
  pot <= pot' -> pot' < hi ->
  exists t t', computeWARMTargetC DHW_Params pot lo hi = Some t /\ computeWARMTargetC DHW_Params pot' lo hi = Some t' /\
    44 <= t <= t'.
Proof.
  intros lo hi pot pot' H1 H2 H3 H4 Hd Hle Hhi. unfold byte in *.
  assert (HF : forall x, 0 <= x < 256 -> x < hi -> exists t, computeWARMTargetC DHW_Params x lo hi = Some t /\
     t = if x <=? lo then 44 else 44 + (x - lo) / ((hi - lo + 12) / 23)).
  { intros x Hx Hxh. unfold computeWARMTargetC. destruct (x <=? lo) eqn:E1; [exists 44; split; reflexivity|].
    replace (x >=? hi) with false by lia. cbv zeta.
    change (TEMP_SCALE_MAX DHW_Params) with 66. change (TEMP_SCALE_MIN DHW_Params) with 44. change (u8 (66 - 44 + 1)) with 23.
    change (negb (0 =? 23) && (0 =? Z.land 23 (23 + 1))) with false. cbv iota. cbn [andb]. change (23 / 2) with 11. change (23 <? 10) with false. cbv iota.
    rewrite (u8_id (hi - lo + 1)) by (unfold byte; lia). rewrite (u8_id (x - lo)) by (unfold byte; lia).
    replace (hi - lo + 1 + 11) with (hi - lo + 12) by lia.
    assert (Hb : 1 <= (hi - lo + 12) / 23 /\ hi - lo + 12 < 23 * ((hi - lo + 12) / 23) + 23) by (clear - Hd; Z.div_mod_to_equations; lia).
    assert (Hb2 : (hi - lo + 12) / 23 <= 12) by (clear - Hd; Z.div_mod_to_equations; lia).
    rewrite (u8_id (_ / 23)) by (unfold byte; lia). set (b := (hi - lo + 12) / 23) in *. clearbody b.
    replace (b =? 0) with false by lia. eexists. split; [reflexivity|].
    assert (Hq : 0 <= (x - lo) / b <= 40).
    { split; [apply Z.div_pos; lia|]. apply Z.le_trans with ((40 * b) / b); [apply Z.div_le_mono; nia|rewrite Z.div_mul; lia]. }
    rewrite u8_id by (unfold byte; lia). lia. }
  destruct (HF pot H1 ltac:(lia)) as (t & E & Ht). destruct (HF pot' H2 ltac:(lia)) as (t' & E' & Ht').
  exists t, t'. split; [exact E|]. split; [exact E'|].
  assert (Hb : 1 <= (hi - lo + 12) / 23) by (clear - Hd; Z.div_mod_to_equations; lia). set (b := (hi - lo + 12) / 23) in *. clearbody b.
  destruct (pot <=? lo) eqn:E1; destruct (pot' <=? lo) eqn:E2; try lia.
  - assert (0 <= (pot' - lo) / b) by (apply Z.div_pos; lia). lia.
  - assert (0 <= (pot - lo) / b) by (apply Z.div_pos; lia). assert ((pot - lo) / b <= (pot' - lo) / b) by (apply Z.div_le_mono; lia). lia.
Qed.
(** The cached query returns, at any point of any sequence of dial positions, what the
    current position selects; and the frost target reported with it is no higher. *)
Fixpoint pot_queries (p : VCP) (lo hi : Z) (c : PotCache) (l : list Z) : option (list Z) :=
  match l with [] => Some [] | x :: r => do q <- pot_getWARMTargetC p lo hi c x; do rest <- pot_queries p lo hi (fst q) r; Some (snd q :: rest) end.
Theorem C38_cache : forall p lo hi l, radiator p -> byte lo -> byte hi -> Forall byte l ->
  exists ws, pot_queries p lo hi PotCache0 l = Some ws /\ Forall2 (fun x w => computeWARMTargetC p x lo hi = Some w) l ws.
Proof.
  intros p lo hi l Hp H1 H2 Hl. destruct (C38_dial p lo hi Hp H1 H2) as (f & Hf & _).
  assert (HG : forall l c, Forall byte l -> (snd c = 0 \/ byte (fst c) /\ snd c = f (fst c)) ->
    exists ws, pot_queries p lo hi c l = Some ws /\ Forall2 (fun x w => computeWARMTargetC p x lo hi = Some w) l ws).
  { clear l Hl. induction l as [|x r IH]; intros c Hl Hc; [exists []; split; [reflexivity|constructor]|].
    inversion Hl as [|? ? Hx Hr]; subst. cbn [pot_queries]. unfold pot_getWARMTargetC.
    destruct (negb (fst c =? x) || (0 =? snd c)) eqn:E.
    - rewrite (Hf x Hx). cbn [bind fst snd]. destruct (IH (x, f x) Hr ltac:(right; auto)) as (ws & E2 & HF). rewrite E2. cbn [bind].
      exists (f x :: ws). split; [reflexivity|]. constructor; [auto|exact HF].
    - cbn [bind fst snd]. destruct (IH c Hr Hc) as (ws & E2 & HF). rewrite E2. cbn [bind]. exists (snd c :: ws). split; [reflexivity|].
      constructor; [|exact HF]. destruct Hc as [Hc|[_ Hc]]; [lia|]. rewrite Hc. replace (fst c) with x by lia. auto. }
  apply HG; [exact Hl|left; reflexivity].
Qed.
Theorem C38_frost_le_warm : forall p lo hi pot w rh, radiator p -> byte lo -> byte hi -> byte pot ->
  computeWARMTargetC p pot lo hi = Some w -> pot_getFROSTTargetC p w rh <= w.
Proof.
  intros p lo hi pot w rh Hp H1 H2 H3 HE. destruct (C38_dial p lo hi Hp H1 H2) as (f & Hf & Hr & _).
  rewrite (Hf pot H3) in HE. assert (Hw : f pot = w) by congruence. pose proof (Hr pot H3) as HR.
  destruct (C31_dial_control p w rh ltac:(destruct Hp; [left; auto|right; left; auto]) ltac:(lia)) as [HF _]. exact (proj2 HF).
Qed.
(** Stored targets (units with no dial): a target set is the target in force; settings
    out of order or out of scale are refused and change nothing. *)
Theorem C38_stored_warm : forall p t s f, shipped p -> bytes_mem (mem s) -> byte t -> (1 <= f)%nat ->
  exists s' f' ok, ee_setWARMTargetC p t s f = (s', Some (ok, f')) /\
   (ok = true <-> scale_min p <= t <= scale_max p /\ ee_getFROSTTargetC p (mem s) <= t) /\
   (ok = true -> ee_getWARMTargetC p (mem s') = t /\ ee_getFROSTTargetC p (mem s') = ee_getFROSTTargetC p (mem s)) /\
   (ok = false -> s' = s) /\ (forall q, q <> EE_WARM_C -> mem s' q = mem s q).
Proof.
  intros p t s f Hp HB Ht Hf.
  assert (HSC : TEMP_SCALE_MIN p = scale_min p /\ TEMP_SCALE_MAX p = scale_max p) by (ships Hp; split; reflexivity). destruct HSC as [HS1 HS2].
  unfold ee_setWARMTargetC. destruct ((t <? _) || (t >? _)) eqn:E1.
  { exists s, f, false. split; [reflexivity|]. split; [split; [discriminate|lia]|]. split; [discriminate|]. split; auto. }
  destruct (t <? ee_getFROSTTargetC p (mem s)) eqn:E2.
  { exists s, f, false. split; [reflexivity|]. split; [split; [discriminate|lia]|]. split; [discriminate|]. split; auto. }
  pose proof (does_bind _ (fun _ => ret true) s [(EE_WARM_C, t)] [] _ true (does_smart_update EE_WARM_C t s) (fun s' _ => does_ret true s')) as HD.
  destruct (HD f) as [(s' & n & E & Hn & Hn2 & _)|(s' & f' & E & Hn & Hm)]; [cbn in Hn, Hn2; lia|].
  exists s', f', true. rewrite E. split; [reflexivity|]. split; [split; [lia|reflexivity]|].
  cbn [app applyw fold_left] in Hm. assert (HQ : forall q, mem s' q = if q =? EE_WARM_C then t else mem s q) by (intros q; rewrite (Hm q); reflexivity).
  split; [|split; [discriminate|intros q Hq; rewrite HQ; replace (q =? EE_WARM_C) with false by lia; reflexivity]].
  intros _. assert (HFr : ee_getFROSTTargetC p (mem s') = ee_getFROSTTargetC p (mem s)) by (unfold ee_getFROSTTargetC; rewrite HQ; reflexivity).
  split; [|exact HFr]. unfold ee_getWARMTargetC. rewrite HFr, HQ. change (EE_WARM_C =? EE_WARM_C) with true. cbv iota. rewrite E1, fnmax_max. lia.
Qed.
Theorem C38_stored_frost : forall p t s f, shipped p -> bytes_mem (mem s) -> byte t -> (1 <= f)%nat ->
  exists s' f' ok, ee_setFROSTTargetC p t s f = (s', Some (ok, f')) /\
   (ok = true <-> scale_min p <= t <= scale_max p /\ t <= ee_getWARMTargetC p (mem s)) /\
   (ok = true -> ee_getFROSTTargetC p (mem s') = t /\ t <= ee_getWARMTargetC p (mem s')) /\
   (ok = false -> s' = s) /\ (forall q, q <> EE_FROST_C -> mem s' q = mem s q).
Proof.
  intros p t s f Hp HB Ht Hf.
  assert (HSC : TEMP_SCALE_MIN p = scale_min p /\ TEMP_SCALE_MAX p = scale_max p) by (ships Hp; split; reflexivity). destruct HSC as [HS1 HS2].
  unfold ee_setFROSTTargetC. destruct ((t <? _) || (t >? _)) eqn:E1.
  { exists s, f, false. split; [reflexivity|]. split; [split; [discriminate|lia]|]. split; [discriminate|]. split; auto. }
  destruct (t >? ee_getWARMTargetC p (mem s)) eqn:E2.
  { exists s, f, false. split; [reflexivity|]. split; [split; [discriminate|lia]|]. split; [discriminate|]. split; auto. }
  pose proof (does_bind _ (fun _ => ret true) s [(EE_FROST_C, t)] [] _ true (does_smart_update EE_FROST_C t s) (fun s' _ => does_ret true s')) as HD.
  destruct (HD f) as [(s' & n & E & Hn & Hn2 & _)|(s' & f' & E & Hn & Hm)]; [cbn in Hn, Hn2; lia|].
  exists s', f', true. rewrite E. split; [reflexivity|]. split; [split; [lia|reflexivity]|].
  cbn [app applyw fold_left] in Hm. assert (HQ : forall q, mem s' q = if q =? EE_FROST_C then t else mem s q) by (intros q; rewrite (Hm q); reflexivity).
  split; [|split; [discriminate|intros q Hq; rewrite HQ; replace (q =? EE_FROST_C) with false by lia; reflexivity]].
  intros _. assert (HFr : ee_getFROSTTargetC p (mem s') = t) by (unfold ee_getFROSTTargetC; rewrite HQ; change (EE_FROST_C =? EE_FROST_C) with true; cbv iota; rewrite E1; reflexivity).
  split; [exact HFr|]. unfold ee_getWARMTargetC. rewrite HFr, !fnmax_max. match goal with |- context [if ?b then _ else _] => destruct b end; lia.
Qed.

(** ** C55: the dial sensor *)
Definition pot_ok (s : Pot) : Prop := (s = Pot0 \/ 0 <= pot_raw s < 1024) /\ byte (pot_value s).
Theorem C55_first_reading : forall lo hi r, 0 <= r < 1024 -> pot_read lo hi Pot0 r = (mkPot r (r / 4), []).
Proof.
  intros lo hi r H. unfold pot_read, Pot0. cbn [pot_raw pot_value]. rewrite Z.shiftr_div_pow2 by lia. change (2 ^ 2) with 4.
  assert (Hq : 0 <= r / 4 < 256) by (Z.div_mod_to_equations; lia). rewrite u8_id by (unfold byte; lia).
  assert (Hw : u16 (r - 65535) = r + 1) by (unfold u16; replace (r - 65535) with (r + 1 + (-1) * 65536) by lia; rewrite Z.mod_add, Z.mod_small by lia; reflexivity). rewrite Hw.
  destruct (((r / 4 >? 0) && (r + 1 >=? 4)) || _) eqn:E; [reflexivity|].
  assert (r / 4 = 0) by (clear Hw; Z.div_mod_to_equations; lia). congruence.
Qed.
(** A movement of at least four raw counts (one step of the reduced scale) since the last
    reading is always tracked exactly. *)
Theorem C55_big_move_tracked : forall lo hi s r, pot_ok s -> 0 <= r < 1024 -> s <> Pot0 -> 4 <= Z.abs (r - pot_raw s) ->
  pot_value (fst (pot_read lo hi s r)) = r / 4 /\ pot_raw (fst (pot_read lo hi s r)) = r.
Proof.
  intros lo hi s r [[->|Hs] Hv] Hr Hn Hd; [contradiction|]. unfold pot_read. rewrite Z.shiftr_div_pow2 by lia. change (2 ^ 2) with 4.
  assert (Hq : 0 <= r / 4 < 256) by (Z.div_mod_to_equations; lia). rewrite (u8_id (r / 4)) by (unfold byte; lia).
  assert (HU : forall d, 4 <= Z.abs d < 1024 -> u16 d >= 4).
  { intros d Hd2. unfold u16. destruct (Z_lt_ge_dec d 0); [replace (d mod 65536) with (d + 65536); [lia|]|rewrite Z.mod_small; lia].
    replace d with (d + 65536 + (-1) * 65536) at 2 by lia. rewrite Z.mod_add, Z.mod_small; lia. }
  pose proof (HU (r - pot_raw s) ltac:(lia)). pose proof (HU (pot_raw s - r) ltac:(lia)).
  destruct ((r / 4 >? pot_value s) && _ || _) eqn:E; cbn [fst pot_value pot_raw]; [auto|]. split; [|reflexivity].
  destruct (Z_lt_ge_dec (pot_value s) (r / 4)); [|destruct (Z_lt_ge_dec (r / 4) (pot_value s)); [|lia]]; lia.
Qed.
(** Callbacks: made only when the reported position changes, always with the occupancy
    report, and with the mode change the new position calls for. *)
Theorem C55_callbacks_partial : forall lo hi s r, pot_ok s -> 0 <= r < 1024 ->
  let v := pot_value s in let v' := pot_value (fst (pot_read lo hi s r)) in let calls := snd (pot_read lo hi s r) in
  (v' = v \/ v' = r / 4) /\ pot_ok (fst (pot_read lo hi s r)) /\
  (v' = v -> calls = []) /\
  (v' <> v -> s <> Pot0 -> pot_raw s <> 65535 -> exists m, calls = [m; CallOccupied] /\
     (m = CallFrost <-> v' < lo) /\ (m = CallBakeStart <-> lo <= v' /\ hi < v') /\
     (m = CallBakeCancel <-> lo <= v' <= hi /\ v' < v) /\ (m = CallWarm <-> lo <= v' <= hi /\ v < v')).
Proof.
  intros lo hi s r [Hs Hv] Hr. cbv zeta. unfold pot_read. rewrite Z.shiftr_div_pow2 by lia. change (2 ^ 2) with 4.
  assert (Hq : 0 <= r / 4 < 256) by (Z.div_mod_to_equations; lia). rewrite (u8_id (r / 4)) by (unfold byte; lia).
  set (q := r / 4) in *. clearbody q.
  destruct ((q >? pot_value s) && _ || _) eqn:E; cbn [fst snd pot_value pot_raw].
  - assert (Hne : q <> pot_value s) by lia. split; [auto|]. split; [split; [right; cbn; lia|exact Hq]|]. split; [intros K; contradiction|].
    intros _ _ Hraw. replace (65535 =? pot_raw s) with false by lia. cbn [negb].
    destruct (q <? lo) eqn:E1; [|destruct (q >? hi) eqn:E2; [|destruct (q <? pot_value s) eqn:E3; [|destruct (q >? pot_value s) eqn:E4; [|lia]]]];
      eexists; (split; [reflexivity|]); repeat split; intros; try lia; try discriminate.
  - split; [auto|]. split; [split; [right; cbn; lia|exact Hv]|]. split; [reflexivity|]. intros K; contradiction.
Qed.
(** But "the reported position follows the dial" fails: turned from one end stop to the
    other at three raw counts per reading it is reported as not moving at all; and a
    one-count movement back can then trigger a mode change. *)
Fixpoint pot_reads (lo hi : Z) (s : Pot) (l : list Z) : Pot * list PotCall :=
  match l with [] => (s, []) | r :: t => let (s1, c1) := pot_read lo hi s r in let (s2, c2) := pot_reads lo hi s1 t in (s2, c1 ++ c2) end.
Theorem C55_creep_refuted :
  let creep := map (fun k => 3 * Z.of_nat k) (seq 0 342) in
  pot_reads 8 247 Pot0 creep = (mkPot 1023 0, []) /\
  pot_read 8 247 (mkPot 1023 0) 1022 = (mkPot 1022 255, [CallBakeStart; CallOccupied]).
Proof. vm_compute. auto. Qed.
Example C55_nonvacuous : pot_ok (mkPot 400 100) /\ pot_read 8 247 (mkPot 400 100) 440 = (mkPot 440 110, [CallWarm; CallOccupied]) /\
  pot_read 8 247 (mkPot 400 100) 10 = (mkPot 10 2, [CallFrost; CallOccupied]).
Proof. repeat split; vm_compute; intuition congruence. Qed.

(** ** C56: setback lockout *)
Definition lockout_days (m : Z -> Z) : Z := 255 - m EE_LOCKOUT.
Theorem C56_get : forall s f, bytes_mem (mem s) -> getSetbackLockout s f = (s, Some (lockout_days (mem s), f)).
Proof.
  intros s f HB. pose proof (HB EE_LOCKOUT) as H. unfold byte in H. unfold getSetbackLockout, mbind, ee_read, ret, lockout_days.
  replace (u8 (Z.lnot (mem s EE_LOCKOUT))) with (255 - mem s EE_LOCKOUT); [reflexivity|].
  unfold Z.lnot, u8. replace (Z.pred (- mem s EE_LOCKOUT)) with (255 - mem s EE_LOCKOUT + (-1) * 256) by lia. rewrite Z.mod_add, Z.mod_small by lia. reflexivity.
Qed.
(** One countdown per day: the count drops by one down to zero and stays there; with a
    power failure it has either the old or the new value. *)
Theorem C56_countdown : forall s f, bytes_mem (mem s) ->
  let r := countDownSetbackLockout s f in
  bytes_mem (mem (fst r)) /\ (forall q, q <> EE_LOCKOUT -> mem (fst r) q = mem s q) /\
  (lockout_days (mem (fst r)) = lockout_days (mem s) \/ lockout_days (mem (fst r)) = Z.max 0 (lockout_days (mem s) - 1)) /\
  (snd r <> None -> lockout_days (mem (fst r)) = Z.max 0 (lockout_days (mem s) - 1)) /\ ((1 <= f)%nat -> snd r <> None).
Proof.
  intros s f HB. pose proof (HB EE_LOCKOUT) as H. unfold byte in H. cbv zeta.
  assert (HU : countDownSetbackLockout s f = if negb (255 =? mem s EE_LOCKOUT)
     then (run _ <- smart_update EE_LOCKOUT (u8 (Z.lnot (Z.lnot (mem s EE_LOCKOUT) - 1))); ret tt) s f else ret tt s f)
    by (unfold countDownSetbackLockout, mbind at 1, ee_read; destruct (negb _); reflexivity).
  rewrite HU. clear HU.
  destruct (negb (255 =? mem s EE_LOCKOUT)) eqn:E.
  2:{ unfold ret. cbn [fst snd]. unfold lockout_days. split; [exact HB|]. split; [auto|]. split; [lia|]. split; [intros _; lia|discriminate]. }
  assert (HV : u8 (Z.lnot (Z.lnot (mem s EE_LOCKOUT) - 1)) = mem s EE_LOCKOUT + 1).
  { unfold Z.lnot, u8. replace (Z.pred (- (Z.pred (- mem s EE_LOCKOUT) - 1))) with (mem s EE_LOCKOUT + 1) by lia. apply Z.mod_small. lia. }
  rewrite HV.
  pose proof (does_bind _ (fun _ => ret tt) s [(EE_LOCKOUT, mem s EE_LOCKOUT + 1)] [] _ tt (does_smart_update EE_LOCKOUT (mem s EE_LOCKOUT + 1) s) (fun s' _ => does_ret tt s')) as HD.
  destruct (HD f) as [(s' & n & E2 & Hn & Hn2 & Hm)|(s' & f' & E2 & Hn & Hm)]; rewrite E2; cbn [fst snd].
  - cbn in Hn, Hn2. assert (Hn3 : n = 0%nat \/ n = 1%nat) by lia.
    split; [|split; [|split; [|split; [intros K; contradiction|intros Hf; exfalso; lia]]]].
    + intros q. rewrite (Hm q). destruct Hn3 as [-> | ->]; cbn [app firstn applyw fold_left]; [apply HB|]. unfold upd. cbn [fst snd]. destruct (q =? EE_LOCKOUT); [unfold byte; lia|apply HB].
    + intros q Hq. rewrite (Hm q). destruct Hn3 as [-> | ->]; cbn [app firstn applyw fold_left]; [reflexivity|]. unfold upd. cbn [fst snd]. replace (q =? EE_LOCKOUT) with false by lia. reflexivity.
    + unfold lockout_days. rewrite (Hm EE_LOCKOUT). destruct Hn3 as [-> | ->]; cbn [app firstn applyw fold_left]; [left; reflexivity|]. right. unfold upd. cbn [fst snd]. rewrite Z.eqb_refl. lia.
  - cbn [app applyw fold_left] in Hm. assert (HQ : forall q, mem s' q = if q =? EE_LOCKOUT then mem s EE_LOCKOUT + 1 else mem s q) by (intros q; rewrite (Hm q); reflexivity).
    split; [intros q; rewrite HQ; destruct (q =? EE_LOCKOUT); [unfold byte; lia|apply HB]|].
    split; [intros q Hq; rewrite HQ; replace (q =? EE_LOCKOUT) with false by lia; reflexivity|].
    unfold lockout_days. rewrite HQ. change (EE_LOCKOUT =? EE_LOCKOUT) with true. cbv iota. split; [lia|]. split; [intros _; lia|discriminate].
Qed.
Example C56_nonvacuous : lockout_days (fun _ => 255) = 0 /\ lockout_days (fun _ => 248) = 7.
Proof. auto. Qed.

Print Assumptions C38_dial.
Print Assumptions C38_all_selectable.
Print Assumptions C38_cache.
Print Assumptions C38_stored_warm.
Print Assumptions C55_callbacks_partial.
Print Assumptions C56_countdown.
