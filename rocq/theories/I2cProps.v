(** C136: TMP112 readings.  C137: SHT21 temperature.  C138: SHT21 humidity. *)
From Coq Require Import Btauto.
From Verif Require Import Base I2cModel.

(** ** TMP112 specification *)

(** Temperature register of the device at [t]/16 C, 12-bit mode: a 12-bit
    two's complement number left-justified in two bytes (the low four bits of
    the second byte are not part of it). *)
Definition tmp_register (t junk : Z) : Z * Z :=
  ((t mod 4096) / 16, (t mod 16) * 16 + junk).

(** The conversion is reported complete at poll number [k] and not before. *)
Definition done_at (poll : nat -> option Z) (k : nat) : Prop :=
  (exists b, poll k = Some b /\ byte b /\ 128 <= b) /\
  (forall j, (j < k)%nat -> exists b, poll j = Some b /\ byte b /\ b < 128).

(** A byte fails to arrive at some poll before completion is reported. *)
Definition poll_fault (poll : nat -> option Z) : Prop :=
  exists k, (k < 7)%nat /\ poll k = None /\
    (forall j, (j < k)%nat -> exists b, poll j = Some b /\ byte b /\ b < 128).

Definition bus_fault (env : TmpEnv) : Prop :=
  te_start_err env = true \/ te_select_err env = true \/ poll_fault (te_poll env) \/
  te_temp_err env = true \/ te_data env = None \/ te_end_err env = true.

Lemma bit7 b : byte b -> Z.testbit b 7 = (128 <=? b).
Proof.
  intros H.
  assert (S : below 256 (fun b => Bool.eqb (Z.testbit b 7) (128 <=? b)) = true)
    by (vm_compute; reflexivity).
  pose proof (below_spec _ _ S b H) as E. apply eqb_prop in E. exact E.
Qed.

Lemma tmp_wait_done env : forall k i ev k0,
  (k < i)%nat ->
  (exists b, te_poll env (k0 + k)%nat = Some b /\ byte b /\ 128 <= b) ->
  (forall j, (j < k)%nat -> exists b, te_poll env (k0 + j)%nat = Some b /\ byte b /\ b < 128) ->
  fst (tmp_wait env i k0 ev) = Some (ev ++ repeat INap k).
Proof.
  induction k as [|k IH]; intros i ev k0 Hi Hd Hn; (destruct i as [|i]; [lia|]); cbn [tmp_wait].
  - destruct Hd as (b & E & Hb & Hh). rewrite Nat.add_0_r in E. rewrite E.
    rewrite bit7 by assumption. replace (128 <=? b) with true by lia.
    cbn [fst repeat]. rewrite app_nil_r. reflexivity.
  - destruct (Hn 0%nat ltac:(lia)) as (b & E & Hb & Hh). rewrite Nat.add_0_r in E. rewrite E.
    rewrite bit7 by assumption. replace (128 <=? b) with false by lia.
    rewrite IH.
    + cbn [repeat]. rewrite <- app_assoc. reflexivity.
    + lia.
    + rewrite Nat.add_succ_comm. exact Hd.
    + intros j Hj. rewrite Nat.add_succ_comm. apply Hn. lia.
Qed.

Lemma tmp_wait_fault env : forall k i ev k0,
  (k < i)%nat -> te_poll env (k0 + k)%nat = None ->
  (forall j, (j < k)%nat -> exists b, te_poll env (k0 + j)%nat = Some b /\ byte b /\ b < 128) ->
  fst (tmp_wait env i k0 ev) = None.
Proof.
  induction k as [|k IH]; intros i ev k0 Hi Hd Hn; (destruct i as [|i]; [lia|]); cbn [tmp_wait].
  - rewrite Nat.add_0_r in Hd. rewrite Hd. reflexivity.
  - destruct (Hn 0%nat ltac:(lia)) as (b & E & Hb & Hh). rewrite Nat.add_0_r in E. rewrite E.
    rewrite bit7 by assumption. replace (128 <=? b) with false by lia.
    apply IH.
    + lia.
    + rewrite Nat.add_succ_comm. exact Hd.
    + intros j Hj. rewrite Nat.add_succ_comm. apply Hn. lia.
Qed.

Definition tmp_chk (u : Z) : bool :=
  let t := u - 2048 in
  i16 (Z.lor (Z.lor (Z.shiftl (t mod 4096 / 16) 4) (t mod 16))
      (if Z.testbit (t mod 4096 / 16) 7 then 61440 else 0)) =? t.
Lemma tmp_chk_all : below 4096 tmp_chk = true.
Proof. vm_compute. reflexivity. Qed.

Lemma tmp_decode_ok t junk :
  -2048 <= t <= 2047 -> 0 <= junk < 16 ->
  tmp_decode (fst (tmp_register t junk)) (snd (tmp_register t junk)) = t.
Proof.
  intros Ht Hj. unfold tmp_register; cbn [fst snd]. unfold tmp_decode.
  assert (H1 : Z.shiftr (t mod 16 * 16 + junk) 4 = t mod 16).
  { rewrite Z.shiftr_div_pow2 by lia. change (2 ^ 4) with 16.
    rewrite Z.div_add_l by lia. rewrite (Z.div_small junk) by lia. lia. }
  rewrite H1.
  pose proof (below_spec 4096 tmp_chk tmp_chk_all (t + 2048) ltac:(lia)) as E.
  unfold tmp_chk in E. cbv zeta in E.
  replace (t + 2048 - 2048) with t in E by lia. apply Z.eqb_eq in E. exact E.
Qed.

(** C136.  For every device temperature from -128 C to +127.9375 C (every
    value the 12-bit register can hold, whatever the unused bits), every
    earlier stored value and power state: if the bus works and the device
    reports completion at any of the first seven polls, read() returns and
    stores exactly that temperature, naps once per incomplete poll, and leaves
    the bus powered as it found it; on any bus fault read() returns the error
    value and stores nothing. *)
Theorem tmp112_reading_partial :
  forall (value : Z) (twi : bool) (env : TmpEnv),
    (forall t junk k,
       -2048 <= t <= 2047 -> 0 <= junk < 16 -> (k < 7)%nat ->
       ~ bus_fault env -> done_at (te_poll env) k ->
       te_data env = Some (tmp_register t junk) ->
       tmp_read value twi env =
         mkTmpOut t t twi
           ([IWrite [1; 49]; IWrite [1; 177]; IWrite [1]] ++ repeat INap k ++ [IWrite [0]])) /\
    (bus_fault env ->
       to_ret (tmp_read value twi env) = INVALID_TEMP /\
       isErrorValue (to_ret (tmp_read value twi env)) = true /\
       to_value (tmp_read value twi env) = value).
Proof.
  intros value twi env. split.
  - intros t junk k Ht Hj Hk Hnf (Hd & Hn) Hdata. unfold bus_fault in Hnf. unfold tmp_read.
    destruct (te_start_err env); [tauto|].
    destruct (te_select_err env); [tauto|].
    pose proof (tmp_wait_done env k 7
       ([IWrite [1; TMP_CTRL_B1]; IWrite [1; Z.lor TMP_CTRL_B1 TMP_OS]] ++ [IWrite [1]]) 0 Hk Hd Hn) as W.
    destruct (tmp_wait env 7 0 _) as [o ev']. cbn [fst] in W. subst o.
    destruct (te_temp_err env); [tauto|].
    rewrite Hdata. destruct (tmp_register t junk) as [b1 b2] eqn:ER.
    destruct (te_end_err env); [tauto|].
    pose proof (tmp_decode_ok t junk Ht Hj) as D. rewrite ER in D. cbn [fst snd] in D. rewrite D.
    rewrite <- !app_assoc. destruct twi; reflexivity.
  - intros Hf.
    enough (H : to_ret (tmp_read value twi env) = INVALID_TEMP /\ to_value (tmp_read value twi env) = value).
    { destruct H as [-> ->]. repeat split; reflexivity. }
    unfold bus_fault in Hf. unfold tmp_read.
    destruct (te_start_err env); [split; reflexivity|].
    destruct (te_select_err env); [split; reflexivity|].
    destruct (tmp_wait env 7 0 _) as [o ev'] eqn:W.
    destruct o as [ev2|]; [|split; reflexivity].
    destruct (te_temp_err env); [split; reflexivity|].
    destruct (te_data env) as [[b1 b2]|]; [|split; reflexivity].
    destruct (te_end_err env); [split; reflexivity|].
    exfalso. destruct Hf as [Hf|[Hf|[Hf|[Hf|[Hf|Hf]]]]]; try discriminate.
    destruct Hf as (k & Hk & Hnone & Hn).
    pose proof (tmp_wait_fault env k 7
       ([IWrite [1; TMP_CTRL_B1]; IWrite [1; Z.lor TMP_CTRL_B1 TMP_OS]] ++ [IWrite [1]]) 0 Hk Hnone Hn) as F.
    rewrite W in F. discriminate.
Qed.

(** A concrete good environment: -0.5 C, complete at the third poll. *)
Definition tmp_env_ok : TmpEnv :=
  mkTmpEnv false false (fun k => if (k <? 2)%nat then Some 49 else Some 177) false
    (Some (tmp_register (-8) 5)) false.

Example tmp112_case :
  ~ bus_fault tmp_env_ok /\ done_at (te_poll tmp_env_ok) 2 /\
  tmp_register (-8) 5 = (255, 133) /\
  to_ret (tmp_read 320 false tmp_env_ok) = -8 /\
  to_twi (tmp_read 320 false tmp_env_ok) = false.
Proof.
  split; [|split; [|split; [reflexivity|split; reflexivity]]].
  - unfold bus_fault, poll_fault, tmp_env_ok; cbn.
    intros [H|[H|[H|[H|[H|H]]]]]; try discriminate.
    destruct H as (k & _ & H & _). destruct k as [|[|k]]; discriminate.
  - split; cbn.
    + exists 177. split; [reflexivity | unfold byte; lia].
    + intros j Hj. exists 49. split; [|unfold byte; lia].
      destruct j as [|[|j]]; [reflexivity | reflexivity | lia].
Qed.

(** After a fault the sensor is still "available" with the old reading, and
    the bus it powered up is left on. *)
Theorem tmp112_fault_clean_refuted :
  exists env, bus_fault env /\
    let o := tmp_read 320 false env in
    tmp_isAvailable (to_value o) = true /\ to_value o = 320 /\ to_twi o = true.
Proof.
  exists (mkTmpEnv true false (fun _ => None) false None false).
  split; [left; reflexivity | vm_compute; repeat split].
Qed.

(** A conversion that never completes is not an error: after seven polls
    whatever is in the register is returned as the temperature. *)
Theorem tmp112_unfinished_is_error_refuted :
  exists env, (forall k, te_poll env k = Some 49) /\
    to_ret (tmp_read INVALID_TEMP false env) = 320 /\
    isErrorValue (to_ret (tmp_read INVALID_TEMP false env)) = false.
Proof.
  exists (mkTmpEnv false false (fun _ => Some 49) false (Some (20, 0)) false).
  split; [reflexivity | vm_compute; split; reflexivity].
Qed.

(** ** SHT21 *)

(** The two data bytes of a measurement with the given 14-bit-left-justified
    reading [raw] (a multiple of 4) and status bits [st]. *)
Definition sht_bytes (raw st : Z) : Z * Z := (raw / 256, raw mod 256 + st).

Definition sht_raw_ok (raw : Z) : Prop := 0 <= raw < 65536 /\ raw mod 4 = 0.

Definition low_chk (q st : Z) : bool := Z.land (q * 4 + st) 252 =? q * 4.
Lemma low_chk_all : below2 64 4 low_chk = true.
Proof. vm_compute. reflexivity. Qed.

Lemma sht_raw_bytes raw st : sht_raw_ok raw -> 0 <= st < 4 ->
  sht_raw (fst (sht_bytes raw st)) (snd (sht_bytes raw st)) = raw.
Proof.
  intros (Hr & H4) Hs. unfold sht_bytes, sht_raw; cbn [fst snd].

  set (lo := raw mod 256).
  assert (Hlo : 0 <= lo < 256) by (apply Z.mod_pos_bound; lia).
  assert (Hlo4 : lo = lo / 4 * 4).
  { pose proof (Z.div_mod raw 256 ltac:(lia)) as D. fold lo in D.
    pose proof (Z.div_mod raw 4 ltac:(lia)). lia. }
  pose proof (below2_spec 64 4 low_chk low_chk_all (lo / 4) st ltac:(lia) Hs) as E.
  unfold low_chk in E. rewrite <- Hlo4 in E. apply Z.eqb_eq in E. rewrite E.
  assert (Hhi : 0 <= raw / 256 < 256) by lia.
  rewrite Z.shiftl_mul_pow2 by lia. change (2 ^ 8) with 256.
  rewrite u16_id by lia.
  assert (L : Z.land (raw / 256 * 256) lo = 0).
  { apply Z.bits_inj'. intros n Hn. rewrite Z.land_spec, Z.bits_0.
    change 256 with (2 ^ 8). rewrite <- Z.shiftl_mul_pow2, Z.shiftl_spec by lia.
    destruct (Z.ltb_spec n 8).
    - rewrite (Z.testbit_neg_r (raw / 2 ^ 8) (n - 8)) by lia. reflexivity.
    - replace (Z.testbit lo n) with false; [apply andb_false_r|].
      symmetry. destruct (Z.eq_dec lo 0) as [->|Hz]; [apply Z.bits_0|].
      apply Z.bits_above_log2; [lia|].
      apply Z.lt_le_trans with 8; [|lia].
      apply Z.log2_lt_pow2; [lia | change (2 ^ 8) with 256; lia]. }
  rewrite <- Z.lxor_lor by exact L. rewrite <- Z.add_nocarry_lxor by exact L.
  pose proof (Z.div_mod raw 256 ltac:(lia)). lia.
Qed.

Lemma sht_c16_eq raw : 0 <= raw < 65536 ->
  sht_c16 raw = -750 + 5623 * raw / 131072 /\ -750 <= sht_c16 raw <= 2061.
Proof.
  intros H. unfold sht_c16. rewrite Z.shiftr_div_pow2 by lia.
  change (2 ^ 17) with 131072.
  assert (B : 0 <= 5623 * raw / 131072 <= 2811).
  { split; [apply Z.div_pos; lia|].
    enough (5623 * raw / 131072 < 2812) by lia. apply Z.div_lt_upper_bound; lia. }
  rewrite !i16_id by (rewrite ?i16_id; lia). lia.
Qed.

(** C137.  For every raw reading (and status bits), whatever the sensor held
    before: a read that gets its data returns and stores one value whose
    difference from the nominal formula  -46.85 + 175.72 * raw / 2^16  C is
    between 0 and 1.42 sixteenths of a degree, always on the low side; larger
    raw readings never give lower temperatures; the result is never the error
    value, cannot overflow (the product stays inside int32), and the bus is
    left powered as it was found.  When no data arrives in time it returns the
    error value and stores nothing. *)
Theorem sht21_temperature_partial :
  forall (b : ShtBus) (value : Z) (ur : option Z),
    (forall raw st, sht_raw_ok raw -> 0 <= st < 4 ->
       exists c16 b' ev,
         sht_read_temp b value (mkShtEnv ur (Some (sht_bytes raw st))) = (b', c16, c16, ev) /\
         (* 100 * 2^16 * 16 * nominal, exactly *)
         (let nominal := 16 * (-4685 * 65536 + 17572 * raw) in
          0 < nominal - 100 * 65536 * c16 < 142 * 65536) /\
         isErrorValue c16 = false /\ 5623 * raw < 2 ^ 31 /\
         sb_twi b' = sb_twi b /\
         (sb_init b' = sb_init b || match ur with Some _ => true | None => false end)) /\
    (forall raw1 raw2, sht_raw_ok raw1 -> sht_raw_ok raw2 -> raw1 <= raw2 ->
       sht_c16 raw1 <= sht_c16 raw2) /\
    (exists b' ev, sht_read_temp b value (mkShtEnv ur None) = (b', value, INVALID_TEMP, ev)).
Proof.
  intros b value ur. split; [|split].
  - intros raw st Hr Hst. unfold sht_read_temp, sht_prepare, sht_init_avr.
    cbn [se_data se_ur].
    pose proof (sht_raw_bytes raw st Hr Hst) as R.
    destruct (sht_bytes raw st) as [d1 d2]. cbn [fst snd] in R. rewrite R.
    destruct Hr as [Hr _]. destruct (sht_c16_eq raw Hr) as [Hc Hb].
    assert (G : (let nominal := 16 * (-4685 * 65536 + 17572 * raw) in
          0 < nominal - 100 * 65536 * sht_c16 raw < 142 * 65536) /\
         isErrorValue (sht_c16 raw) = false /\ 5623 * raw < 2 ^ 31).
    { split; [|split].
      - cbv zeta. rewrite Hc.
        pose proof (Z.div_mod (5623 * raw) 131072 ltac:(lia)) as D.
        pose proof (Z.mod_pos_bound (5623 * raw) 131072 ltac:(lia)) as M.
        set (q := 5623 * raw / 131072) in *. set (m := (5623 * raw) mod 131072) in *.
        clearbody q m. lia.
      - unfold isErrorValue, INVALID_TEMP. lia.
      - change (2 ^ 31) with 2147483648. lia. }
    destruct G as (G1 & G2 & G3).
    destruct b as [[|] [|]]; cbn [sb_init sb_twi negb]; destruct ur as [u|]; cbn [fst snd app];
      eexists _, _, _; (split; [reflexivity|]); (split; [exact G1|]);
      (split; [exact G2|]); (split; [exact G3|]); split; reflexivity.
  - intros raw1 raw2 [H1 _] [H2 _] Hle.
    destruct (sht_c16_eq raw1 H1) as [-> _]. destruct (sht_c16_eq raw2 H2) as [-> _].
    assert (5623 * raw1 / 131072 <= 5623 * raw2 / 131072) by (apply Z.div_le_mono; lia). lia.
  - unfold sht_read_temp, sht_prepare, sht_init_avr. cbn [se_data se_ur].
    destruct (sb_init b); destruct ur; cbn [app]; eexists _, _; reflexivity.
Qed.

(** The datasheet example reading (raw 0x63f4, about 21.73 C) is delivered
    with status bits 2. *)
Example sht21_temperature_case :
  sht_raw_ok 25588 /\ sht_bytes 25588 2 = (99, 246) /\
  snd (fst (sht_read_temp (mkShtBus false false) INVALID_TEMP
        (mkShtEnv (Some 58) (Some (99, 246))))) = 347.
Proof.
  split; [split; [lia | reflexivity]|]. split; vm_compute; reflexivity.
Qed.

(** ** User register set-up *)

(** The device's user register after a sequence of bus writes: command 0xE6
    (230) writes it, 0xE7 (231) only selects it for reading (Sensirion's
    command set; the EFR32 code at SHT21.cpp 108 agrees). *)
Fixpoint ur_after (ur : Z) (ev : list I2cEvent) : Z :=
  match ev with
  | [] => ur
  | IWrite [230; v] :: ev => ur_after v ev
  | _ :: ev => ur_after ur ev
  end.

(** 8-bit humidity / 12-bit temperature is selected by bit 7 = 0, bit 0 = 1. *)
Definition reduced_precision (ur : Z) : Prop :=
  Z.testbit ur 7 = false /\ Z.testbit ur 0 = true.

(** On EFR32, for every initial register value the set-up selects reduced
    precision and preserves the reserved bits 3-5. *)
Theorem sht21_setup_efr32 :
  forall ur, byte ur ->
    reduced_precision (ur_after ur (sht_init_efr ur)) /\
    (forall i, 3 <= i <= 5 ->
       Z.testbit (ur_after ur (sht_init_efr ur)) i = Z.testbit ur i).
Proof.
  intros ur Hu. unfold sht_init_efr. change (Z.land 231 254) with 230. cbn [ur_after].
  unfold sht_newUR, reduced_precision. split; [split|].
  - rewrite Z.lor_spec, Z.land_spec. change (Z.testbit 56 7) with false.
    change (Z.testbit 3 7) with false. rewrite andb_false_r. reflexivity.
  - rewrite Z.lor_spec. change (Z.testbit 3 0) with true. apply orb_true_r.
  - intros i Hi. assert (i = 3 \/ i = 4 \/ i = 5) as [-> | [-> | ->]] by lia;
      rewrite Z.lor_spec, Z.land_spec; cbn [Z.testbit Pos.testbit Pos.pred_N Pos.pred_double N.eqb]; 
      cbv - [Z.testbit andb orb]; btauto.
Qed.

(** On AVR the same set-up addresses the read command, so whatever the
    register held the device keeps it, although the code records the sensor
    as initialised; a register with full precision selected stays so. *)
Theorem sht21_setup_avr_refuted :
  (forall ur d, byte ur ->
     fst (sht_init_avr (mkShtEnv (Some ur) d)) = true /\
     ur_after ur (snd (sht_init_avr (mkShtEnv (Some ur) d))) = ur) /\
  ~ reduced_precision (ur_after 58 (snd (sht_init_avr (mkShtEnv (Some 58) None)))).
Proof.
  split.
  - intros ur d Hu. cbn. split; reflexivity.
  - vm_compute. intros [_ H]. discriminate.
Qed.

(** ** Humidity *)

Lemma sht_rh_eq raw : 0 <= raw < 65536 ->
  sht_rh raw = (-6 + 125 * raw / 65536) mod 256 /\ 0 <= 125 * raw / 65536 <= 124.
Proof.
  intros H. unfold sht_rh, u8. rewrite Z.shiftr_div_pow2 by lia. change (2 ^ 16) with 65536.
  split; [reflexivity|].
  split; [apply Z.div_pos; lia|].
  enough (125 * raw / 65536 < 125) by lia. apply Z.div_lt_upper_bound; lia.
Qed.

(** C138.  For every raw reading whose nominal humidity  -6 + 125*raw/2^16 %
    is not negative: the value returned and stored is the nominal humidity
    rounded down (so within 1 %), is monotone in the reading, never collides
    with the error value, and is valid exactly when the nominal humidity is
    below 101 %; the high flag is on above 75 %, off below 65 % and otherwise
    as before - so it changes only by crossing the far threshold; a read with
    no data returns 255 and changes neither value nor flag. *)
Theorem sht21_humidity_partial :
  forall (b : ShtBus) (s : Rh) (ur : option Z),
    (forall raw st, sht_raw_ok raw -> 0 <= st < 4 -> 6 * 65536 <= 125 * raw ->
       exists r b' s' ev,
         sht_read_rh b s (mkShtEnv ur (Some (sht_bytes raw st))) = (b', s', r, ev) /\
         rh_value s' = r /\
         (0 <= (-6 * 65536 + 125 * raw) - 65536 * r < 65536) /\
         0 <= r <= 118 /\ (rh_isValid r = true <-> -6 * 65536 + 125 * raw < 101 * 65536) /\
         (75 < r -> rh_high s' = true) /\ (r < 65 -> rh_high s' = false) /\
         (65 <= r <= 75 -> rh_high s' = rh_high s) /\
         sb_twi b' = sb_twi b) /\
    (exists b' ev, sht_read_rh b s (mkShtEnv ur None) = (b', s, 255, ev)).
Proof.
  intros b s ur. split.
  - intros raw st Hr Hst Hpos. unfold sht_read_rh, sht_prepare, sht_init_avr.
    cbn [se_data se_ur].
    pose proof (sht_raw_bytes raw st Hr Hst) as R.
    destruct (sht_bytes raw st) as [d1 d2]. cbn [fst snd] in R. rewrite R.
    destruct Hr as [Hr _]. destruct (sht_rh_eq raw Hr) as [Hc Hb].
    set (r := sht_rh raw) in *.
    pose proof (Z.div_mod (125 * raw) 65536 ltac:(lia)) as D.
    pose proof (Z.mod_pos_bound (125 * raw) 65536 ltac:(lia)) as M.
    assert (H6 : 6 <= 125 * raw / 65536) by (apply Z.div_le_lower_bound; lia).
    rewrite Z.mod_small in Hc by lia.
    assert (G : let s' := rh_publish s r in
         rh_value s' = r /\
         (0 <= (-6 * 65536 + 125 * raw) - 65536 * r < 65536) /\
         0 <= r <= 118 /\ (rh_isValid r = true <-> -6 * 65536 + 125 * raw < 101 * 65536) /\
         (75 < r -> rh_high s' = true) /\ (r < 65 -> rh_high s' = false) /\
         (65 <= r <= 75 -> rh_high s' = rh_high s)).
    { cbv zeta. clearbody r. set (q := 125 * raw / 65536) in *. clearbody q.
      unfold rh_publish, rh_isValid, RH_HIGH, RH_EPS. cbn [rh_value rh_high].
      change (70 + 5) with 75. change (70 - 5) with 65.
      split; [reflexivity|]. split; [lia|]. split; [lia|]. split.
      { rewrite Z.leb_le. split; intros; lia. }
      split; [intros; replace (75 <? r) with true by lia; reflexivity|].
      split; intros.
      - replace (75 <? r) with false by lia. replace (r <? 65) with true by lia. reflexivity.
      - replace (75 <? r) with false by lia. replace (r <? 65) with false by lia. reflexivity. }
    destruct G as (G1 & G2 & G3 & G4 & G5 & G6 & G7).
    destruct b as [[|] [|]]; cbn [sb_init sb_twi negb]; destruct ur as [u|]; cbn [fst snd app];
      eexists r, _, (rh_publish s r), _; (split; [reflexivity|]);
      repeat (split; [assumption|]); reflexivity.
  - unfold sht_read_rh, sht_prepare, sht_init_avr. cbn [se_data se_ur].
    destruct (sb_init b); destruct ur; cbn [app]; eexists _, _; reflexivity.
Qed.

Example sht21_humidity_case :
  sht_raw_ok 40000 /\ 6 * 65536 <= 125 * 40000 /\
  (let '(_, s', r, _) := sht_read_rh (mkShtBus true true) (mkRh 80 true)
      (mkShtEnv None (Some (sht_bytes 40000 2))) in (rh_value s', rh_high s', r)) = (70, true, 70).
Proof.
  split; [split; [lia | reflexivity]|]. split; [lia|]. vm_compute. reflexivity.
Qed.

(** Very dry air (nominal below 0 %) is not reported as dry: every such
    reading comes back as 250..255, is invalid, and switches the high-humidity
    flag ON. *)
Theorem sht21_dry_air_refuted :
  forall raw st, sht_raw_ok raw -> 0 <= st < 4 -> 125 * raw < 6 * 65536 ->
    forall b s ur,
    let '(_, s', r, _) := sht_read_rh b s (mkShtEnv ur (Some (sht_bytes raw st))) in
    250 <= r <= 255 /\ rh_isValid r = false /\ rh_high s' = true.
Proof.
  intros raw st Hr Hst Hneg b s ur. unfold sht_read_rh.
  destruct (sht_prepare b _) as [b1 ev]. cbn [se_data].
  pose proof (sht_raw_bytes raw st Hr Hst) as R.
  destruct (sht_bytes raw st) as [d1 d2]. cbn [fst snd] in R. rewrite R.
  destruct Hr as [Hr _]. destruct (sht_rh_eq raw Hr) as [Hc Hb].
  assert (H6 : 125 * raw / 65536 < 6) by (apply Z.div_lt_upper_bound; lia).
  set (q := 125 * raw / 65536) in *. clearbody q.
  assert (E : (-6 + q) mod 256 = 250 + q).
  { symmetry. apply (Z.mod_unique _ _ (-1)); lia. }
  rewrite E in Hc. rewrite Hc.
  unfold rh_publish, rh_isValid, RH_HIGH, RH_EPS. cbn [rh_high].
  replace (70 + 5 <? 250 + q) with true by lia. lia.
Qed.

(** A read that times out leaves the bus powered although it was off. *)
Theorem sht21_timeout_power_refuted :
  exists b env, sb_twi b = false /\
    sb_twi (fst (fst (fst (sht_read_temp b INVALID_TEMP env)))) = true.
Proof.
  exists (mkShtBus true false), (mkShtEnv None None). split; reflexivity.
Qed.

Print Assumptions tmp112_reading_partial.
Print Assumptions sht21_temperature_partial.
Print Assumptions sht21_humidity_partial.
