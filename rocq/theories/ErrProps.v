(** C132: the error reporter never loses an error to a lesser report.
    C133: the supply voltage is never over-reported, and low-supply flags. *)
From Verif Require Import Base ErrModel.

(** ** Specification vocabulary *)

(** A call that does not report an error: an ageing poll, or set(v), v <= 0. *)
Definition non_error (o : ErrOp) : bool :=
  match o with ESet v => v <=? 0 | ERead => true end.

(** Number of ageing polls in a history. *)
Fixpoint polls (os : list ErrOp) : Z :=
  match os with
  | [] => 0
  | ERead :: os => 1 + polls os
  | ESet _ :: os => polls os
  end.

Lemma polls_nonneg os : 0 <= polls os.
Proof. induction os as [|[v|] os IH]; cbn [polls]; lia. Qed.

(** The ticks counter stays a byte at most 10. *)
Definition err_ok (e : Err) : Prop := 0 <= er_ticks e <= 10.

Lemma err_do_ok e o : err_ok e -> err_ok (err_do e o).
Proof.
  unfold err_ok, err_do, err_set, err_read, ERR_TIMEOUT. intros H.
  destruct o as [v|].
  - destruct (_ || _); cbn [fst er_ticks]; lia.
  - destruct (er_ticks e =? 0) eqn:E; cbn [fst er_ticks]; [lia|].
    apply Z.eqb_neq in E. rewrite u8_id by (red; lia). lia.
Qed.

Lemma err_run_ok os : forall e, err_ok e -> err_ok (err_run e os).
Proof.
  unfold err_run. induction os as [|o os IH]; intros e H; cbn [fold_left]; auto.
  apply IH, err_do_ok, H.
Qed.

Lemma shield os : forall e,
  0 <= er_ticks e <= 10 ->
  Forall (fun o => non_error o = true) os -> polls os < er_ticks e ->
  er_value (err_run e os) = er_value e /\
  er_ticks (err_run e os) = er_ticks e - polls os.
Proof.
  induction os as [|o os IH]; intros e He Hf Hp.
  - cbn [polls]. unfold err_run; cbn [fold_left]. lia.
  - pose proof (polls_nonneg os) as Hn. apply Forall_cons_iff in Hf.
    destruct Hf as [Ho Hf]. unfold err_run. cbn [fold_left].
    fold (err_run (err_do e o) os).
    destruct o as [v|]; cbn [polls] in *; cbn [non_error] in Ho.
    + assert (err_do e (ESet v) = e) as ->.
      { unfold err_do, err_set, err_isAged.
        apply Z.leb_le in Ho.
        destruct (0 <? v) eqn:E1; [lia|].
        destruct (er_ticks e =? 0) eqn:E2; [lia|]. reflexivity. }
      apply IH; auto.
    + assert (err_do e ERead = mkErr (er_value e) (er_ticks e - 1)) as ->.
      { unfold err_do, err_read.
        destruct (er_ticks e =? 0) eqn:E2; [lia|]. cbn [fst].
        rewrite u8_id by (red; lia). reflexivity. }
      destruct (IH (mkErr (er_value e) (er_ticks e - 1))) as [Hv Ht];
        cbn [er_value er_ticks] in *; [lia | auto | lia |].
      rewrite Hv, Ht. split; [reflexivity | lia].
Qed.

(** C132.  For every earlier history [h] of calls on a reporter:
    an error is always taken; and once any report [v] (error, warning or a
    clear) has been taken, then through every later sequence of calls that
    reports no error and polls fewer than ten times, [v] is still what get()
    returns, the reporter stays available, and every further warning or clear
    is refused with set() returning false and changing nothing.  The tenth
    poll ages it: it becomes unavailable with the last value still readable,
    stays so under any further polling, and the next report of any kind is
    then taken. *)
Theorem errors_shielded_until_aged_partial :
  forall (h : list ErrOp) (v : Z),
    let e0 := err_run err_init h in
    (0 < v -> snd (err_set e0 v) = true) /\
    (err_isAged e0 = true -> snd (err_set e0 v) = true) /\
    (snd (err_set e0 v) = false -> fst (err_set e0 v) = e0) /\
    (snd (err_set e0 v) = true ->
       forall mid : list ErrOp,
         Forall (fun o => non_error o = true) mid ->
         let e := err_run (fst (err_set e0 v)) mid in
         (polls mid < 10 ->
            err_get e = v /\ err_isAvailable e = true /\
            (forall w, w <= 0 -> err_set e w = (e, false)) /\
            (forall w, 0 < w -> err_get (fst (err_set e w)) = w)) /\
         (forall pre : list ErrOp, polls pre = 9 -> mid = pre ++ [ERead] ->
            forall more : nat,
            let e' := err_run e (repeat ERead more) in
            err_get e' = v /\ err_isAvailable e' = false /\
            (forall w, snd (err_set e' w) = true /\
                       err_get (fst (err_set e' w)) = w))).
Proof.
  intros h v e0.
  assert (Hok : err_ok e0) by (apply err_run_ok; red; cbn; lia).
  split; [|split; [|split]].
  - intros Hv. unfold err_set. replace (0 <? v) with true by lia. reflexivity.
  - intros Ha. unfold err_set. rewrite Ha, orb_true_r. reflexivity.
  - unfold err_set. destruct (_ || _); cbn [fst snd]; [discriminate | reflexivity].
  - intros Hs mid Hm.
    assert (Hs0 : fst (err_set e0 v) = mkErr v 10).
    { revert Hs. unfold err_set. destruct (_ || _); cbn [fst snd]; [reflexivity | discriminate]. }
    rewrite Hs0. cbv zeta. split.
    + intros Hp. destruct (shield mid (mkErr v 10)) as [Ev Et];
        cbn [er_ticks]; [lia | auto | auto |].
      cbn [er_value er_ticks] in *.
      set (e := err_run (mkErr v 10) mid) in *.
      assert (Hna : err_isAged e = false) by (unfold err_isAged; lia).
      split; [exact Ev|]. split; [unfold err_isAvailable; rewrite Hna; reflexivity|].
      split; intros w Hw; unfold err_set.
      * rewrite Hna. replace (0 <? w) with false by lia. reflexivity.
      * replace (0 <? w) with true by lia. reflexivity.
    + intros pre Hp9 -> more.
      apply Forall_app in Hm. destruct Hm as [Hm _].
      destruct (shield pre (mkErr v 10)) as [Ev Et];
        cbn [er_ticks]; [lia | auto | lia |].
      cbn [er_value er_ticks] in *.
      assert (E1 : err_run (mkErr v 10) (pre ++ [ERead]) = mkErr v 0).
      { unfold err_run in *. rewrite fold_left_app. cbn [fold_left].
        set (e1 := fold_left err_do pre _) in *.
        unfold err_do, err_read. rewrite Ev, Et, Hp9.
        destruct (10 - 9 =? 0) eqn:E; [lia|]. reflexivity. }
      rewrite E1.
      assert (E2 : forall n, err_run (mkErr v 0) (repeat ERead n) = mkErr v 0).
      { unfold err_run. induction n; cbn [repeat fold_left]; auto. }
      rewrite E2. split; [reflexivity|]. split; [reflexivity|].
      intros w. unfold err_set. cbn [err_isAged er_ticks]. rewrite orb_true_r.
      split; reflexivity.
Qed.

(** Non-trivial case: an error among warnings and polls. *)
Example errors_shielded_case :
  let h := [ESet (-21); ERead; ESet 20; ERead; ESet 0; ESet (-1)] in
  let e := err_run err_init h in
  err_get e = 20 /\ err_isAvailable e = true /\ er_ticks e = 9 /\
  snd (err_set e (-5)) = false /\ snd (err_set e 3) = true.
Proof. vm_compute. repeat split. Qed.

(** The documented "isAvailable: there is a non-aged error or warning set"
    fails: clearing an aged reporter makes it available with no error. *)
Theorem available_means_error_refuted :
  exists h, let e := err_run err_init h in
    err_isAvailable e = true /\ err_get e = 0.
Proof. exists [ESet 0]. vm_compute. split; reflexivity. Qed.

(** ** Supply voltage *)

(** The ideal voltage (in cV) for an ADC reading is 110 * 1023 / raw. *)

(** Readings that a supply below 20 V can produce. *)
Definition adc_ok (raw : Z) : Prop := 55 <= raw <= 1023.

Lemma supply_cV_eq raw : adc_ok raw ->
  supply_cV raw = Some (65472 / raw * 55 / 32).
Proof.
  unfold adc_ok, supply_cV. intros H.
  destruct (raw =? 0) eqn:E; [lia|].
  change (u16 (Z.shiftl 1023 6)) with 65472.
  assert (0 <= 65472 / raw <= 1190).
  { split; [apply Z.div_pos; lia|].
    apply Z.le_trans with (65472 / 55); [apply Z.div_le_compat_l; lia | vm_compute; discriminate]. }
  rewrite (u16_id (65472 / raw * 55)) by lia.
  rewrite u16_id; [reflexivity|].
  split; [apply Z.div_pos; lia|].
  apply Z.div_lt_upper_bound; lia.
Qed.

(** The conversion rounds down, by less than 3 cV. *)
Lemma supply_cV_bound raw : adc_ok raw ->
  let cV := 65472 / raw * 55 / 32 in
  0 <= cV /\ cV * raw <= 110 * 1023 < (cV + 3) * raw.
Proof.
  intros H cV. unfold adc_ok in H.
  assert (Hq := Z.div_mod 65472 raw ltac:(lia)).
  assert (Hr := Z.mod_pos_bound 65472 raw ltac:(lia)).
  set (q := 65472 / raw) in *. 
  assert (Hc := Z.div_mod (q * 55) 32 ltac:(lia)).
  assert (Hm := Z.mod_pos_bound (q * 55) 32 ltac:(lia)).
  fold cV in Hc.
  assert (0 <= q) by (apply Z.div_pos; lia).
  assert (0 <= cV) by (apply Z.div_pos; lia).
  split; [lia|]. clearbody q cV. nia.
Qed.

Definition sup_inv (s : Supply) : Prop :=
  (s = supply_init \/
   (adc_ok (sv_rawInv s) /\ supply_cV (sv_rawInv s) = Some (sv_value s) /\
    sv_isVeryLow s = (sv_value s <=? 210) /\ sv_isLow s = (sv_value s <=? 245))).

Definition pow_ok (o : PowOp) : Prop :=
  match o with PSupply raw => adc_ok raw | PErr _ => True end.

Lemma supply_read_ok s e raw :
  sup_inv s -> adc_ok raw ->
  exists s' e' r, supply_read s e raw = Some (s', e', r) /\
    r = sv_value s' /\ sup_inv s' /\ s' <> supply_init /\
    raw <= sv_rawInv s' <= raw + 6.
Proof.
  intros Hi Ha. unfold supply_read.
  destruct ((raw <=? sv_rawInv s) && (sv_rawInv s - raw <=? 6)) eqn:E.
  - exists s, e, (sv_value s). split; [reflexivity|]. split; [reflexivity|].
    split; [exact Hi|]. apply andb_true_iff in E. destruct E as [E1 E2].
    destruct Hi as [-> | (Hr & _)].
    + unfold adc_ok, supply_init, INITIAL_RAWINV in *. cbn [sv_rawInv] in *. lia.
    + split; [intros ->; unfold adc_ok, supply_init, INITIAL_RAWINV in *;
              cbn [sv_rawInv] in *; lia | lia].
  - rewrite supply_cV_eq by exact Ha. cbn [bind].
    set (r := 65472 / raw * 55 / 32).
    eexists _, _, r. split; [reflexivity|]. split; [reflexivity|]. split.
    + right. cbn [sv_rawInv sv_value sv_isVeryLow sv_isLow].
      split; [exact Ha|]. split; [rewrite supply_cV_eq by exact Ha; reflexivity|].
      split; [reflexivity|]. unfold BATTERY_VERY_LOW_cV, BATTERY_LOW_cV.
      destruct (r <=? 210) eqn:E1; cbn [orb]; [symmetry; apply Z.leb_le; apply Z.leb_le in E1; lia | reflexivity].
    + split.
      * intros Heq. apply (f_equal sv_rawInv) in Heq.
        unfold adc_ok, supply_init, INITIAL_RAWINV in *. cbn [sv_rawInv] in *. lia.
      * cbn [sv_rawInv]. lia.
Qed.

Lemma pow_run_inv os : forall st,
  sup_inv (fst st) -> Forall pow_ok os ->
  exists st', pow_run st os = Some st' /\ sup_inv (fst st').
Proof.
  induction os as [|o os IH]; intros st Hi Hf.
  - exists st. split; [reflexivity | exact Hi].
  - apply Forall_cons_iff in Hf. destruct Hf as [Ho Hf]. cbn [pow_run].
    destruct o as [raw|o]; cbn [pow_do].
    + destruct (supply_read_ok (fst st) (snd st) raw Hi Ho)
        as (s' & e' & r & E & _ & Hi' & _). rewrite E. cbn [bind].
      apply IH; auto.
    + cbn [bind]. apply IH; auto.
Qed.

(** C133.  For every history of readings (and reporter activity), after a
    reading that sampled the ADC value [raw]: the read is defined; with
    ideal = 112530/raw the supply in cV, the published value never exceeds it,
    and is at least the ideal for raw+6 less 3 cV; the flags are exactly
    "value <= 2.10 V" and "value <= 2.45 V" so very-low implies low and mains
    implies neither; in particular a supply that really is at or below a
    threshold is always flagged. Before any reading both flags are set. *)
Theorem supply_reading_conservative_partial :
  forall (os : list PowOp) (raw : Z),
    Forall pow_ok os -> adc_ok raw ->
    exists s e s' e' r,
      pow_run (supply_init, err_init) os = Some (s, e) /\
      supply_read s e raw = Some (s', e', r) /\ r = sv_value s' /\
      (sv_value s' * raw <= 112530 < (sv_value s' + 3) * (raw + 6)) /\
      sv_isVeryLow s' = (sv_value s' <=? 210) /\
      sv_isLow s' = (sv_value s' <=? 245) /\
      (sv_isVeryLow s' = true -> sv_isLow s' = true) /\
      (sv_isMains s' = true -> sv_isLow s' = false /\ sv_isVeryLow s' = false) /\
      (112530 <= 210 * raw -> sv_isVeryLow s' = true) /\
      (112530 <= 245 * raw -> sv_isLow s' = true) /\
      (sv_isVeryLow s' = true -> ((s', e') = (s, e) \/
          (err_get e' = ERR_BATTERY_VERY_LOW /\ err_isAvailable e' = true))).
Proof.
  intros os raw Hf Ha.
  destruct (pow_run_inv os (supply_init, err_init)) as ((s, e) & E & Hi); auto.
  { left; reflexivity. }
  cbn [fst] in Hi.
  destruct (supply_read_ok s e raw Hi Ha) as (s' & e' & r & E' & -> & Hi' & Hn & Hr).
  exists s, e, s', e', (sv_value s').
  split; [exact E|]. split; [exact E'|]. split; [reflexivity|].
  destruct Hi' as [Hi'|(Ha' & Hv & Hvl & Hl)]; [contradiction|].
  rewrite supply_cV_eq in Hv by exact Ha'. apply some_inj in Hv.
  destruct (supply_cV_bound _ Ha') as (H0 & H1 & H2). rewrite Hv in *.
  unfold adc_ok in *.
  assert (B1 : sv_value s' * raw <= 112530) by nia.
  split; [split; [exact B1 | nia]|].
  split; [exact Hvl|]. split; [exact Hl|]. rewrite Hvl, Hl.
  split; [intros; lia|]. split.
  { unfold sv_isMains, MAINS_MIN_cV. intros. lia. }
  split; [intros; nia|]. split; [intros; nia|].
  intros Hlow. revert E'. unfold supply_read.
  destruct (_ && _).
  - intros E'. apply some_inj in E'. left. congruence.
  - rewrite supply_cV_eq by (red; lia). cbn [bind]. intros E'. right.
    apply some_inj in E'. apply pair_inj in E'. destruct E' as [E' Er].
    apply pair_inj in E'. destruct E' as [Es Ee].
    rewrite <- Er in Hlow. unfold BATTERY_VERY_LOW_cV in Ee. rewrite Hlow in Ee.
    rewrite <- Ee. unfold err_set, ERR_BATTERY_VERY_LOW. cbn [Z.ltb Z.compare orb fst].
    split; reflexivity.
Qed.

Example supply_case :
  (let st := pow_run (supply_init, err_init)
       [PSupply 430; PSupply 433; PSupply 428; PErr ERead; PSupply 426] in
   st = Some (mkSupply 426 262 false false, err_init)) /\
  Forall pow_ok [PSupply 430; PSupply 433; PSupply 428; PErr ERead; PSupply 426].
Proof.
  split; [vm_compute; reflexivity|].
  repeat constructor; cbn; lia.
Qed.

(** A very low supply does not stay reported: with a steady reading the
    report is made once, ages out, and is never renewed, although the
    very-low flag remains set throughout. *)
Theorem very_low_supply_stays_reported_refuted :
  forall n : nat,
  exists s e,
    pow_run (supply_init, err_init)
      (PSupply 600 :: concat (repeat [PErr ERead; PSupply 600] (10 + n))) = Some (s, e) /\
    sv_isVeryLow s = true /\ err_isAvailable e = false.
Proof.
  intros n.
  set (s := mkSupply 600 187 true true).
  assert (H1 : forall e, supply_read s e 600 = Some (s, e, 187)) by (intros; reflexivity).
  assert (H2 : sv_isVeryLow s = true) by reflexivity.
  assert (H3 : pow_do (supply_init, err_init) (PSupply 600) = Some (s, mkErr 20 10))
      by (vm_compute; reflexivity).
  clearbody s.
  assert (H : forall n e, pow_run (s, e) (concat (repeat [PErr ERead; PSupply 600] n))
     = Some (s, err_run e (repeat ERead n))).
  { clear n. induction n; intros e; [reflexivity|].
    cbn [repeat concat app pow_run pow_do fst snd bind].
    rewrite H1. cbn [bind]. rewrite IHn. reflexivity. }
  exists s, (err_run (mkErr 20 10) (repeat ERead (10 + n))).
  split; [|split].
  - cbn [pow_run].
    rewrite H3. cbn [bind]. apply H.
  - exact H2.
  - cbn [Nat.add repeat]. unfold err_run. cbn [fold_left].
    assert (E : err_do (err_do (err_do (err_do (err_do (err_do (err_do (err_do
      (err_do (err_do (mkErr 20 10) ERead) ERead) ERead) ERead) ERead) ERead)
      ERead) ERead) ERead) ERead = mkErr 20 0) by (vm_compute; reflexivity).
    rewrite E. clear. induction n; cbn [repeat fold_left]; auto.
Qed.

(** Outside the physical range the arithmetic wraps (22.9 V reads as 0.35 V)
    and a zero reading divides by zero. *)
Theorem supply_any_reading_refuted :
  supply_cV 54 = Some 35 /\ supply_read supply_init err_init 0 = None.
Proof. vm_compute. split; reflexivity. Qed.

Print Assumptions errors_shielded_until_aged_partial.
Print Assumptions supply_reading_conservative_partial.
