(** Hourly statistics: the sub-sampling updater. *)
From Verif Require Import Base EepromModel StatsModel StatsSmooth.

(** ** Specification *)
Definition zsum (l : list Z) : Z := fold_right Z.add 0 l.
(** The mean of a non-empty list, rounded to the nearest integer (half up). *)
Definition rounded_mean (l : list Z) : Z := (2 * zsum l + Zlen l) / (2 * Zlen l).
(** Of the sub-samples of an hour the first M-1 count, and the final one. *)
Definition accepted {A} (M : Z) (subs : list A) (last : A) : list A :=
  firstn (Z.to_nat (M - 1)) subs ++ [last].
(** What a smoothed slot becomes on a new raw value. *)
Definition folded (rnd old value : Z) : Z := if old =? 255 then value else smooth rnd old value.

(** A call of the updater. *)
Record Call := mkC { cFull : bool; cHour : Z; cR : Readings; cN : Rnds }.
Definition call (M : Z) (c : Call) (s : UState * Store) : UState * Store :=
  update_stats M (cFull c) (cHour c) (cR c) (cN c) (fst s) (snd s).
Definition calls (M : Z) (cs : list Call) (s : UState * Store) : UState * Store :=
  fold_left (fun s c => call M c s) cs s.
(** A whole hour: sub-samples (not full), then the full one. *)
Definition whole_hour (M : Z) (subs : list Call) (hh : Z) (last : Readings) (n : Rnds) (s : UState * Store) :=
  call M (mkC true hh last n) (calls M subs s).
Definition is_sub (c : Call) : Prop := cFull c = false /\ 0 <= cHour c < 24.

(** ** Closed forms *)
Definition nt (M : Z) (wrap : Z -> Z) (first : bool) (tot : Z) (r : option Z) : Z :=
  match r with None => tot | Some v => if first then v else wrap (tot + v) end.
Definition amb_clip (r : option Z) := option_map (fun v => Z.min v 254) r.
Definition temp_mean (M sc tot : Z) : Z :=
  if M <=? 2 then (if 1 =? sc then tot else i16 (Z.shiftr (tot + 1) 1))
  else if 1 =? sc then tot
  else if 2 =? sc then i16 (Z.shiftr (tot + 1) 1)
  else i16 (Z.quot (tot + Z.shiftr sc 1) sc).
Definition pair_if (r : option Z) (rnd set hh v : Z) (m : Store) : Store :=
  match r with None => m | Some _ => update_pair rnd set hh v m end.

Lemma update_closed M full hh r n u m : 
  update_stats M full hh r n u m =
  if 23 <? hh then (mkU (tempTotal u) (ambTotal u) (occTotal u) (rhTotal u) 0, m) else
  if negb full && (M - 1 <=? sampleCount u) then (u, m) else
  let first := 0 =? sampleCount u in
  let sc := u8 (sampleCount u + 1) in
  let a := nt M u16 first (ambTotal u) (amb_clip (rAmb r)) in
  let t := nt M i16 first (tempTotal u) (rTemp r) in
  let o := nt M (pcAcc M) first (occTotal u) (rOcc r) in
  let h := nt M (pcAcc M) first (rhTotal u) (rRh r) in
  (mkU t a o h (if full then 0 else sc),
   if full then
     pair_if (rRh r) (nRh n) 6 hh (divide_to_u8 h sc M)
     (pair_if (rOcc r) (nOcc n) 4 hh (divide_to_u8 o sc M)
     (pair_if (rTemp r) (nTemp n) 0 hh (compressTempC16 (temp_mean M sc t))
     (pair_if (rAmb r) (nAmb n) 2 hh (divide_to_u8 a sc M) m)))
   else m).
Proof.
  unfold update_stats. destruct (23 <? hh); [reflexivity|]. destruct (negb full && _); [reflexivity|].
  cbv zeta. destruct (rAmb r), (rTemp r), (rOcc r), (rRh r), full; reflexivity.
Qed.

Lemma sget_sset m set hh v s h : 0 <= hh < 24 -> set < 14 ->
  sget (sset m set hh v) s h = if (s =? set) && (h =? hh) then v else sget m s h.
Proof.
  intros Hh Hs. unfold sget, sset, STATS_SETS. replace (14 <=? set) with false by lia. replace (24 <=? hh) with false by lia.
  cbn [orb]. destruct (s =? set) eqn:E1; destruct (h =? hh) eqn:E2; cbn [andb];
  destruct (14 <=? s) eqn:E3; destruct (24 <=? h) eqn:E4; cbn [orb]; try reflexivity; lia.
Qed.
Lemma sget_pair rnd m set hh v s h : 0 <= hh < 24 -> 0 <= set < 13 ->
  sget (update_pair rnd set hh v m) s h =
  if (s =? set) && (h =? hh) then v
  else if (s =? set + 1) && (h =? hh) then folded rnd (sget m (set + 1) hh) v
  else sget m s h.
Proof.
  intros Hh Hs. unfold update_pair. cbv zeta.
  rewrite (sget_sset m set hh v (set + 1) hh) by lia. replace (set + 1 =? set) with false by lia. cbn [andb].
  unfold folded, UNSET_BYTE. rewrite (Z.eqb_sym 255).
  destruct (sget m (set + 1) hh =? 255); rewrite sget_sset by lia; rewrite (sget_sset m) by lia;
  destruct (s =? set) eqn:E1; destruct (h =? hh) eqn:E2; destruct (s =? set + 1) eqn:E3; cbn [andb]; try reflexivity; lia.
Qed.
Lemma sget_pair_if r rnd m set hh v s h : 0 <= hh < 24 -> 0 <= set < 13 ->
  sget (pair_if r rnd set hh v m) s h =
  match r with None => sget m s h | Some _ =>
  if (s =? set) && (h =? hh) then v
  else if (s =? set + 1) && (h =? hh) then folded rnd (sget m (set + 1) hh) v
  else sget m s h end.
Proof. intros. destruct r; [apply sget_pair; auto|reflexivity]. Qed.

(** ** What a call may touch *)
Theorem sub_sample_writes_nothing : forall M c s, cFull c = false -> snd (call M c s) = snd s.
Proof.
  intros M c s H. unfold call. rewrite update_closed, H. destruct (23 <? _); [reflexivity|].
  destruct (negb false && _); reflexivity.
Qed.
Theorem bad_hour_discards : forall M c s, 24 <= cHour c ->
  snd (call M c s) = snd s /\ sampleCount (fst (call M c s)) = 0.
Proof.
  intros M c s H. unfold call. rewrite update_closed. replace (23 <? cHour c) with true by lia. auto.
Qed.
Theorem full_sample_touches_only_hour : forall M c s set h, 0 <= cHour c < 24 ->
  h <> cHour c \/ set < 0 \/ 8 <= set -> sget (snd (call M c s)) set h = sget (snd s) set h.
Proof.
  intros M c s set h Hh H. unfold call. rewrite update_closed. destruct (23 <? _); [reflexivity|].
  destruct (negb _ && _); [reflexivity|]. cbv zeta. cbn [snd]. destruct (cFull c); [|reflexivity].
  rewrite !sget_pair_if by lia.
  assert (E : forall k, 0 <= k < 8 -> (set =? k) && (h =? cHour c) = false) by (intros; lia).
  rewrite !E by lia. destruct (rRh _), (rOcc _), (rTemp _), (rAmb _); reflexivity.
Qed.
(** An unavailable sensor's stats are left alone. *)
Theorem full_sample_unavailable_untouched : forall M c s h, 0 <= cHour c < 24 ->
  (rTemp (cR c) = None -> forall set, set = 0 \/ set = 1 -> sget (snd (call M c s)) set h = sget (snd s) set h) /\
  (rAmb (cR c) = None -> forall set, set = 2 \/ set = 3 -> sget (snd (call M c s)) set h = sget (snd s) set h) /\
  (rOcc (cR c) = None -> forall set, set = 4 \/ set = 5 -> sget (snd (call M c s)) set h = sget (snd s) set h) /\
  (rRh (cR c) = None -> forall set, set = 6 \/ set = 7 -> sget (snd (call M c s)) set h = sget (snd s) set h).
Proof.
  intros M c s h Hh. unfold call. rewrite update_closed. destruct (23 <? _); [auto 8|].
  destruct (negb _ && _); [auto 8|]. cbv zeta. cbn [snd]. destruct (cFull c); [|auto 8].
  repeat apply conj; intros HN set Hset; rewrite !sget_pair_if by lia; rewrite HN;
  destruct (rRh _), (rOcc _), (rTemp _), (rAmb _); destruct Hset as [-> | ->]; reflexivity.
Qed.

(** ** The count never exceeds the limit *)
Lemma count_call M c s : 1 <= M <= 255 -> 0 <= sampleCount (fst s) <= M - 1 ->
  0 <= sampleCount (fst (call M c s)) <= M - 1.
Proof.
  intros HM Hs. unfold call. rewrite update_closed. destruct (23 <? _); [cbn; lia|].
  destruct (negb (cFull c) && _) eqn:E; [exact Hs|]. cbv zeta. cbn [fst sampleCount].
  destruct (cFull c); [lia|]. cbn [negb andb] in E. rewrite u8_id by (unfold byte; lia). lia.
Qed.

(** ** The accumulated totals *)
Definition tot_ok (k : Z) (tot : Z) (vals : list Z) : Prop := k = 0 \/ tot = zsum vals.
Lemma zsum_app a b : zsum (a ++ b) = zsum a + zsum b.
Proof. induction a; cbn; [reflexivity|]. fold (zsum (a0 ++ b)) (zsum a0). lia. Qed.
Lemma zsum_bound l hi : Forall (fun v => 0 <= v <= hi) l -> 0 <= zsum l <= hi * Zlen l.
Proof.
  induction 1; [cbn; unfold Zlen; cbn; lia|]. rewrite Zlen_cons. cbn [zsum fold_right]. fold (zsum l). lia.
Qed.

(** Generic: a run of sub-samples leaves count = min(length, M-1), and total =
    sum of those accepted.  [sel] selects the sensor, [proj] its total. *)
Section Acc.
  Variables (M : Z) (sel : Readings -> option Z) (proj : UState -> Z) (wrap : Z -> Z) (ok : Z -> Prop).
  Hypothesis HM : 1 <= M <= 255.
  Hypothesis HP : forall full hh r n u m, 0 <= hh < 24 -> negb full && (M - 1 <=? sampleCount u) = false ->
    proj (fst (update_stats M full hh r n u m)) = nt M wrap (0 =? sampleCount u) (proj u) (sel r).
  Hypothesis HW : forall vals, Forall ok vals -> Zlen vals <= M -> wrap (zsum vals) = zsum vals.

  Lemma acc_run : forall subs vals pre u m,
    Forall is_sub subs -> sampleCount u = Zlen pre -> Zlen pre <= M - 1 ->
    (pre <> [] -> proj u = zsum pre) -> Forall ok pre ->
    map (fun c => sel (cR c)) (firstn (Z.to_nat (M - 1 - Zlen pre)) subs) = map Some vals -> Forall ok vals ->
    let s' := calls M subs (u, m) in
    sampleCount (fst s') = Zlen (pre ++ vals) /\ Zlen (pre ++ vals) <= M - 1 /\
    (pre ++ vals <> [] -> proj (fst s') = zsum (pre ++ vals)) /\ snd s' = m.
  Proof.
    induction subs as [|c subs IH]; intros vals pre u m HS HC HL HT HO HV HVo; cbv zeta.
    - rewrite firstn_nil in HV. destruct vals; [|discriminate HV]. rewrite app_nil_r. cbn. auto.
    - inversion HS as [|? ? [HF HH] HS']; subst.
      change (calls M (c :: subs) (u, m)) with (calls M subs (call M c (u, m))).
      assert (EC : call M c (u, m) = update_stats M false (cHour c) (cR c) (cN c) u m)
        by (unfold call; rewrite HF; reflexivity).
      rewrite !EC. clear EC.
      destruct (Z.eq_dec (Zlen pre) (M - 1)) as [EQ|NE].
      + replace (M - 1 - Zlen pre) with 0 in HV by lia. cbn [Z.to_nat firstn map] in HV.
        destruct vals; [|discriminate HV]. rewrite app_nil_r.
        rewrite update_closed. replace (23 <? cHour c) with false by lia.
        replace (negb false && (M - 1 <=? sampleCount u)) with true by (cbn [negb andb]; lia).
        specialize (IH [] pre u m HS' HC HL HT HO). rewrite app_nil_r in IH. apply IH; [|constructor].
        replace (M - 1 - Zlen pre) with 0 by lia. reflexivity.
      + assert (HE : negb false && (M - 1 <=? sampleCount u) = false) by (cbn [negb andb]; lia).
        replace (Z.to_nat (M - 1 - Zlen pre)) with (S (Z.to_nat (M - 1 - (Zlen pre + 1)))) in HV by lia.
        rewrite firstn_cons in HV. destruct vals as [|v vals]; [discriminate HV|].
        cbn [map] in HV. apply f_equal with (f := @tl _) in HV as HV2. cbn [tl] in HV2.
        apply f_equal with (f := fun l => hd None l) in HV as HV1. cbn [hd] in HV1.
        inversion HVo as [|? ? Hv HVo']; subst.
        pose proof (HP false (cHour c) (cR c) (cN c) u m HH HE) as HPc. rewrite HV1 in HPc.
        assert (SM : snd (update_stats M false (cHour c) (cR c) (cN c) u m) = m).
        { apply (sub_sample_writes_nothing M (mkC false (cHour c) (cR c) (cN c)) (u, m)). reflexivity. }
        assert (SC : sampleCount (fst (update_stats M false (cHour c) (cR c) (cN c) u m)) = Zlen pre + 1).
        { rewrite update_closed. replace (23 <? cHour c) with false by lia. rewrite HE. cbv zeta. cbn [fst sampleCount].
          rewrite HC. apply u8_id. pose proof (Zlen_nonneg pre). unfold byte. lia. }
        destruct (update_stats M false (cHour c) (cR c) (cN c) u m) as [u1 m1] eqn:EU. cbn [fst snd] in HPc, SM, SC. subst m1.
        assert (LP : Zlen (pre ++ [v]) = Zlen pre + 1) by (rewrite Zlen_app; reflexivity).
        assert (HOv : Forall ok (pre ++ [v])) by (apply Forall_app; split; [exact HO|repeat constructor; exact Hv]).
        assert (HT' : proj u1 = zsum (pre ++ [v])).
        { rewrite HPc. unfold nt. rewrite HC. destruct (0 =? Zlen pre) eqn:E0.
          - destruct pre; [cbn; lia|]. rewrite Zlen_cons in E0. pose proof (Zlen_nonneg pre). lia.
          - rewrite <- (HW (pre ++ [v])) by (auto; lia). f_equal. rewrite zsum_app. cbn. rewrite HT; [lia|].
            intros ->. discriminate E0. }
        specialize (IH vals (pre ++ [v]) u1 m HS' ltac:(lia) ltac:(lia) (fun _ => HT') HOv).
        rewrite <- app_assoc in IH. cbn [app] in IH. apply IH; [|exact HVo'].
        rewrite LP. exact HV2.
  Qed.

  (** State just after the full sample's accumulation. *)
  Lemma acc_hour : forall subs hh last n vals u m,
    Forall is_sub subs -> 0 <= hh < 24 -> sampleCount u = 0 ->
    map sel (accepted M (map cR subs) last) = map Some vals -> Forall ok vals ->
    exists u1, calls M subs (u, m) = (u1, m) /\ 0 <= sampleCount u1 <= M - 1 /\
      u8 (sampleCount u1 + 1) = Zlen vals /\ 1 <= Zlen vals <= M /\
      nt M wrap (0 =? sampleCount u1) (proj u1) (sel last) = zsum vals /\
      proj (fst (whole_hour M subs hh last n (u, m))) = zsum vals /\ (exists v, sel last = Some v).
  Proof.
    intros subs hh last n vals u m HS HH HC HV HO.
    unfold accepted in HV. rewrite map_app in HV. cbn [map] in HV.
    destruct (@exists_last _ vals) as (vs & v & ->).
    { intros ->. destruct (map sel _); discriminate HV. }
    rewrite map_app in HV. cbn [map] in HV. apply app_inj_tail in HV. destruct HV as [HV HL].
    apply Forall_app in HO as HO2. destruct HO2 as [HOs _].
    assert (HV' : map (fun c => sel (cR c)) (firstn (Z.to_nat (M - 1 - Zlen (@nil Z))) subs) = map Some vs).
    { change (Zlen (@nil Z)) with 0. rewrite Z.sub_0_r. rewrite <- HV, firstn_map, map_map. reflexivity. }
    destruct (acc_run subs vs [] u m HS HC ltac:(change (Zlen (@nil Z)) with 0; lia) ltac:(congruence) ltac:(constructor) HV' HOs)
      as (A & B & C & D). cbn [app] in A, B, C.
    destruct (calls M subs (u, m)) as [u1 m1] eqn:EU. cbn [fst snd] in A, C, D. subst m1.
    exists u1. pose proof (Zlen_nonneg vs).
    assert (LP : Zlen (vs ++ [v]) = Zlen vs + 1) by (rewrite Zlen_app; reflexivity).
    assert (X : nt M wrap (0 =? sampleCount u1) (proj u1) (sel last) = zsum (vs ++ [v])).
    { rewrite HL. unfold nt. rewrite A. destruct (0 =? Zlen vs) eqn:E0.
      - destruct vs; [cbn; lia|]. rewrite Zlen_cons in E0. pose proof (Zlen_nonneg vs). lia.
      - rewrite <- (HW (vs ++ [v])) by (auto; lia). f_equal. rewrite zsum_app. cbn. rewrite C; [lia|].
        intros ->. discriminate E0. }
    split; [reflexivity|]. split; [lia|]. split; [rewrite u8_id; unfold byte; lia|]. split; [lia|]. split; [exact X|].
    split; [|eauto]. unfold whole_hour, call. rewrite EU. cbn [cFull cHour cR cN fst snd].
    rewrite HP; [exact X|exact HH|reflexivity].
  Qed.
End Acc.

Lemma proj_amb M full hh r n u m : 0 <= hh < 24 -> negb full && (M - 1 <=? sampleCount u) = false ->
  ambTotal (fst (update_stats M full hh r n u m)) = nt M u16 (0 =? sampleCount u) (ambTotal u) (amb_clip (rAmb r)).
Proof. intros Hh HE. rewrite update_closed. replace (23 <? hh) with false by lia. rewrite HE. reflexivity. Qed.
Lemma proj_temp M full hh r n u m : 0 <= hh < 24 -> negb full && (M - 1 <=? sampleCount u) = false ->
  tempTotal (fst (update_stats M full hh r n u m)) = nt M i16 (0 =? sampleCount u) (tempTotal u) (rTemp r).
Proof. intros Hh HE. rewrite update_closed. replace (23 <? hh) with false by lia. rewrite HE. reflexivity. Qed.
Lemma proj_occ M full hh r n u m : 0 <= hh < 24 -> negb full && (M - 1 <=? sampleCount u) = false ->
  occTotal (fst (update_stats M full hh r n u m)) = nt M (pcAcc M) (0 =? sampleCount u) (occTotal u) (rOcc r).
Proof. intros Hh HE. rewrite update_closed. replace (23 <? hh) with false by lia. rewrite HE. reflexivity. Qed.
Lemma proj_rh M full hh r n u m : 0 <= hh < 24 -> negb full && (M - 1 <=? sampleCount u) = false ->
  rhTotal (fst (update_stats M full hh r n u m)) = nt M (pcAcc M) (0 =? sampleCount u) (rhTotal u) (rRh r).
Proof. intros Hh HE. rewrite update_closed. replace (23 <? hh) with false by lia. rewrite HE. reflexivity. Qed.

(** divide_to_u8 computes the rounded mean. *)
Lemma divide_mean l M hi : 1 <= Zlen l <= M -> M <= 255 -> Forall (fun v => 0 <= v <= hi) l -> hi <= 255 ->
  divide_to_u8 (zsum l) (Zlen l) M = rounded_mean l /\ 0 <= rounded_mean l <= hi.
Proof.
  intros HL HM HF Hhi. pose proof (zsum_bound l hi HF) as HB. unfold rounded_mean, divide_to_u8.
  set (n := Zlen l) in *. set (t := zsum l) in *. clearbody n t. clear HF.
  assert (Q : 0 <= (2 * t + n) / (2 * n) <= hi).
  { split; [apply Z.div_pos; lia|]. assert ((2 * t + n) / (2 * n) < hi + 1); [|lia].
    apply Z.div_lt_upper_bound; [lia|]. nia. }
  split; [|exact Q].
  destruct ((1 =? M) || (1 =? n)) eqn:E1.
  - assert (n = 1) by lia. subst n. rewrite u8_id by (unfold byte; lia).
    clear - HB. replace (2 * 1) with 2 by lia. Z.div_mod_to_equations. lia.
  - destruct ((2 <? M) && (2 <? n)) eqn:E2.
    + rewrite Z.shiftr_div_pow2 by lia. change (2 ^ 1) with 2.
      assert (EQ : (t + n / 2) / n = (2 * t + n) / (2 * n)).
      { assert (N0 : 0 < n) by lia. clear - N0 HB.
        pose proof (Z.div_mod (2 * t + n) (2 * n) ltac:(lia)) as D. pose proof (Z.mod_pos_bound (2 * t + n) (2 * n) ltac:(lia)) as R.
        set (q := (2 * t + n) / (2 * n)) in *. set (r := (2 * t + n) mod (2 * n)) in *. clearbody q r.
        pose proof (Z.div_mod n 2 ltac:(lia)) as D2. pose proof (Z.mod_pos_bound n 2 ltac:(lia)) as R2.
        set (a := n / 2) in *. set (b := n mod 2) in *. clearbody a b.
        symmetry. apply (Z.div_unique_pos _ _ q (t + a - n * q)); [|lia].
        replace (2 * n * q) with (2 * (n * q)) in D by ring. set (z := n * q) in *. clearbody z. lia. }
      rewrite EQ. apply u8_id. unfold byte. lia.
    + assert (n = 2) by lia. subst n. rewrite Z.shiftr_div_pow2 by lia. change (2 ^ 1) with 2.
      assert (EQ : (t + 1) / 2 = (2 * t + 2) / (2 * 2)).
      { clear. replace (2 * t + 2) with ((t + 1) * 2) by ring. rewrite Z.div_mul_cancel_r by lia. reflexivity. }
      rewrite EQ. apply u8_id. unfold byte. lia.
Qed.

(** What a slot pair (raw, smoothed) of hour hh holds after a whole hour whose
    rounded mean is [mean]. *)
Definition slot_updated (rnd set hh mean : Z) (m m' : Store) : Prop :=
  sget m' set hh = mean /\ sget m' (set + 1) hh = folded rnd (sget m (set + 1) hh) mean.

Definition amb_vals (l : list Z) : list Z := map (fun v => Z.min v 254) l.

Ltac hour_store := 
  unfold whole_hour, call; cbn [cFull cHour cR cN fst snd].

Theorem hour_mean_ambient : forall M subs hh last n vals u m,
  1 <= M <= 255 -> Forall is_sub subs -> 0 <= hh < 24 -> sampleCount u = 0 ->
  map rAmb (accepted M (map cR subs) last) = map Some vals -> Forall byte vals ->
  slot_updated (nAmb n) 2 hh (rounded_mean (amb_vals vals)) m (snd (whole_hour M subs hh last n (u, m))).
Proof.
  intros M subs hh last n vals u m HM HS HH HC HV HB.
  assert (HB' : Forall (fun v => 0 <= v <= 254) (amb_vals vals)).
  { unfold amb_vals. apply Forall_map. eapply Forall_impl; [|exact HB]. unfold byte. cbn. intros; lia. }
  assert (HV' : map (fun r => amb_clip (rAmb r)) (accepted M (map cR subs) last) = map Some (amb_vals vals)).
  { rewrite <- map_map, HV, map_map. unfold amb_vals. rewrite map_map. reflexivity. }
  assert (HW : forall vs, Forall (fun v => 0 <= v <= 254) vs -> Zlen vs <= M -> u16 (zsum vs) = zsum vs).
  { intros vs Hvs Hl. pose proof (zsum_bound _ _ Hvs). unfold u16. apply Z.mod_small. pose proof (Zlen_nonneg vs). lia. }
  destruct (acc_hour M (fun r => amb_clip (rAmb r)) ambTotal u16 _ HM ltac:(intros; apply proj_amb; auto) HW
     subs hh last n _ u m HS HH HC HV' HB') as (u1 & EU & CB & CN & LN & X & Y & (v & Hv)).
  hour_store. rewrite EU. cbn [fst snd]. rewrite update_closed. replace (23 <? hh) with false by lia.
  cbn [negb andb]. cbv zeta. cbn [snd]. rewrite X, CN.
  destruct (divide_mean _ M 254 LN ltac:(lia) HB' ltac:(lia)) as [E _]. rewrite E.
  unfold slot_updated. rewrite !sget_pair_if by lia.
  destruct (rAmb last) as [va|] eqn:EA; [|discriminate Hv].
  change (2 + 1) with 3. cbn [Z.eqb andb Z.add Pos.eqb Pos.add Pos.succ]. rewrite Z.eqb_refl. cbn [andb].
  destruct (rRh last), (rOcc last), (rTemp last); split; reflexivity.
Qed.

Definition tot_pc (M : Z) := forall vs, Forall (fun v => 0 <= v <= 100) vs -> Zlen vs <= M -> pcAcc M (zsum vs) = zsum vs.
Lemma pc_ok M : 1 <= M <= 255 -> tot_pc M.
Proof.
  intros HM vs Hvs Hl. pose proof (zsum_bound _ _ Hvs). pose proof (Zlen_nonneg vs). unfold pcAcc.
  destruct (M <=? 2) eqn:E; [apply u8_id; unfold byte; lia|]. unfold u16. apply Z.mod_small. lia.
Qed.

Theorem hour_mean_occupancy : forall M subs hh last n vals u m,
  1 <= M <= 255 -> Forall is_sub subs -> 0 <= hh < 24 -> sampleCount u = 0 ->
  map rOcc (accepted M (map cR subs) last) = map Some vals -> Forall (fun v => 0 <= v <= 100) vals ->
  slot_updated (nOcc n) 4 hh (rounded_mean vals) m (snd (whole_hour M subs hh last n (u, m))).
Proof.
  intros M subs hh last n vals u m HM HS HH HC HV HB.
  destruct (acc_hour M rOcc occTotal (pcAcc M) _ HM ltac:(intros; apply proj_occ; auto) (pc_ok M HM)
     subs hh last n _ u m HS HH HC HV HB) as (u1 & EU & CB & CN & LN & X & Y & (v & Hv)).
  hour_store. rewrite EU. cbn [fst snd]. rewrite update_closed. replace (23 <? hh) with false by lia.
  cbn [negb andb]. cbv zeta. cbn [snd]. rewrite X, CN.
  destruct (divide_mean _ M 100 LN ltac:(lia) HB ltac:(lia)) as [E _]. rewrite E.
  unfold slot_updated. rewrite !sget_pair_if by lia. rewrite Hv.
  cbn [Z.eqb andb Z.add Pos.eqb Pos.add Pos.succ]. rewrite Z.eqb_refl. cbn [andb].
  destruct (rRh last), (rAmb last), (rTemp last); split; reflexivity.
Qed.
Theorem hour_mean_humidity : forall M subs hh last n vals u m,
  1 <= M <= 255 -> Forall is_sub subs -> 0 <= hh < 24 -> sampleCount u = 0 ->
  map rRh (accepted M (map cR subs) last) = map Some vals -> Forall (fun v => 0 <= v <= 100) vals ->
  slot_updated (nRh n) 6 hh (rounded_mean vals) m (snd (whole_hour M subs hh last n (u, m))).
Proof.
  intros M subs hh last n vals u m HM HS HH HC HV HB.
  destruct (acc_hour M rRh rhTotal (pcAcc M) _ HM ltac:(intros; apply proj_rh; auto) (pc_ok M HM)
     subs hh last n _ u m HS HH HC HV HB) as (u1 & EU & CB & CN & LN & X & Y & (v & Hv)).
  hour_store. rewrite EU. cbn [fst snd]. rewrite update_closed. replace (23 <? hh) with false by lia.
  cbn [negb andb]. cbv zeta. cbn [snd]. rewrite X, CN.
  destruct (divide_mean _ M 100 LN ltac:(lia) HB ltac:(lia)) as [E _]. rewrite E.
  unfold slot_updated. rewrite !sget_pair_if by lia. rewrite Hv.
  cbn [Z.eqb andb Z.add Pos.eqb Pos.add Pos.succ]. rewrite Z.eqb_refl. cbn [andb].
  destruct (rOcc last), (rAmb last), (rTemp last); split; reflexivity.
Qed.

(** Temperature: the mean, then compressed. *)
Lemma zsum_bound2 l lo hi : Forall (fun v => lo <= v <= hi) l -> lo * Zlen l <= zsum l <= hi * Zlen l.
Proof.
  induction 1; [change (Zlen (@nil Z)) with 0; cbn; lia|]. rewrite Zlen_cons. cbn [zsum fold_right]. fold (zsum l). lia.
Qed.
Lemma i16_id z : -32768 <= z < 32768 -> i16 z = z.
Proof. intros H. unfold i16. destruct (u16 z <? 32768) eqn:E; unfold u16 in *; Z.div_mod_to_equations; lia. Qed.
Lemma compress_neg t : t <= 0 -> compressTempC16 t = 0.
Proof. intros. unfold compressTempC16. replace (t <=? 0) with true by lia. reflexivity. Qed.

Lemma temp_mean_ok l M b : 1 <= Zlen l <= M -> M <= 255 -> 0 <= b -> b * M <= 32000 ->
  Forall (fun v => - b <= v <= b) l ->
  compressTempC16 (temp_mean M (Zlen l) (zsum l)) = compressTempC16 (rounded_mean l).
Proof.
  intros HL HM Hb HbM HF. pose proof (zsum_bound2 l (- b) b HF) as HB.
  unfold rounded_mean, temp_mean. set (n := Zlen l) in *. set (t := zsum l) in *. clearbody n t. clear HF l.
  assert (HT : -32000 <= t <= 32000) by nia. clear HB Hb HbM.
  assert (E1 : (2 * t + 1) / (2 * 1) = t) by (clear; replace (2 * 1) with 2 by lia; Z.div_mod_to_equations; lia).
  assert (E2 : i16 (Z.shiftr (t + 1) 1) = (2 * t + 2) / (2 * 2)).
  { rewrite Z.shiftr_div_pow2 by lia. change (2 ^ 1) with 2.
    replace ((2 * t + 2) / (2 * 2)) with ((t + 1) / 2).
    - apply i16_id. clear - HT. Z.div_mod_to_equations. lia.
    - replace (2 * t + 2) with ((t + 1) * 2) by ring. rewrite Z.div_mul_cancel_r by lia. reflexivity. }
  destruct (M <=? 2) eqn:EM.
  - destruct (1 =? n) eqn:E; [assert (n = 1) as -> by lia; rewrite E1; reflexivity|].
    assert (n = 2) as -> by lia. rewrite E2. reflexivity.
  - destruct (1 =? n) eqn:E; [assert (n = 1) as -> by lia; rewrite E1; reflexivity|].
    destruct (2 =? n) eqn:E'; [assert (n = 2) as -> by lia; rewrite E2; reflexivity|].
    rewrite Z.shiftr_div_pow2 by lia. change (2 ^ 1) with 2.
    assert (N3 : 3 <= n <= 255) by lia. clear - N3 HT.
    pose proof (Z.div_mod n 2 ltac:(lia)) as D2. pose proof (Z.mod_pos_bound n 2 ltac:(lia)) as R2.
    set (a := n / 2) in *. set (p := n mod 2) in *. clearbody a p.
    pose proof (Z.div_mod (2 * t + n) (2 * n) ltac:(lia)) as D. pose proof (Z.mod_pos_bound (2 * t + n) (2 * n) ltac:(lia)) as R.
    set (q := (2 * t + n) / (2 * n)) in *. set (r := (2 * t + n) mod (2 * n)) in *. clearbody q r.
    destruct (Z_le_gt_dec 0 (t + a)).
    + rewrite Z.quot_div_nonneg by lia.
      assert (EQ : (t + a) / n = q).
      { symmetry. apply (Z.div_unique_pos _ _ q (t + a - n * q)); [|lia].
        replace (2 * n * q) with (2 * (n * q)) in D by ring. set (z := n * q) in *. clearbody z. lia. }
      rewrite EQ. rewrite i16_id; [reflexivity|]. clear EQ. 
      assert (0 <= q <= t + a); [|lia]. replace (2 * n * q) with (2 * (n * q)) in D by ring.
      assert (0 <= q). { assert (- n < n * q) by lia. nia. }
      split; [auto|]. assert (n * q <= t + a) by lia. nia.
    + assert (QB : -32000 <= Z.quot (t + a) n <= 0).
      { pose proof (Z.quot_opp_l (-(t + a)) n ltac:(lia)) as QO. rewrite Z.opp_involutive in QO. rewrite QO.
        rewrite Z.quot_div_nonneg by lia. assert (0 <= (-(t + a)) / n) by (apply Z.div_pos; lia).
        assert ((-(t + a)) / n <= -(t + a)) by (apply Z.div_le_upper_bound; nia). lia. }
      rewrite i16_id by lia. rewrite compress_neg by lia. rewrite compress_neg; [reflexivity|].
      replace (2 * n * q) with (2 * (n * q)) in D by ring. nia.
Qed.

Theorem hour_mean_temperature : forall M subs hh last n vals u m b,
  1 <= M <= 255 -> Forall is_sub subs -> 0 <= hh < 24 -> sampleCount u = 0 ->
  map rTemp (accepted M (map cR subs) last) = map Some vals ->
  0 <= b -> b * M <= 32000 -> Forall (fun v => - b <= v <= b) vals ->
  slot_updated (nTemp n) 0 hh (compressTempC16 (rounded_mean vals)) m (snd (whole_hour M subs hh last n (u, m))).
Proof.
  intros M subs hh last n vals u m b HM HS HH HC HV Hb HbM HB.
  assert (HW : forall vs, Forall (fun v => - b <= v <= b) vs -> Zlen vs <= M -> i16 (zsum vs) = zsum vs).
  { intros vs Hvs Hl. pose proof (zsum_bound2 _ _ _ Hvs). pose proof (Zlen_nonneg vs). apply i16_id. nia. }
  destruct (acc_hour M rTemp tempTotal i16 _ HM ltac:(intros; apply proj_temp; auto) HW
     subs hh last n _ u m HS HH HC HV HB) as (u1 & EU & CB & CN & LN & X & Y & (v & Hv)).
  hour_store. rewrite EU. cbn [fst snd]. rewrite update_closed. replace (23 <? hh) with false by lia.
  cbn [negb andb]. cbv zeta. cbn [snd]. rewrite X, CN.
  rewrite (temp_mean_ok _ M b LN ltac:(lia) Hb HbM HB).
  unfold slot_updated. rewrite !sget_pair_if by lia. rewrite Hv.
  cbn [Z.eqb andb Z.add Pos.eqb Pos.add Pos.succ]. rewrite Z.eqb_refl. cbn [andb].
  destruct (rRh last), (rAmb last), (rOcc last); split; reflexivity.
Qed.

(** After any whole hour the sub-sample count is back to zero. *)
Theorem whole_hour_resets : forall M subs hh last n s, 0 <= hh < 24 ->
  sampleCount (fst (whole_hour M subs hh last n s)) = 0.
Proof.
  intros M subs hh last n s HH. hour_store. rewrite update_closed. replace (23 <? hh) with false by lia. reflexivity.
Qed.

(** Two sub-samples and a third, ignored; then the full one: M = 3. *)
Definition ex_sub (a t o h : Z) : Call := mkC false 7 (mkR (Some a) (Some t) (Some o) (Some h)) (mkRn 0 0 0 0).
Example whole_hour_ex :
  let subs := [ex_sub 10 300 100 50; ex_sub 20 310 0 51; ex_sub 200 900 100 99] in
  let last := mkR (Some 255) (Some 321) (Some 0) (Some 51) in
  let m0 : Store := fun _ _ => 255 in
  let m' := snd (whole_hour 3 subs 9 last (mkRn 0 0 0 0) (u_init, m0)) in
  Forall is_sub subs /\ 
  map rAmb (accepted 3 (map cR subs) last) = map Some [10; 20; 255] /\
  sget m' 2 9 = 95 /\ sget m' 3 9 = 95 /\ sget m' 0 9 = 59 /\ sget m' 4 9 = 33 /\ sget m' 6 9 = 51 /\
  sget m' 2 7 = 255.
Proof.
  cbv zeta. split; [|vm_compute; auto 10].
  repeat constructor; cbn; lia.
Qed.

(** ** Whole histories: values stored stay in range *)
Definition stat_max (set : Z) : Z := if set <? 2 then 248 else if set <? 4 then 254 else 100.
Definition good (m : Store) : Prop := forall set h, 0 <= set < 8 -> 0 <= h < 24 ->
  sget m set h = 255 \/ 0 <= sget m set h <= stat_max set.
Definition avail {A} (o : option A) : bool := match o with Some _ => true | None => false end.
(** Each sensor is either always available or never, and readings are in the
    ranges the sensors promise. *)
Definition steady (a t o h : bool) (r : Readings) : Prop :=
  avail (rAmb r) = a /\ avail (rTemp r) = t /\ avail (rOcc r) = o /\ avail (rRh r) = h /\
  (forall v, rAmb r = Some v -> byte v) /\ (forall v, rOcc r = Some v -> 0 <= v <= 100) /\
  (forall v, rRh r = Some v -> 0 <= v <= 100).

Definition uinv (M : Z) (a o h : bool) (u : UState) : Prop :=
  0 <= sampleCount u <= M - 1 /\
  (1 <= sampleCount u ->
    (a = true -> 0 <= ambTotal u <= 254 * sampleCount u) /\
    (o = true -> 0 <= occTotal u <= 100 * sampleCount u) /\
    (h = true -> 0 <= rhTotal u <= 100 * sampleCount u)).

Lemma divide_range t n M hi : 1 <= n <= M -> M <= 255 -> 0 <= t <= hi * n -> hi <= 255 ->
  0 <= divide_to_u8 t n M <= hi.
Proof.
  intros HL HM HB Hhi. unfold divide_to_u8.
  destruct ((1 =? M) || (1 =? n)) eqn:E1.
  - assert (n = 1) by lia. subst n. rewrite u8_id by (unfold byte; lia). lia.
  - assert (Q : forall c, 0 <= c < n -> 0 <= (t + c) / n <= hi).
    { intros c Hc. split; [apply Z.div_pos; lia|]. assert ((t + c) / n < hi + 1); [|lia].
      apply Z.div_lt_upper_bound; [lia|]. nia. }
    destruct ((2 <? M) && (2 <? n)) eqn:E2.
    + rewrite Z.shiftr_div_pow2 by lia. change (2 ^ 1) with 2.
      assert (0 <= n / 2 < n) by (split; [apply Z.div_pos; lia|apply Z.div_lt; lia]).
      specialize (Q _ H). rewrite u8_id by (unfold byte; lia). lia.
    + assert (n = 2) by lia. subst n. rewrite Z.shiftr_div_pow2 by lia. change (2 ^ 1) with 2.
      specialize (Q 1 ltac:(lia)). rewrite u8_id by (unfold byte; lia). lia.
Qed.
Lemma good_pair r rnd set hh v m : good m -> 0 <= hh < 24 -> set = 0 \/ set = 2 \/ set = 4 \/ set = 6 ->
  (r <> None -> 0 <= v <= stat_max set) -> good (pair_if r rnd set hh v m).
Proof.
  intros HG HH HS HV. destruct r as [x|]; [|exact HG]. specialize (HV ltac:(discriminate)).
  intros s h Hs Hh. rewrite sget_pair_if by lia.
  destruct ((s =? set) && (h =? hh)) eqn:E1; [right; assert (s = set) as -> by lia; exact HV|].
  destruct ((s =? set + 1) && (h =? hh)) eqn:E2; [|apply HG; lia].
  assert (s = set + 1) as -> by lia.
  assert (EM : stat_max (set + 1) = stat_max set) by (destruct HS as [-> | [-> | [-> | ->]]]; reflexivity).
  rewrite EM. unfold folded. destruct (sget m (set + 1) hh =? 255) eqn:E; [right; exact HV|].
  right. destruct (HG (set + 1) hh ltac:(lia) HH) as [X|X]; [lia|]. rewrite EM in X.
  assert (stat_max set <= 254) by (unfold stat_max; destruct (set <? 2), (set <? 4); lia).
  pose proof (smooth_between rnd (sget m (set + 1) hh) v) as SB. unfold byte in SB. lia.
Qed.

Lemma steady_call M a t o h c s : 1 <= M <= 255 -> steady a t o h (cR c) -> 0 <= cHour c ->
  uinv M a o h (fst s) -> good (snd s) ->
  uinv M a o h (fst (call M c s)) /\ good (snd (call M c s)).
Proof.
  intros HM HS HH [HC HI] HG. unfold call. rewrite update_closed.
  destruct (23 <? cHour c) eqn:EH; [cbn [fst snd]; split; [|exact HG]; split; cbn; lia|].
  destruct (negb (cFull c) && (M - 1 <=? sampleCount (fst s))) eqn:EF; [cbn [fst snd]; split; [split|]; auto|].
  cbv zeta. cbn [fst snd]. set (u := fst s) in *. set (m := snd s) in *. clearbody u m. clear s.
  destruct HS as (SA & ST & SO & SH & VA & VO & VH).
  rewrite !(u8_id (sampleCount u + 1)) by (unfold byte; lia).
  set (k := sampleCount u) in *.
  assert (A : a = true -> 0 <= nt M u16 (0 =? k) (ambTotal u) (amb_clip (rAmb (cR c))) <= 254 * (k + 1)).
  { intros Ha. destruct (rAmb (cR c)) as [v|]; [|cbn in SA; congruence]. specialize (VA v eq_refl). unfold byte in VA.
    cbn [amb_clip option_map nt]. destruct (0 =? k) eqn:E0; [lia|]. destruct (HI ltac:(lia)) as (I1 & _). specialize (I1 Ha).
    unfold u16. rewrite Z.mod_small by lia. lia. }
  assert (PC : forall z, 0 <= z <= 100 * (k + 1) -> pcAcc M z = z).
  { intros z Hz. unfold pcAcc. destruct (M <=? 2) eqn:E; [apply u8_id; unfold byte; lia|]. unfold u16. apply Z.mod_small. lia. }
  assert (O' : o = true -> 0 <= nt M (pcAcc M) (0 =? k) (occTotal u) (rOcc (cR c)) <= 100 * (k + 1)).
  { intros Ha. destruct (rOcc (cR c)) as [v|]; [|cbn in SO; congruence]. specialize (VO v eq_refl).
    cbn [nt]. destruct (0 =? k) eqn:E0; [lia|]. destruct (HI ltac:(lia)) as (_ & I1 & _). specialize (I1 Ha).
    rewrite PC by lia. lia. }
  assert (H' : h = true -> 0 <= nt M (pcAcc M) (0 =? k) (rhTotal u) (rRh (cR c)) <= 100 * (k + 1)).
  { intros Ha. destruct (rRh (cR c)) as [v|]; [|cbn in SH; congruence]. specialize (VH v eq_refl).
    cbn [nt]. destruct (0 =? k) eqn:E0; [lia|]. destruct (HI ltac:(lia)) as (_ & _ & I1). specialize (I1 Ha).
    rewrite PC by lia. lia. }
  split.
  - unfold uinv. cbn [sampleCount ambTotal occTotal rhTotal]. destruct (cFull c); [split; intros; lia|].
    cbn [negb andb] in EF. split; [lia|]. intros _. auto.
  - destruct (cFull c); [|exact HG].
    assert (L : 1 <= k + 1 <= M) by lia.
    assert (D : forall z hi, 0 <= z <= hi * (k + 1) -> hi <= 255 -> 0 <= divide_to_u8 z (k + 1) M <= hi).
    { intros z hi Hz Hhi. apply divide_range; lia. }
    repeat (apply good_pair; [|lia|lia|]); [exact HG| | | |]; intros HN.
    + apply (D _ 254); [apply A|lia]. destruct (rAmb (cR c)); cbn in SA; congruence.
    + apply compress_range.
    + apply (D _ 100); [apply O'|lia]. destruct (rOcc (cR c)); cbn in SO; congruence.
    + apply (D _ 100); [apply H'|lia]. destruct (rRh (cR c)); cbn in SH; congruence.
Qed.

(** Over any history of calls with steady sensors, from a fresh updater on a
    store holding only in-range values and unset marks, it always does. *)
Theorem stats_always_in_range_partial : forall M a t o h cs m, 1 <= M <= 255 ->
  Forall (fun c => steady a t o h (cR c) /\ 0 <= cHour c) cs -> good m ->
  good (snd (calls M cs (u_init, m))).
Proof.
  intros M a t o h cs m HM HS HG.
  assert (G : forall cs s, Forall (fun c => steady a t o h (cR c) /\ 0 <= cHour c) cs ->
    uinv M a o h (fst s) -> good (snd s) -> good (snd (calls M cs s))).
  { clear cs m HS HG. induction cs as [|c cs IH]; intros s HS HU HG; [exact HG|].
    inversion HS as [|? ? [S1 S2] HS']; subst. change (calls M (c :: cs) s) with (calls M cs (call M c s)).
    destruct (steady_call M a t o h c s HM S1 S2 HU HG) as [A B]. apply IH; auto. }
  apply G; auto. split; cbn; lia.
Qed.
Example in_range_ex : good (fun _ _ => 255) /\
  steady true true true true (cR (ex_sub 255 30000 100 0)).
Proof.
  split.
  - intros set h Hs Hh. left. unfold sget. destruct (_ || _); reflexivity.
  - unfold steady, ex_sub, byte; cbn. repeat apply conj; try reflexivity; intros v E; apply some_inj in E; lia.
Qed.

(** When a sensor becomes available between two sub-samples of an hour, the last
    hour's total is counted again: a relative humidity above 100% is stored
    although the sensor only ever reported 50% to 100%. *)
Theorem stats_in_range_refuted : exists cs,
  Forall (fun c => 0 <= cHour c < 24 /\ (forall v, rRh (cR c) = Some v -> 50 <= v <= 100)) cs /\
  sget (snd (calls 2 cs (u_init, fun _ _ => 255))) 6 1 = 115 /\
  ~ good (snd (calls 2 cs (u_init, fun _ _ => 255))).
Proof.
  pose (r := fun o => mkR None None None o). pose (n := mkRn 0 0 0 0).
  exists [mkC false 0 (r (Some 90)) n; mkC true 0 (r (Some 90)) n; mkC false 1 (r None) n; mkC true 1 (r (Some 50)) n].
  split; [|split].
  - repeat (apply Forall_cons; [split; [cbn; lia|cbn; intros v E; (discriminate E || (apply some_inj in E; lia))]|]). constructor.
  - vm_compute. reflexivity.
  - intros HG. specialize (HG 6 1 ltac:(lia) ltac:(lia)). vm_compute in HG. destruct HG as [HG|[_ HG]]; [discriminate HG|].
    apply HG. reflexivity.
Qed.
(** It can even store the 'unset' mark for a reading. *)
Theorem stats_never_unset_refuted : exists cs,
  Forall (fun c => 0 <= cHour c < 24 /\ (forall v, rAmb (cR c) = Some v -> byte v)) cs /\
  cs <> [] /\ (exists v, rAmb (cR (last cs (ex_sub 0 0 0 0))) = Some v) /\
  cFull (last cs (ex_sub 0 0 0 0)) = true /\
  sget (snd (calls 2 cs (u_init, fun _ _ => 0))) 2 1 = 255.
Proof.
  pose (r := fun o => mkR o None None None). pose (n := mkRn 0 0 0 0).
  exists [mkC false 0 (r (Some 254)) n; mkC true 0 (r (Some 254)) n; mkC false 1 (r None) n; mkC true 1 (r (Some 2)) n].
  split; [|split; [|split; [|split]]].
  - repeat (apply Forall_cons; [split; [cbn; lia|cbn; intros v E; (discriminate E || (apply some_inj in E; unfold byte; lia))]|]). constructor.
  - discriminate.
  - eexists. reflexivity.
  - reflexivity.
  - vm_compute. reflexivity.
Qed.
