(** The physical user interface: clicks per degree, power-up, and the cycling MODE button (C101-C103). *)
From Verif Require Import Base OccModel ScheduleModel TempModel UiModel UiProps UiPress UiFlash.

(** Successive reads with no button press during them. *)
Fixpoint qreads (c : Cfg) (s : UI) (l : list Inp) : UI * list (list uiact * bool) :=
  match l with [] => (s, []) | i :: r => let '((s1, t), b) := ui_read c quiet i s in let (s2, o) := qreads c s1 r in (s2, (t, b) :: o) end.

Definition nominalAt (c : Cfg) (lo hi v : Z) : Z := if v <? lo then u8 (c_minW c - 1) else if v >? hi then u8 (c_maxW c + 1) else c_warm c v.
Lemma nominal_at : forall c lo hi s, c_pot c = Some (lo, hi) -> nominal c s = nominalAt c lo hi (pot_value (u_pot s)).
Proof. intros c lo hi s H. unfold nominal, nominalAt, atLo, atHi. rewrite H. reflexivity. Qed.
Lemma same_last_calls : forall c l s, u_last (fst (pot_calls c l s)) = u_last s.
Proof.
  intros c l. assert (P : preorder (fun a b : UI => u_last b = u_last a)) by (split; [reflexivity|intros; congruence]).
  induction l as [|k r IH]; intro s; cbn [pot_calls]; [reflexivity|]. apply (wb_rel _ P); [|exact IH].
  destruct k; cbn [pot_call]; try (destruct (c_wired c); [|reflexivity]); try reflexivity; unfold warmFromUI, bakeFromUI;
    (apply (wb_rel _ P); [destruct (negb _); reflexivity|reflexivity]).
Qed.
(** One tracking step towards [n]. *)
Definition toward (l n : Z) : Z := if (if l <? n then n - l else l - n) >? 10 then n else if l <? n then l + 1 else l - 1.
Lemma track_move : forall c s, byte (nominal c s) -> byte (u_last s) -> u_last s <> 0 -> nominal c s <> u_last s ->
  u_sig (track c s) = true /\ u_last (track c s) = toward (u_last s) (nominal c s).
Proof.
  intros c s Hn Hl H0 HN. unfold track, toward. replace (nominal c s =? u_last s) with false by (symmetry; apply Z.eqb_neq; exact HN). cbv zeta.
  replace (0 =? u_last s) with false by (symmetry; apply Z.eqb_neq; lia). cbn [negb]. red in Hn, Hl.
  destruct (_ >? 10); [split; reflexivity|]. destruct (Z.ltb_spec (u_last s) (nominal c s)); cbn [u_sig u_last set_last set_sig]; (split; [reflexivity|]); apply u8_id; red; lia.
Qed.
Lemma track_stay : forall c s, nominal c s = u_last s -> track c s = s.
Proof. intros c s H. unfold track. rewrite H, Z.eqb_refl. reflexivity. Qed.
Lemma sampled_pot : forall c i lo hi s, u_pot (sampled c i lo hi s) = fst (pot_read lo hi (u_pot s) (i_raw i)).
Proof. intros. unfold sampled. apply pot_sample. Qed.
(** A sample when the shown target is away from the dial's: one step and feedback due. *)
Lemma sampled_move : forall c i lo hi s, c_pot c = Some (lo, hi) -> byte (u_last s) -> u_last s <> 0 ->
  let n := nominalAt c lo hi (pot_value (fst (pot_read lo hi (u_pot s) (i_raw i)))) in byte n -> n <> u_last s ->
  u_sig (sampled c i lo hi s) = true /\ u_last (sampled c i lo hi s) = toward (u_last s) n.
Proof.
  intros c i lo hi s HP HL H0 n Hn HN. rewrite sampled_eq. unfold n in *. clear n. destruct (pot_read lo hi (u_pot s) (i_raw i)) as [p calls]. cbn [fst] in *. cbv zeta.
  pose proof (same_last_calls c calls (set_pot s p)) as EL. pose proof (pot_pot c calls (set_pot s p)) as EP. unfold samePot in EP. set (a := fst _) in *.
  set (b := if atLo c a then _ else a). assert (EB : u_last b = u_last s /\ u_pot b = p) by (unfold b; destruct (atLo c a); split; assumption). destruct EB as [EB1 EB2].
  assert (NB : nominal c b = nominalAt c lo hi (pot_value p)) by (rewrite (nominal_at c lo hi) by exact HP; rewrite EB2; reflexivity).
  destruct (track_move c b) as [T1 T2]; rewrite ?NB, ?EB1 in *; auto.
Qed.
(** A sample of a dial that has not moved, with the shown target right: nothing. *)
Lemma pot_still : forall lo hi r v, 0 <= r <= 1023 -> pot_read lo hi (mkPot r v) r = (mkPot r v, []).
Proof. intros. unfold pot_read. cbv zeta. cbn [pot_raw pot_value]. rewrite Z.sub_diag. change (u16 0 >=? 4) with false. rewrite !Bool.andb_false_r. reflexivity. Qed.
Lemma sampled_stay : forall c i lo hi s, c_pot c = Some (lo, hi) -> snd (pot_read lo hi (u_pot s) (i_raw i)) = [] ->
  nominalAt c lo hi (pot_value (fst (pot_read lo hi (u_pot s) (i_raw i)))) = u_last s ->
  u_sig (sampled c i lo hi s) = u_sig s /\ u_last (sampled c i lo hi s) = u_last s.
Proof.
  intros c i lo hi s HP HC HN. rewrite sampled_eq. destruct (pot_read lo hi (u_pot s) (i_raw i)) as [p calls]. cbn [fst snd] in *. subst calls. cbv zeta. cbn [pot_calls fst].
  set (b := if atLo c _ then _ else _). assert (EB : u_last b = u_last s /\ u_pot b = p /\ u_sig b = u_sig s) by (unfold b; destruct (atLo c _); repeat split). destruct EB as (A & B & D).
  rewrite track_stay; [split; assumption|]. rewrite (nominal_at c lo hi) by exact HP. rewrite A, B. exact HN.
Qed.
Lemma tick1_same : forall s, u_pot (tick1 s) = u_pot s /\ u_last (tick1 s) = u_last s /\ u_sig (tick1 s) = u_sig s /\ u_was (tick1 s) = u_was s /\
  u_mode (tick1 s) = u_mode s /\ u_occ (tick1 s) = u_occ s /\ u_chg (tick1 s) = u_chg s.
Proof. intro s. unfold tick1. cbv zeta. destruct (_ =? 0); [destruct (0 =? _)|]; repeat split. Qed.
Lemma tick1_tmo : forall s, u_tmo s = 31 -> veryRecent (tick1 s) = true.
Proof. intros s H. unfold veryRecent, tick1. cbv zeta. destruct (_ =? 0); cbn [u_tmo set_tick]; rewrite H; reflexivity. Qed.
Lemma read_tick : forall c i s, u_tick (fst (fst (ui_read c quiet i s))) = u8 (u_tick s + 1).
Proof.
  intros. rewrite ui_read_body. cbv zeta. cbn [fst presses quiet u_tick set_chg]. unfold body. rewrite wb_fst. cbv zeta.
  destruct (touch_tail c quiet i (veryRecent (fst (stage1 c quiet s))) (Z.land (u_tick (fst (stage1 c quiet s))) 3 =? 0) (fst (stage1 c quiet s))) as [K _].
  etransitivity; [exact K|]. apply stage1_tick.
Qed.
(** Where a read leaves things when it samples and a step is due. *)
Lemma read_click : forall c i s lo hi, c_pot c = Some (lo, hi) -> plain c i s -> i_run i = true -> byte (u_last s) -> u_last s <> 0 ->
  willSample (veryRecent (tick1 s)) (Z.land (u_tick (tick1 s)) 3 =? 0) (tick1 s) = true ->
  let n := nominalAt c lo hi (pot_value (fst (pot_read lo hi (u_pot s) (i_raw i)))) in byte n -> n <> u_last s ->
  let '((s', t), r) := ui_read c quiet i s in
  count isWiggle t = 1 /\ r = true /\ u_pot s' = fst (pot_read lo hi (u_pot s) (i_raw i)) /\ u_last s' = toward (u_last s) n /\ u_sig s' = false /\ u_tmo s' = 31 /\ u_was s' = u_was s.
Proof.
  intros c i s lo hi HP HPl HI HL H0 HS n Hn HN. rewrite (quiet_read c i s HPl). set (s1 := tick1 s) in *. set (e := veryRecent s1) in *. set (f := Z.land _ 3 =? 0) in *.
  destruct (tick1_same s) as (P1 & L1 & S1 & W1 & _). fold s1 in P1, L1, S1, W1.
  pose proof (btn_dial c i e f s1) as BD. unfold sameBtn in BD.
  set (s2 := dial c i e f s1) in *. assert (E2 : s2 = sampled c i lo hi s1) by (unfold s2, dial; rewrite HP, HS; reflexivity).
  destruct (sampled_move c i lo hi s1 HP) as [T1 T2]; rewrite ?L1, ?P1 in *; try assumption. fold n in T2. pose proof (sampled_pot c i lo hi s1) as T3. rewrite P1 in T3.
  rewrite <- E2 in T1, T2, T3. rewrite T1. unfold fed. cbn [fst snd]. rewrite !count_app, nowig_stage2, nowig_flashes, HI.
  split; [reflexivity|]. split; [reflexivity|]. split; [exact T3|]. split; [exact T2|]. split; [reflexivity|]. split; [reflexivity|].
  cbn [u_was set_chg set_sig markUsed set_occ set_tmo]. congruence.
Qed.
(** And when no step is due. *)
Lemma read_still : forall c i s lo hi, c_pot c = Some (lo, hi) -> plain c i s -> u_sig s = false ->
  snd (pot_read lo hi (u_pot s) (i_raw i)) = [] -> nominalAt c lo hi (pot_value (fst (pot_read lo hi (u_pot s) (i_raw i)))) = u_last s ->
  let '((s', t), r) := ui_read c quiet i s in
  count isWiggle t = 0 /\ r = u_chg s /\ (u_pot s' = u_pot s \/ u_pot s' = fst (pot_read lo hi (u_pot s) (i_raw i))) /\ u_last s' = u_last s /\ u_sig s' = false /\ u_was s' = u_was s /\
  u_tmo s' = u_tmo (tick1 s).
Proof.
  intros c i s lo hi HP HPl HSg HC HN. rewrite (quiet_read c i s HPl). set (s1 := tick1 s) in *. set (e := veryRecent s1) in *. set (f := Z.land _ 3 =? 0) in *.
  destruct (tick1_same s) as (P1 & L1 & S1 & W1 & _ & _ & C1). fold s1 in P1, L1, S1, W1, C1.
  pose proof (btn_dial c i e f s1) as BD. unfold sameBtn in BD. pose proof (calm_stage2 c i e f s1) as CS. unfold calm in CS. rewrite stage2_quiet in CS.
  set (s2 := dial c i e f s1) in *.
  assert (E2 : u_sig s2 = false /\ u_last s2 = u_last s /\ (u_pot s2 = u_pot s \/ u_pot s2 = fst (pot_read lo hi (u_pot s) (i_raw i)))).
  { unfold s2, dial. rewrite HP. destruct (willSample e f s1); [|split; [congruence|split; [congruence|left; congruence]]].
    destruct (sampled_stay c i lo hi s1 HP) as [A B]; rewrite ?P1, ?L1 in *; try assumption. pose proof (sampled_pot c i lo hi s1) as T3. rewrite P1 in T3.
    split; [congruence|]. split; [congruence|]. right. exact T3. }
  destruct E2 as (A & B & D). rewrite A. cbn [fst snd]. rewrite !count_app, nowig_stage2, nowig_flashes. destruct (CS A) as (_ & _ & K1 & K2).
  split; [reflexivity|]. split; [congruence|]. split; [exact D|]. split; [exact B|]. split; [exact A|]. split; [cbn [u_was set_chg]; congruence|exact K1].
Qed.

(** Clicks (wiggles) heard in each of a series of reads. *)
Definition clicks (o : list (list uiact * bool)) : list Z := map (fun x : list uiact * bool => count isWiggle (fst x)) o.
(** Specification: one click in each of the first [x] of [k] reads, none in the others. *)
Fixpoint one_each (k x : nat) : list Z :=
  match k with O => [] | S k' => match x with O => 0 :: one_each k' O | S x' => 1 :: one_each k' x' end end.
Definition at_rest (c : Cfg) (r : Z) (i : Inp) : Prop := i_raw i = r /\ i_run i = true /\ (c_cycle c = false \/ i_held i = false).
Lemma clicks_run : forall c lo hi r v n, c_pot c = Some (lo, hi) -> 0 <= r <= 1023 -> nominalAt c lo hi v = n -> byte n ->
  forall l s, Forall (at_rest c r) l -> u_pot s = mkPot r v -> byte (u_last s) -> (u_last s = n \/ (u_last s <> 0 /\ u_tmo s = 31)) -> Z.abs (n - u_last s) <= 10 ->
  u_sig s = false -> (c_cycle c = false \/ u_was s = false) ->
  clicks (snd (qreads c s l)) = one_each (length l) (Z.to_nat (Z.abs (n - u_last s))).
Proof.
  intros c lo hi r v n HP Hr HN Hn. induction l as [|i l IH]; intros s HA HPo HL HM HD HS HW; [reflexivity|].
  inversion HA as [|? ? (A1 & A2 & A3) HA']; subst x l0. cbn [qreads length].
  assert (PL : plain c i s) by (destruct HW as [W|W]; [left; exact W|destruct A3 as [W3|W3]; [left; exact W3|right; split; assumption]]).
  assert (PS : pot_read lo hi (u_pot s) (i_raw i) = (mkPot r v, [])) by (rewrite HPo, A1; apply pot_still; exact Hr).
  destruct (Z.eq_dec (u_last s) n) as [E|E].
  - pose proof (read_still c i s lo hi HP PL HS) as R. rewrite PS in R. cbn [fst snd pot_value] in R. specialize (R eq_refl ltac:(congruence)).
    destruct (ui_read c quiet i s) as [[s' t] b]. destruct R as (R1 & _ & R3 & R4 & R5 & R6 & _).
    destruct (qreads c s' l) as [s2 o] eqn:EQ. cbn [snd clicks map fst]. change (map _ o) with (clicks o).
    assert (IHX := IH s'). rewrite EQ in IHX. cbn [snd] in IHX. rewrite IHX; clear IHX; try assumption.
    + rewrite R4, E, Z.sub_diag. change (Z.to_nat (Z.abs 0)) with 0%nat. cbn [one_each]. rewrite R1. reflexivity.
    + destruct R3 as [R3|R3]; congruence.
    + congruence. + left; congruence. + rewrite R4. exact HD. + destruct HW as [W|W]; [left; exact W|right; congruence].
  - destruct HM as [HM|[HM1 HM2]]; [contradiction|].
    pose proof (read_click c i s lo hi HP PL A2 HL HM1) as R. rewrite PS in R. cbn [fst snd pot_value] in R. rewrite HN in R.
    specialize (R ltac:(unfold willSample; rewrite tick1_tmo by exact HM2; reflexivity) Hn ltac:(congruence)).
    destruct (ui_read c quiet i s) as [[s' t] b]. destruct R as (R1 & _ & R3 & R4 & R5 & R6 & R7).
    destruct (qreads c s' l) as [s2 o] eqn:EQ. cbn [snd clicks map fst]. change (map _ o) with (clicks o).
    assert (TW : toward (u_last s) n = if u_last s <? n then u_last s + 1 else u_last s - 1).
    { unfold toward. assert (X : (if u_last s <? n then n - u_last s else u_last s - n) >? 10 = false).
      { rewrite Z.gtb_ltb. apply Z.ltb_ge. destruct (Z.ltb_spec (u_last s) n); lia. } rewrite X. reflexivity. }
    rewrite TW in R4. red in Hn, HL.
    assert (IHX := IH s'). rewrite EQ in IHX. cbn [snd] in IHX. rewrite IHX; clear IHX; try assumption.
    + rewrite R1. assert (EN : Z.to_nat (Z.abs (n - u_last s)) = S (Z.to_nat (Z.abs (n - u_last s')))).
      { rewrite R4. destruct (Z.ltb_spec (u_last s) n); lia. }
      rewrite EN. cbn [one_each]. reflexivity.
    + rewrite R4. red. destruct (Z.ltb_spec (u_last s) n); lia.
    + destruct (Z.eq_dec (u_last s') n); [left; assumption|right; split; [|exact R6]]. rewrite R4. destruct (Z.ltb_spec (u_last s) n); lia.
    + rewrite R4. destruct (Z.ltb_spec (u_last s) n); lia.
    + destruct HW as [W|W]; [left; exact W|right; congruence].
Qed.

(** C101: turning the dial through x degrees of target gives x clicks, one in each of the next x reads (one click in all if x is over ten). *)
Theorem ui_clicks : forall c lo hi r s l, c_pot c = Some (lo, hi) -> 0 <= r <= 1023 -> byte (u_tick s) ->
  byte (u_last s) -> u_last s <> 0 -> u_sig s = false -> (c_cycle c = false \/ u_was s = false) -> Forall (at_rest c r) l ->
  (inWarmMode (u_mode s) = true /\ longLongVacant (u_occ s) = false \/ (u_tick s + 1) mod 4 = 0) ->
  let n := nominalAt c lo hi (pot_value (fst (pot_read lo hi (u_pot s) r))) in byte n -> n <> u_last s ->
  let x := Z.abs (n - u_last s) in
  clicks (snd (qreads c s l)) = one_each (length l) (if x <=? 10 then Z.to_nat x else 1%nat).
Proof.
  intros c lo hi r s l HP Hr HT HL H0 HS HW HA HSm n Hn HN x. destruct l as [|i l]; [reflexivity|]. inversion HA as [|? ? (A1 & A2 & A3) HA']; subst x0 l0.
  cbn [qreads length].
  assert (PL : plain c i s) by (destruct HW as [W|W]; [left; exact W|destruct A3 as [W3|W3]; [left; exact W3|right; split; assumption]]).
  assert (WS : willSample (veryRecent (tick1 s)) (Z.land (u_tick (tick1 s)) 3 =? 0) (tick1 s) = true).
  { destruct (tick1_same s) as (_ & _ & _ & _ & M1 & O1 & _). unfold willSample. rewrite forth1 by exact HT. rewrite M1, O1. destruct HSm as [[W V]|F].
    - rewrite W, V. rewrite Bool.orb_true_r. reflexivity.
    - rewrite F, Z.eqb_refl, Bool.orb_true_r. reflexivity. }
  pose proof (read_click c i s lo hi HP PL A2 HL H0 WS) as R. rewrite A1 in R. specialize (R Hn HN). fold n in R.
  destruct (ui_read c quiet i s) as [[s' t] b]. destruct R as (R1 & _ & R3 & R4 & R5 & R6 & R7).
  destruct (qreads c s' l) as [s2 o] eqn:EQ. cbn [snd clicks map fst]. change (map _ o) with (clicks o).
  set (v := pot_value (fst (pot_read lo hi (u_pot s) r))) in *.
  assert (EP : u_pot s' = mkPot r v). { rewrite R3. unfold v, pot_read. cbv zeta. destruct (_ || _); reflexivity. }
  assert (B' : byte (u_last s') /\ (u_last s' = n \/ u_last s' <> 0 /\ u_tmo s' = 31) /\ Z.abs (n - u_last s') <= 10 /\
     (if x <=? 10 then Z.to_nat x else 1%nat) = S (Z.to_nat (Z.abs (n - u_last s')))).
  { rewrite R4. unfold toward, x, byte in *. rewrite Z.gtb_ltb. clear - H0 HL Hn HN R6. destruct (Z.ltb_spec (u_last s) n).
    - destruct (Z.ltb_spec 10 (n - u_last s)); destruct (Z.leb_spec (Z.abs (n - u_last s)) 10); (split; [lia|]); (split; [first [left; lia|right; split; [lia|exact R6]|destruct (Z.eq_dec (u_last s - 1) n); [left; lia|right; split; [lia|exact R6]]]|]); split; lia.
    - destruct (Z.ltb_spec 10 (u_last s - n)); destruct (Z.leb_spec (Z.abs (n - u_last s)) 10); (split; [lia|]); (split; [first [left; lia|right; split; [lia|exact R6]|destruct (Z.eq_dec (u_last s - 1) n); [left; lia|right; split; [lia|exact R6]]]|]); split; lia. }
  destruct B' as (B1 & B2 & B3 & B4). rewrite B4. cbn [one_each]. rewrite R1. f_equal.
  pose proof (clicks_run c lo hi r v n HP Hr eq_refl Hn l s' HA' EP B1 B2 B3 R5) as C. rewrite EQ in C. apply C.
  destruct HW as [W|W]; [left; exact W|right; congruence].
Qed.

(** ** From power-up, untouched *)
Definition idle (c : Cfg) (v : Z) (i : Inp) : Prop := 0 <= i_raw i <= 1023 /\ i_raw i / 4 = v /\ (c_cycle c = false \/ i_held i = false).
Lemma pv_raw : forall r, 0 <= r <= 1023 -> u8 (Z.shiftr r 2) = r / 4.
Proof.
  intros r H. rewrite Z.shiftr_div_pow2 by lia. change (2 ^ 2) with 4. apply u8_id. red. pose proof (Z.div_mod r 4 ltac:(lia)). pose proof (Z.mod_pos_bound r 4 ltac:(lia)). lia.
Qed.
Lemma pot_same : forall lo hi p r, 0 <= r <= 1023 -> r / 4 = pot_value p -> pot_read lo hi p r = (mkPot r (pot_value p), []).
Proof. intros lo hi p r H E. unfold pot_read. cbv zeta. rewrite pv_raw, E by exact H. rewrite Z.gtb_ltb, Z.ltb_irrefl. reflexivity. Qed.
Definition rested (c : Cfg) (s : UI) : Prop := u_chg s = false /\ u_tmo s = 0 /\ u_sig s = false /\ (c_cycle c = false \/ u_was s = false) /\ byte (u_tick s).
Lemma tick1_rest : forall c s, rested c s -> tick1 s = set_tick s (u8 (u_tick s + 1)).
Proof. intros c s (_ & H & _). unfold tick1. cbv zeta. cbn [u_tmo set_tick]. rewrite H. destruct (_ =? 0); reflexivity. Qed.
(** A read of a rested unit whose dial step yields [s2] with nothing significant. *)
Lemma read_rest : forall c i s v, idle c v i -> rested c s ->
  let s1 := set_tick s (u8 (u_tick s + 1)) in let s2 := dial c i false ((u_tick s + 1) mod 4 =? 0) s1 in
  u_sig s2 = false -> 
  let '((s', t), r) := ui_read c quiet i s in
  s' = set_chg s2 false /\ r = false /\ count isWiggle t = 0 /\ rested c s'.
Proof.
  intros c i s v (I1 & I2 & I3) HR s1 s2 HS. assert (HR' := HR). destruct HR' as (R1 & R2 & R3 & R4 & R5).
  assert (PL : plain c i s) by (destruct R4 as [W|W]; [left; exact W|destruct I3 as [W3|W3]; [left; exact W3|right; split; assumption]]).
  pose proof (read_tick c i s) as RT. pose proof (quiet_read c i s PL) as QR. cbv zeta in QR. rewrite forth1 in QR by exact R5. rewrite (tick1_rest c s HR) in QR. fold s1 in QR.
  assert (EV : veryRecent s1 = false) by (unfold veryRecent, s1; cbn [u_tmo set_tick]; rewrite R2; reflexivity). rewrite EV in QR. fold s2 in QR. rewrite HS in QR. cbn [fst snd] in QR.
  pose proof (calm_stage2 c i false ((u_tick s + 1) mod 4 =? 0) s1) as CS. unfold calm in CS. rewrite stage2_quiet in CS. fold s2 in CS. destruct (CS HS) as (_ & _ & K1 & K2).
  pose proof (btn_dial c i false ((u_tick s + 1) mod 4 =? 0) s1) as BD. unfold sameBtn in BD. fold s2 in BD.
  rewrite QR in RT |- *. cbn [fst] in RT. split; [reflexivity|]. split; [rewrite K2; exact R1|]. split; [rewrite !count_app, nowig_stage2, nowig_flashes; reflexivity|].
  split; [reflexivity|]. split; [cbn [u_tmo set_chg]; rewrite K1; exact R2|]. split; [exact HS|]. split.
  - destruct R4 as [W|W]; [left; exact W|right]. cbn [u_was set_chg]. rewrite BD. exact W.
  - rewrite RT. apply Z.mod_pos_bound. reflexivity.
Qed.
(** Phases: dial not yet sampled; then WARM with the shown target right. *)
Definition phase (c : Cfg) (lo hi v k : Z) (s : UI) : Prop := rested c s /\
  (if k <? 4 then u_tick s = k /\ u_pot s = Pot0 /\ u_last s = 0 /\ inWarmMode (u_mode s) = false
   else pot_value (u_pot s) = v /\ u_last s = nominalAt c lo hi v /\ inWarmMode (u_mode s) = true) /\ bakeCountdownM (u_mode s) = 0.
Lemma phase_step : forall c lo hi v k i s, c_pot c = Some (lo, hi) -> 0 < v -> lo <= v -> byte (nominalAt c lo hi v) -> 10 < nominalAt c lo hi v -> 0 <= k -> idle c v i ->
  phase c lo hi v k s -> let '((s', t), r) := ui_read c quiet i s in phase c lo hi v (k + 1) s' /\ r = false /\ count isWiggle t = 0.
Proof.
  intros c lo hi v k i s HP Hv Hlo Hn Hn10 Hk HI (HR & HK & HB). assert (HI' := HI). destruct HI' as (I1 & I2 & I3).
  pose proof (read_rest c i s v HI HR) as RR. cbv zeta in RR. set (s1 := set_tick s (u8 (u_tick s + 1))) in *. set (f := (u_tick s + 1) mod 4 =? 0) in *.
  assert (NA : forall x, pot_value (u_pot x) = v -> atLo c x = false) by (intros x E; unfold atLo; rewrite HP, E; apply Z.ltb_ge; lia).
  destruct (Z.ltb_spec k 4) as [K4|K4].
  - destruct HK as (KT & KP & KL & KW). destruct (Z.eq_dec k 3) as [K3|K3].
    + assert (EF : f = true) by (unfold f; rewrite KT, K3; reflexivity).
      assert (ED : dial c i false f s1 = set_last (set_mode (set_pot s1 (mkPot (i_raw i) v)) (setWarmModeDebounced (u_mode s) true)) (nominalAt c lo hi v)).
      { unfold dial. rewrite HP. unfold willSample. rewrite EF. cbn [orb]. rewrite sampled_eq.
        assert (EP : pot_read lo hi (u_pot s1) (i_raw i) = (mkPot (i_raw i) v, [])).
        { change (u_pot s1) with (u_pot s). rewrite KP. unfold pot_read, Pot0. cbv zeta. cbn [pot_raw pot_value]. rewrite pv_raw, I2 by exact I1.
          rewrite Z.gtb_ltb. replace (0 <? v) with true by (symmetry; apply Z.ltb_lt; exact Hv).
          assert (EU : u16 (i_raw i - 65535) >=? 4 = true).
          { unfold u16. replace (i_raw i - 65535) with (i_raw i + 1 + (-1) * 65536) by lia. rewrite Z.mod_add by lia. rewrite Z.mod_small by lia. apply Z.geb_le.
            pose proof (Z.div_mod (i_raw i) 4 ltac:(lia)). pose proof (Z.mod_pos_bound (i_raw i) 4 ltac:(lia)). lia. }
          rewrite EU. reflexivity. }
        rewrite EP. cbv zeta. cbn [pot_calls fst]. rewrite NA by reflexivity. unfold track.
        rewrite (nominal_at c lo hi) by exact HP. change (pot_value (u_pot (set_pot s1 (mkPot (i_raw i) v)))) with v. change (u_last (set_pot s1 (mkPot (i_raw i) v))) with (u_last s). rewrite KL.
        replace (nominalAt c lo hi v =? 0) with false by (symmetry; apply Z.eqb_neq; lia). cbv zeta. rewrite Z.eqb_refl. cbn [negb]. rewrite NA by reflexivity. cbn [negb].
        replace (0 <? nominalAt c lo hi v) with true by (symmetry; apply Z.ltb_lt; lia). rewrite Z.sub_0_r.
        replace (nominalAt c lo hi v >? 10) with true by (symmetry; rewrite Z.gtb_ltb; apply Z.ltb_lt; lia). reflexivity. }
      rewrite ED in RR. specialize (RR ltac:(apply HR)). destruct (ui_read c quiet i s) as [[s' t] r]. destruct RR as (-> & -> & RW & RR).
      split; [|split; [reflexivity|exact RW]]. split; [exact RR|]. rewrite K3. change (3 + 1 <? 4) with false. split; [|exact HB]. split; [reflexivity|]. split; reflexivity.
    + assert (EF : f = false). { unfold f. rewrite KT. apply Z.eqb_neq. rewrite Z.mod_small by lia. lia. }
      assert (ED : dial c i false f s1 = s1). { unfold dial. rewrite HP. unfold willSample. rewrite EF. change (u_mode s1) with (u_mode s). rewrite KW. reflexivity. }
      rewrite ED in RR. specialize (RR ltac:(apply HR)). destruct (ui_read c quiet i s) as [[s' t] r]. destruct RR as (-> & -> & RW & RR).
      split; [|split; [reflexivity|exact RW]]. split; [exact RR|]. replace (k + 1 <? 4) with true by (symmetry; apply Z.ltb_lt; lia).
      cbn [u_tick u_pot u_last u_mode set_chg s1 set_tick]. unfold s1. cbn [u_tick u_pot u_last u_mode set_tick]. split; [|exact HB].
      split; [rewrite KT; apply u8_id; red; lia|]. split; [exact KP|]. split; assumption.
  - destruct HK as (KP & KL & KW).
    assert (ED : dial c i false f s1 = s1 \/ dial c i false f s1 = set_pot s1 (mkPot (i_raw i) v)).
    { unfold dial. rewrite HP. destruct (willSample false f s1); [right|left; reflexivity]. rewrite sampled_eq.
      rewrite (pot_same lo hi (u_pot s1) (i_raw i)) by (try exact I1; change (u_pot s1) with (u_pot s); congruence). cbv zeta. cbn [pot_calls fst].
      change (pot_value (u_pot s1)) with (pot_value (u_pot s)). rewrite KP. rewrite NA by reflexivity. apply track_stay. rewrite (nominal_at c lo hi) by exact HP.
      change (nominalAt c lo hi v = u_last s). congruence. }
    assert (ES : u_sig (dial c i false f s1) = false) by (destruct ED as [-> | ->]; apply HR). specialize (RR ES).
    destruct (ui_read c quiet i s) as [[s' t] r]. destruct RR as (-> & -> & RW & RR). split; [|split; [reflexivity|exact RW]]. split; [exact RR|].
    replace (k + 1 <? 4) with false by (symmetry; apply Z.ltb_ge; lia).
    destruct ED as [-> | ->]; (split; [|exact HB]); (split; [first [exact KP|reflexivity]|]); (split; [exact KL|exact KW]).
Qed.
(** C102: from power-up with the dial away from the bottom and nobody touching the unit: FROST until the fourth read, WARM (never BAKE) from then on, and no
    read ever clicks or reports activity, however long it goes on. *)
Theorem ui_power_up : forall c lo hi v l s o, c_pot c = Some (lo, hi) -> 0 < v -> lo <= v -> byte (nominalAt c lo hi v) -> 10 < nominalAt c lo hi v ->
  Forall (idle c v) l -> qreads c UI0 l = (s, o) ->
  inWarmMode (u_mode s) = (4 <=? Zlen l) /\ inBakeMode (u_mode s) = false /\ u_tmo s = 0 /\ Forall (fun x => snd x = false /\ count isWiggle (fst x) = 0) o.
Proof.
  intros c lo hi v l s o HP Hv Hlo Hn Hn10.
  assert (H : forall l k s0 s o, 0 <= k -> phase c lo hi v k s0 -> Forall (idle c v) l -> qreads c s0 l = (s, o) ->
     phase c lo hi v (k + Zlen l) s /\ Forall (fun x => snd x = false /\ count isWiggle (fst x) = 0) o).
  { clear l s o. induction l as [|i l IH]; intros k s0 s o Hk HF HA HQ; cbn [qreads] in HQ.
    - inversion HQ; subst. change (Zlen []) with 0. rewrite Z.add_0_r. split; [exact HF|constructor].
    - inversion HA; subst. pose proof (phase_step c lo hi v k i s0 HP Hv Hlo Hn Hn10 Hk H1 HF) as PS.
      destruct (ui_read c quiet i s0) as [[s1 t] b]. destruct PS as (P1 & P2 & P3). destruct (qreads c s1 l) as [s2 o2] eqn:EQ. inversion HQ; subst.
      destruct (IH (k + 1) s1 s o2 ltac:(lia) P1 H2 EQ) as [A B]. rewrite Zlen_cons. replace (k + (1 + Zlen l)) with (k + 1 + Zlen l) by lia.
      split; [exact A|]. constructor; [split; [reflexivity|exact P3]|exact B]. }
  intros HA HQ. assert (P0 : phase c lo hi v 0 UI0).
  { split; [|split; [|reflexivity]].
    - split; [reflexivity|]. split; [reflexivity|]. split; [reflexivity|]. split; [right; reflexivity|red; cbn; lia].
    - change (0 <? 4) with true. repeat split. }
  destruct (H l 0 UI0 s o ltac:(lia) P0 HA HQ) as [(R & K & B) F]. rewrite Z.add_0_l in K. pose proof (Zlen_nonneg l).
  assert (EW : inWarmMode (u_mode s) = (4 <=? Zlen l)).
  { destruct (Z.ltb_spec (Zlen l) 4); [replace (4 <=? Zlen l) with false by (symmetry; apply Z.leb_gt; lia)|replace (4 <=? Zlen l) with true by (symmetry; apply Z.leb_le; lia)]; apply K. }
  split; [exact EW|]. split; [unfold inBakeMode; rewrite B; apply Bool.andb_false_r|]. split; [apply R|exact F].
Qed.
(** But the smallest noise on the dial (three counts of 1024) is enough to report the room occupied: the unsigned comparison again (see C55). *)
Theorem ui_noise_refuted : exists c l s o, c_pot c = Some (8, 247) /\ Forall (fun i => 402 <= i_raw i <= 405 /\ i_held i = false) l /\ qreads c UI0 l = (s, o) /\ occupiedNow s.
Proof.
  exists (stdCfg false true), (map (fun r => mkIn r false true false false false false) [402;402;402;402;405;404]).
  eexists _, _. split; [reflexivity|]. split; [repeat constructor; cbn; lia|]. split; [vm_compute; reflexivity|]. split; reflexivity.
Qed.

(** ** The cycling MODE button *)
(** No press (interrupt) changes mode or button state of the cycling version. *)
Definition sameMB (s s' : UI) := u_mode s' = u_mode s /\ u_pw s' = u_pw s /\ u_pb s' = u_pb s /\ u_was s' = u_was s.
Lemma mb_pre : preorder sameMB.
Proof. unfold sameMB. split; [auto|]. intros a b c (A & B & C & D) (E & F & G & H). split; [congruence|]. split; [congruence|]. split; congruence. Qed.
Lemma mb_mark : forall s, sameMB s (markUsed s).
Proof. intro s. unfold sameMB. repeat split. Qed.
Lemma mb_press : forall c s, c_cycle c = true -> sameMB s (fst (press c s)).
Proof. intros c s H. unfold press. rewrite wb_tell. cbn [fst]. rewrite H. apply mb_mark. Qed.
Lemma mb_presses : forall c n s, c_cycle c = true -> sameMB s (fst (presses c n s)).
Proof. intros c n s H. apply presses_rel; [apply mb_pre|]. intro x. apply mb_press, H. Qed.
Lemma mb_stage1 : forall c g s, c_cycle c = true -> sameMB s (fst (stage1 c g s)).
Proof.
  intros c g s H. unfold stage1. apply (wb_rel _ mb_pre); [apply mb_presses, H|intro x]. cbv zeta.
  assert (T : sameMB x (set_tick x (u8 (u_tick x + 1)))) by (unfold sameMB; repeat split). eapply (proj2 mb_pre); [exact T|].
  apply (wb_rel _ mb_pre); [|intro; apply mb_presses, H]. destruct (_ =? 0); [|apply mb_pre].
  apply (wb_rel _ mb_pre); [apply mb_presses, H|intro y]. cbn [fst tell]. destruct (0 =? _); [apply mb_pre|]. destruct (_ =? _); [unfold sameMB; repeat split|apply mb_pre].
Qed.
Lemma mb_stage2 : forall c g i e f s, c_cycle c = true -> c_pot c = None -> sameMB s (fst (stage2 c g i e f s)).
Proof.
  intros c g i e f s H HP. unfold stage2. rewrite HP. apply (wb_rel _ mb_pre); [apply mb_presses, H|intro]. apply (wb_rel _ mb_pre); [apply mb_pre|intro; apply mb_presses, H].
Qed.
Lemma mb_stage3 : forall c g i s, c_cycle c = true -> sameMB s (fst (stage3 c g i s)).
Proof.
  intros c g i s H. unfold stage3. apply (wb_rel _ mb_pre); [|intro; apply mb_presses, H]. destruct (u_sig s); [|apply mb_pre]. unfold feedback.
  apply (wb_rel _ mb_pre); [apply mb_pre|intro]. apply (wb_rel _ mb_pre); [apply mb_mark|intro]. apply (wb_rel _ mb_pre); [apply mb_pre|intro].
  apply (wb_rel _ mb_pre); [apply mb_presses, H|intro]. unfold sameMB; repeat split.
Qed.
Lemma mb_display : forall c g i e f s, c_cycle c = true -> sameMB s (fst (display c g i e f s)).
Proof.
  intros c g i e f s H. unfold display. cbv zeta. apply (wb_rel _ mb_pre); [apply mb_presses, H|intro s1].
  destruct (_ || inWarmMode _).
  - destruct (_ || (_ && _)); [|apply mb_pre].
    apply (wb_rel _ mb_pre); [apply mb_pre|intro s2]. apply (wb_rel _ mb_pre); [apply mb_presses, H|intro s3].
    destruct (_ || inBakeMode _); [|apply mb_pre].
    apply (wb_rel _ mb_pre); [apply mb_pre|intro s4]. apply (wb_rel _ mb_pre); [apply mb_presses, H|intro s5].
    destruct (inBakeMode (u_mode s5)); apply mb_pre.
  - destruct (_ && i_cfh i); apply mb_pre.
Qed.
(** Read with the cycling button: what comes before and after polling it leaves mode and button alone. *)
Lemma cycle_read : forall c g i s, c_cycle c = true -> c_pot c = None ->
  exists x, sameMB s x /\ sameMB (fst (fst (pollMODE c i x))) (fst (fst (ui_read c g i s))) /\ (u_chg (fst (fst (pollMODE c i x))) = true -> snd (ui_read c g i s) = true).
Proof.
  intros c g i s H HP. rewrite ui_read_body. cbv zeta. cbn [fst snd]. unfold body. rewrite !wb_fst. cbv zeta.
  pose proof (mb_stage1 c g s H) as M1. set (s1 := fst (stage1 c g s)) in *. set (e := veryRecent s1). set (f := Z.land _ 3 =? 0).
  pose proof (mb_stage2 c g i e f s1 H HP) as M2. set (s2 := fst (stage2 c g i e f s1)) in *.
  pose proof (mb_stage3 c g i s2 H) as M3. set (s3 := fst (stage3 c g i s2)) in *.
  exists s3. split; [eapply (proj2 mb_pre); [exact M1|]; eapply (proj2 mb_pre); [exact M2|exact M3]|].
  unfold stage4. destruct (pollMODE c i s3) as [m a]. cbn [fst]. rewrite wb_fst.
  set (s4 := fst (if a then tell (fst m) [] else display c g i e f (fst m))).
  assert (M4 : sameMB (fst m) s4) by (unfold s4; destruct a; [apply mb_pre|apply mb_display, H]).
  assert (T4 : touch (fst m) s4) by (unfold s4; destruct a; [apply touch_pre|apply touch_display]).
  assert (M5 : sameMB s4 (fst (stage5 c g s4))) by (unfold stage5; apply (wb_rel _ mb_pre); [apply mb_pre|intro; apply mb_presses, H]).
  assert (T5 : touch s4 (fst (stage5 c g s4))) by (unfold stage5; apply (wb_rel _ touch_pre); [apply touch_pre|intro; apply touch_presses]).
  split.
  - eapply (proj2 mb_pre); [exact M4|]. eapply (proj2 mb_pre); [exact M5|]. eapply (proj2 mb_pre); [apply mb_presses, H|]. unfold sameMB; repeat split.
  - intro HC. change (u_chg (fst (stage5 c g s4)) = true). destruct T4 as [_ [[A _]|[A _]]]; destruct T5 as [_ [[B _]|[B _]]]; congruence.
Qed.
Definition putative (s : UI) : Z := if negb (u_pw s) then 0 else if u_pb s then 2 else 1.
Definition bw (s : UI) : Prop := u_pb s = true -> u_pw s = true.     (* BAKE is a WARM mode *)
Definition modeNow (s : UI) : Z := vmode__get (u_mode s).            (* 0 FROST, 1 WARM, 2 BAKE *)
Lemma poll_held : forall c i x, c_cycle c = true -> i_held i = true ->
  let y := fst (fst (pollMODE c i x)) in
  u_mode y = u_mode x /\ u_was y = true /\ putative y = ((if u_was x then putative x else modeNow x) + 1) mod 3 /\ u_chg y = true /\ bw y.
Proof.
  intros c i x H HH. unfold pollMODE. rewrite H, HH. cbn [negb]. cbv zeta. cbn [fst].
  unfold putative, modeNow, vmode__get, inWarmMode, inBakeMode. destruct (u_was x) eqn:EW.
  - cbn [u_pw u_pb markUsed set_occ set_tmo set_chg]. destruct (u_pw x) eqn:E1; cbn [negb]; [destruct (u_pb x) eqn:E2; cbn [negb]|]; cbn [fst tell u_mode u_was u_pw u_pb u_chg set_btn markUsed set_occ set_tmo set_chg negb];
      do 4 (split; [first [reflexivity|assumption|rewrite E1; reflexivity]|]); unfold bw; cbn; congruence.
  - cbn [u_pw u_pb markUsed set_occ set_tmo set_chg set_btn]. destruct (isWarmMode (u_mode x)) eqn:E1; cbn [negb andb]; [destruct (0 =? bakeCountdownM (u_mode x)) eqn:E2; cbn [negb andb]|];
      cbn [fst tell u_mode u_was u_pw u_pb u_chg set_btn markUsed set_occ set_tmo set_chg negb];
      do 4 (split; [first [reflexivity|assumption]|]); unfold bw; cbn; congruence.
Qed.
Lemma poll_release : forall c i x, c_cycle c = true -> i_held i = false -> u_was x = true -> bw x ->
  let y := fst (fst (pollMODE c i x)) in
  modeNow y = putative x /\ u_was y = false /\ u_chg y = true /\ (putative x = 2 -> bakeCountdownM (u_mode y) = 31).
Proof.
  intros c i x H HH HW HB. unfold pollMODE. rewrite H, HH, HW. unfold bw in HB. cbn [negb]. cbv zeta. cbn [fst].
  unfold putative, modeNow, vmode__get. cbn [u_mode set_btn markUsed set_occ set_tmo set_chg set_mode u_was u_chg].
  destruct (u_pw x), (u_pb x); cbn; repeat split; intros; first [reflexivity|discriminate|discriminate (HB eq_refl)].
Qed.
(** Button held (any interrupts); or minutes pass. *)
Definition holding (e : uev) : Prop := match e with URead _ i => i_held i = true | UMinute | UOccMinute | UPress => True | _ => False end.
Lemma held_run : forall c, c_cycle c = true -> c_pot c = None -> forall es s, u_was s = true -> bw s -> Forall holding es ->
  let s' := fst (ui_run c s es) in u_was s' = true /\ bw s' /\ putative s' = (putative s + reads es) mod 3.
Proof.
  intros c H HP. assert (P3 : forall x, 0 <= putative x < 3) by (intro x; unfold putative; destruct (u_pw x), (u_pb x); cbn; lia).
  induction es as [|e r IH]; intros s HW HBW HF; cbv zeta; cbn [ui_run].
  - split; [exact HW|]. split; [exact HBW|]. change (reads []) with 0. rewrite Z.add_0_r. symmetry. apply Z.mod_small, P3.
  - inversion HF; subst.
    assert (ST : let s1 := fst (fst (ui_step c s e)) in u_was s1 = true /\ bw s1 /\ putative s1 = (putative s + reads [e]) mod 3).
    { cbv zeta. destruct e; cbn [holding] in H2; try contradiction; cbn [ui_step].
      - destruct (cycle_read c g i s H HP) as (x & (A1 & A2 & A3 & A4) & (B1 & B2 & B3 & B4) & _). destruct (ui_read c g i s) as [[s' t] b]. cbn [fst snd] in *.
        destruct (poll_held c i x H H2) as (C1 & C2 & C3 & _ & C5). cbv zeta in *. rewrite A4, HW in C3. change (reads [URead g i]) with 1.
        split; [congruence|]. split; [unfold bw in *; rewrite B2, B3; exact C5|]. unfold putative in *. rewrite A2, A3 in C3. rewrite B2, B3. exact C3.
      - change (reads [UPress]) with 0. rewrite Z.add_0_r, Z.mod_small by apply P3. destruct (mb_press c s H) as (A1 & A2 & A3 & A4). destruct (press c s). cbn [fst] in *. split; [congruence|]. split; [unfold bw in *; rewrite A2, A3; exact HBW|]. unfold putative. rewrite A2, A3. reflexivity.
      - change (reads [UMinute]) with 0. rewrite Z.add_0_r, Z.mod_small by apply P3. split; [exact HW|split; [exact HBW|reflexivity]].
      - change (reads [UOccMinute]) with 0. rewrite Z.add_0_r, Z.mod_small by apply P3. split; [exact HW|split; [exact HBW|reflexivity]]. }
    cbv zeta in ST. destruct (ui_step c s e) as [[s1 t] o]. cbn [fst] in ST. destruct ST as (S1 & SB & S2). destruct (IH s1 S1 SB H3) as (I1 & IB & I2).
    destruct (ui_run c s1 r) as [s2 os]. cbn [fst] in *. split; [exact I1|]. split; [exact IB|]. rewrite I2, S2. rewrite Z.add_mod_idemp_l by discriminate. f_equal.
    unfold reads. cbn [filter]. destruct (isRead e); [rewrite !Zlen_cons; change (Zlen (@nil uev)) with 0|change (Zlen (@nil uev)) with 0].
    + lia.
    + rewrite Z.add_0_r. reflexivity.
Qed.
(** C103: holding the button steps FROST, WARM, BAKE, FROST ... one step for each read, without touching the valve's mode; letting go sets the mode arrived at
    (BAKE for the full period), and counts as use of the controls. *)
Theorem ui_cycle : forall c g i es g' i' s s1 os s2 t r, c_cycle c = true -> c_pot c = None -> u_was s = false ->
  i_held i = true -> Forall holding es -> i_held i' = false ->
  ui_run c s (URead g i :: es) = (s1, os) -> ui_read c g' i' s1 = ((s2, t), r) ->
  modeNow s2 = (modeNow s + 1 + reads es) mod 3 /\ (modeNow s2 = 2 -> bakeCountdownM (u_mode s2) = 31) /\ r = true /\ u_was s2 = false.
Proof.
  intros c g i es g' i' s s1 os s2 t r H HP HW HH HE HH' HR HQ. cbn [ui_run ui_step] in HR.
  destruct (cycle_read c g i s H HP) as (x & (A1 & A2 & A3 & A4) & (B1 & B2 & B3 & B4) & _). destruct (ui_read c g i s) as [[s0 t0] b0]. cbn [fst snd] in *.
  destruct (poll_held c i x H HH) as (C1 & C2 & C3 & _ & C5). cbv zeta in *. rewrite A4, HW in C3.
  assert (BW0 : bw s0) by (unfold bw in *; rewrite B2, B3; exact C5).
  assert (W0 : u_was s0 = true) by congruence. assert (P0 : putative s0 = (modeNow s + 1) mod 3).
  { unfold putative. rewrite B2, B3. unfold modeNow in *. rewrite A1 in C3. exact C3. }
  destruct (held_run c H HP es s0 W0 BW0 HE) as (D1 & DB & D2). destruct (ui_run c s0 es) as [s1' os']. inversion HR; subst s1'. cbn [fst] in *. clear HR.
  destruct (cycle_read c g' i' s1 H HP) as (y & (E1 & E2 & E3 & E4) & (F1 & F2 & F3 & F4) & F5). rewrite HQ in F1, F2, F3, F4, F5. cbn [fst snd] in *.
  destruct (poll_release c i' y H HH') as (G1 & G2 & G3 & G4); [congruence|unfold bw in *; rewrite E2, E3; exact DB|]. cbv zeta in *.
  assert (PY : putative y = (modeNow s + 1 + reads es) mod 3). { transitivity (putative s1); [unfold putative; rewrite E2, E3; reflexivity|]. rewrite D2, P0, Z.add_mod_idemp_l by discriminate. reflexivity. }
  assert (MN : modeNow s2 = putative y). { unfold modeNow in *. rewrite F1. exact G1. }
  split; [congruence|]. split; [intro E; rewrite F1; apply G4; congruence|]. split; [apply F5, G3|congruence].
Qed.
(** And each read while held leaves the mode as it was. *)
Theorem ui_cycle_held : forall c g i s s' t r, c_cycle c = true -> c_pot c = None -> i_held i = true -> ui_read c g i s = ((s', t), r) -> u_mode s' = u_mode s.
Proof.
  intros c g i s s' t r H HP HH HR. destruct (cycle_read c g i s H HP) as (x & (A1 & _) & (B1 & _) & _). rewrite HR in B1. cbn [fst] in *.
  destruct (poll_held c i x H HH) as (C1 & _). cbv zeta in C1. congruence.
Qed.

(** ** The hypotheses are met *)
Definition inp (r : Z) := mkIn r false true false false false false.
Definition warmed := fst (qreads (stdCfg false true) UI0 (repeat (inp 500) 8)).      (* up and running, WARM, dial half way *)
Example ui_clicks_nonvacuous : c_pot (stdCfg false true) = Some (8, 247) /\ inWarmMode (u_mode warmed) = true /\ longLongVacant (u_occ warmed) = false /\ u_last warmed = 20 /\ u_sig warmed = false /\
  nominalAt (stdCfg false true) 8 247 (pot_value (fst (pot_read 8 247 (u_pot warmed) 700))) = 22 /\
  clicks (snd (qreads (stdCfg false true) warmed (repeat (inp 700) 5))) = [1; 1; 0; 0; 0].
Proof. vm_compute. repeat split. Qed.
Example ui_press_nonvacuous : let '((s', t), r) := ui_read (stdCfg false true) (fun n => if Nat.eqb n 6 then 1%nat else 0%nat) (inp 500) warmed in
  In Pressed t /\ r = true /\ 8 <= pot_value (u_pot warmed) /\ pot_value (u_pot warmed) * 4 <= 500 /\ inBakeMode (u_mode warmed) = false /\ inBakeMode (u_mode s') = true.
Proof. vm_compute. repeat split; try discriminate. right. left. reflexivity. Qed.
Example ui_frost_nonvacuous : let s := fst (qreads (stdCfg false true) warmed [inp 10]) in settled s /\ pot_value (u_pot s) < 8 /\ isWarmMode (u_mode s) = false /\ bakeCountdownM (u_mode s) = 0.
Proof. vm_compute. repeat split; discriminate. Qed.
Example ui_flash_nonvacuous : let '((s', t), r) := ui_read (stdCfg false true) quiet (mkIn 500 false true true false false false) warmed in
  count isWiggle t = 0 /\ count isOn t = 2 /\ r = false.
Proof. vm_compute. repeat split. Qed.
Example ui_cycle_nonvacuous : let c := mkCfg None false true true 16 26 (fun _ => 19) (fun _ => false) (fun _ => false) in
  let s := fst (ui_run c UI0 (repeat (URead quiet (mkIn 0 true true false false false false)) 5)) in
  modeNow s = 0 /\ putative s = 2 /\ modeNow (fst (fst (ui_read c quiet (mkIn 0 false true false false false false) s))) = 2.
Proof. vm_compute. repeat split. Qed.
Example ui_recent_nonvacuous : exists s os os' s', ui_run (stdCfg false true) UI0 ([UPress] ++ [URead quiet (inp 500)]) = (s, os) /\ last os None = Some true /\
  ui_run (stdCfg false true) s (repeat (URead quiet (inp 500)) 100) = (s', os') /\ Forall2 hands_off (repeat (URead quiet (inp 500)) 100) os' /\ u_tmo s' = 28.
Proof.
  eexists _, _, _, _. split; [vm_compute; reflexivity|]. split; [reflexivity|]. split; [vm_compute; reflexivity|]. split; [|reflexivity].
  cbn [repeat]. repeat (apply Forall2_cons; [split; reflexivity|]). apply Forall2_nil.
Qed.
