(** Theorems about the ambient light sensor and its occupancy detector. *)
From Verif Require Import Base LightModel LightProps.

(** ** The detector *)
(** For every history of levels and settings, when an update reports probable occupancy and when weak. *)
Theorem light_occ_probable_iff H l : Forall bdev H -> byte l -> det_out H l = OccProbable <-> spec_probable H l.
Proof. intros F B. apply (update_ok _ _ _ (det_ok_run _ F) F B). Qed.
Theorem light_occ_weak_iff H l : Forall bdev H -> byte l -> det_out H l = OccWeak <-> spec_weak H l.
Proof. intros F B. apply (update_ok _ _ _ (det_ok_run _ F) F B). Qed.
Theorem light_occ_never_strong H l : Forall bdev H -> byte l -> det_out H l <> OccStrong.
Proof. intros F B. apply (update_ok _ _ _ (det_ok_run _ F) F B). Qed.

(** A falling level is never a sign of occupancy. *)
Theorem light_occ_fall_none H l : Forall bdev H -> byte l -> l < level H -> det_out H l = OccNone.
Proof.
  intros F B L. pose proof (light_occ_probable_iff H l F B) as P. pose proof (light_occ_weak_iff H l F B) as W.
  pose proof (light_occ_never_strong H l F B) as S.
  destruct (det_out H l); [reflexivity| | |congruence].
  - destruct (proj1 W eq_refl) as (_ & K & _). lia.
  - destruct (proj1 P eq_refl) as [(_ & K & _)|(_ & (K & _) & _)]; lia.
Qed.
(** The first level after power-up never indicates occupancy, whatever has been set. *)
Theorem light_occ_first_none H l : Forall bdev H -> byte l ->
  (forall e, In e H -> exists m mn mx, e = DT m mn mx) -> det_out H l = OccNone.
Proof.
  intros F B AT.
  assert (E : level H = 254 /\ steady_ticks H = 0).
  { unfold level, steady_ticks. assert (AT' : forall e, In e (rev H) -> exists m mn mx, e = DT m mn mx) by (intros e K; apply AT; now apply in_rev).
    clear AT. induction (rev H) as [|e r IH]; [split; reflexivity|].
    destruct (AT' e (or_introl eq_refl)) as (m & mn & mx & ->). cbn [rlevel rsteady]. apply IH. intros x K. apply AT'. now right. }
  destruct E as [EL ES].
  pose proof (light_occ_probable_iff H l F B) as P. pose proof (light_occ_weak_iff H l F B) as W.
  pose proof (light_occ_never_strong H l F B) as S. unfold byte in B.
  assert (NA : ~ awaiting H).
  { intros (H1 & x & H2 & E & _). destruct (AT (DU x)) as (? & ? & ? & K); [|discriminate]. rewrite E. apply in_or_app. right. now left. }
  destruct (det_out H l); [reflexivity| | |congruence].
  - destruct (proj1 W eq_refl) as (_ & K & [[(_ & _ & K2) _]|(_ & K2 & _)]); [lia|].
    rewrite steady_snoc_U, ES in K2. destruct (_ <? _); lia.
  - destruct (proj1 P eq_refl) as [(K & _)|(_ & (_ & _ & K) & _)]; [contradiction|lia].
Qed.
(** Without a rise of at least 4 in one tick after at least three steady ticks, occupancy is never called probable. *)
Theorem light_occ_no_rise_no_probable H l : Forall bdev H -> byte l ->
  (forall H1 x H2, H ++ [DU l] = H1 ++ DU x :: H2 -> x - level H1 < 4 \/ steady_ticks H1 < 3) ->
  det_out H l <> OccProbable.
Proof.
  intros F B N E. apply (light_occ_probable_iff H l F B) in E. destruct E as [(A & _)|(_ & (K1 & _ & K3) & _)].
  - destruct A as (H1 & x & H2 & -> & (L1 & _ & L3) & _).
    specialize (N H1 x (H2 ++ [DU l])). rewrite <- app_assoc in N. destruct (N eq_refl); lia.
  - destruct (N H l [] eq_refl); lia.
Qed.
(** Lights on in a room not very dark, or not steadily dark for long: probable occupancy at once. *)
Theorem light_occ_on_immediate H l : Forall bdev H -> byte l -> light_on H l -> ~ long_dark H -> ~ awaiting H ->
  det_out H l = OccProbable.
Proof. intros F B L D A. apply light_occ_probable_iff; auto. right. auto. Qed.

Lemma awaiting_after_dark H l : Forall bdev H -> byte l -> light_on H l -> long_dark H -> awaiting (H ++ [DU l]).
Proof. intros F B L D. apply awaiting_U. left. auto. Qed.
Lemma Forall_snoc {A} (P : A -> Prop) l x : Forall P l -> P x -> Forall P (l ++ [x]).
Proof. intros F Px. apply Forall_app. split; [exact F|]. constructor; [exact Px|constructor]. Qed.
(** Lights on in a room dark for long: nothing more than weak until three further steady ticks have passed;
    no report in the first two ticks is ever 'probable', whatever the levels. *)
Theorem light_occ_flash_not_probable H l x y : Forall bdev H -> byte l -> byte x -> byte y ->
  l - level H >= 4 -> long_dark H ->
  det_out H l <> OccProbable /\ det_out (H ++ [DU l]) x <> OccProbable /\
  det_out ((H ++ [DU l]) ++ [DU x]) y <> OccProbable.
Proof.
  intros F B Bx By L D.
  assert (F1 : Forall bdev (H ++ [DU l])) by (apply Forall_snoc; assumption).
  assert (F2 : Forall bdev ((H ++ [DU l]) ++ [DU x])) by (apply Forall_snoc; assumption).
  assert (S1 : steady_ticks (H ++ [DU l]) = 0) by (rewrite steady_snoc_U, (proj2 (Z.ltb_ge _ _)) by lia; reflexivity).
  assert (S2 : steady_ticks ((H ++ [DU l]) ++ [DU x]) <= 1) by (rewrite steady_snoc_U, S1; destruct (_ <? _); lia).
  assert (S3 : steady_ticks (((H ++ [DU l]) ++ [DU x]) ++ [DU y]) <= 2) by (rewrite steady_snoc_U; destruct (_ <? _); lia).
  split; [|split]; intros E; apply light_occ_probable_iff in E; auto; destruct E as [(A & K & K2)|(A & (K1 & K2 & K3) & K4)]; try lia.
  contradiction.
Qed.
(** ... and if the level falls back by at least 4 in that time, the pending confirmation is forgotten. *)
Theorem light_occ_flash_forgotten H l : level H - l >= 4 -> ~ awaiting (H ++ [DU l]).
Proof. intros L A. apply awaiting_U in A as [[(K & _) _]|(_ & K & _)]; lia. Qed.
(** If the light stays on and steady for three ticks, occupancy becomes probable at the third. *)
Theorem light_occ_dark_confirmed H l x y z : Forall bdev H -> byte l -> byte x -> byte y -> byte z ->
  light_on H l -> long_dark H -> l <= x < l + 4 -> x <= y < x + 4 -> y <= z < y + 4 ->
  det_out (((H ++ [DU l]) ++ [DU x]) ++ [DU y]) z = OccProbable.
Proof.
  intros F B Bx By Bz L D X Y Z0.
  assert (F1 : Forall bdev (H ++ [DU l])) by (apply Forall_snoc; assumption).
  assert (F2 : Forall bdev ((H ++ [DU l]) ++ [DU x])) by (apply Forall_snoc; assumption).
  assert (F3 : Forall bdev (((H ++ [DU l]) ++ [DU x]) ++ [DU y])) by (apply Forall_snoc; assumption).
  assert (S1 : steady_ticks (H ++ [DU l]) = 0) by (rewrite steady_snoc_U, (proj2 (Z.ltb_ge _ _)) by (unfold light_on in L; lia); reflexivity).
  assert (S2 : steady_ticks ((H ++ [DU l]) ++ [DU x]) = 1) by (rewrite steady_snoc_U, level_snoc_U, S1, (proj2 (Z.ltb_lt _ _)) by lia; reflexivity).
  assert (S3 : steady_ticks (((H ++ [DU l]) ++ [DU x]) ++ [DU y]) = 2) by (rewrite steady_snoc_U, level_snoc_U, S2, (proj2 (Z.ltb_lt _ _)) by lia; reflexivity).
  assert (A1 : awaiting (H ++ [DU l])) by (apply awaiting_after_dark; assumption).
  assert (A2 : awaiting ((H ++ [DU l]) ++ [DU x])) by (apply awaiting_U; right; rewrite level_snoc_U; split; [exact A1|lia]).
  assert (A3 : awaiting (((H ++ [DU l]) ++ [DU x]) ++ [DU y])) by (apply awaiting_U; right; rewrite level_snoc_U; split; [exact A2|lia]).
  apply light_occ_probable_iff; auto. left. rewrite level_snoc_U, steady_snoc_U, level_snoc_U, S3, (proj2 (Z.ltb_lt _ _)) by lia.
  split; [exact A3|]. lia.
Qed.
(** The light-on from long dark itself is reported as weak. *)
Theorem light_occ_dark_weak H l : Forall bdev H -> byte l -> light_on H l -> long_dark H -> ~ awaiting H ->
  det_out H l = OccWeak.
Proof.
  intros F B L D A. apply light_occ_weak_iff; auto. split; [exact A|]. split; [unfold light_on in L; lia|]. left. auto.
Qed.

(** Non-vacuity: a dark room for 256 ticks, then a light of level 100 switched on for four ticks. *)
Definition dark_room : list dev := DT 50 1 200 :: repeat (DU 1) 256.
Example light_occ_dark_case :
  Forall bdev dark_room /\ light_on dark_room 100 /\ long_dark dark_room /\ det_out dark_room 100 = OccWeak /\
  det_out (((dark_room ++ [DU 100]) ++ [DU 100]) ++ [DU 101]) 102 = OccProbable /\
  det_out (((dark_room ++ [DU 100]) ++ [DU 100]) ++ [DU 10]) 10 = OccNone.
Proof.
  split; [|split; [|split; [|split; [|split]]]]; try (vm_compute; reflexivity).
  - constructor; [cbn; unfold byte; lia|]. apply Forall_forall. intros e K. apply repeat_spec in K. subst. cbn. unfold byte. lia.
  - unfold light_on. vm_compute. intuition discriminate.
  - unfold long_dark. vm_compute. intuition discriminate.
Qed.
Example light_occ_day_case : det_out (repeat (DU 40) 10) 60 = OccProbable /\
  light_on (repeat (DU 40) 10) 60 /\ ~ long_dark (repeat (DU 40) 10).
Proof.
  split; [vm_compute; reflexivity|]. split; [unfold light_on; vm_compute; intuition discriminate|].
  intros [_ K]. vm_compute in K. discriminate.
Qed.
Example light_occ_artificial_case : det_out (DT 40 10 200 :: repeat (DU 40) 40) 41 = OccWeak.
Proof. vm_compute. reflexivity. Qed.

(** ** The sensor *)
Definition blev (e : lev) : Prop :=
  match e with LRead v => 0 <= v <= 254 | LTyp m mn mx _ => byte m /\ byte mn /\ byte mx | _ => True end.

Lemma ls_run_snoc H e : ls_run (H ++ [e]) = fst (ls_step (ls_run H) e).
Proof. unfold ls_run. now rewrite fold_left_app. Qed.

(** Thresholds: what setTypMinMax (or power-up) leaves. *)
Definition thr_ok (s : lsens) : Prop :=
  0 <= darkThr s <= 253 /\ 1 <= lightThr s <= 254 /\ darkThr s < lightThr s.
Lemma recompute_ok s m mn mx sn : byte m -> byte mn -> byte mx ->
  let '(l, dk, nr, dt) := recompute s m mn mx sn in
  (0 <= dk <= 253 /\ 1 <= l <= 254 /\ dk < l) /\
  (mn <> 255 -> mx <> 255 -> nr = false -> mn < dk /\ l < mx) /\
  (nr = true <-> mn <> 255 /\ mx <> 255 /\ (mx - mn <= 4 \/ mn >= 250)) /\
  dt = (if nr then 0 else darkT s).
Proof.
  intros Bm Bn Bx. unfold recompute, byte in *.
  destruct (Z.eqb_spec mn 255); cbn [orb]; [|destruct (Z.eqb_spec mx 255); cbn [orb]].
  1, 2: change DEFAULT_LIGHT with 16; change UPDELTA with 4; cbn [fst snd];
    (repeat match goal with |- _ /\ _ => split | |- _ <-> _ => split end); try lia; try discriminate; reflexivity.
  change EPS with 4.
  destruct (Z.geb_spec mn (254 - 4)); cbn [orb]; [|destruct (Z.leb_spec mx mn); cbn [orb]; [|destruct (Z.leb_spec (mx - mn) 4)]].
  1, 2, 3: change DEFAULT_LIGHT with 16; change UPDELTA with 4; 
    (repeat match goal with |- _ /\ _ => split | |- _ <-> _ => split end); try lia; try discriminate; reflexivity.
  cbv zeta. set (k := if sn || (m <? Z.shiftr mx 1) then 4 else 3).
  assert (Hk : Z.shiftr (mx - mn) k = (mx - mn) / 16 \/ Z.shiftr (mx - mn) k = (mx - mn) / 8).
  { unfold k. destruct (sn || _); [left|right]; rewrite Z.shiftr_div_pow2 by lia; reflexivity. }
  clearbody k.
  assert (HS : 0 <= Z.shiftr (mx - mn) k <= 31 /\ 8 * Z.shiftr (mx - mn) k <= mx - mn).
  { pose proof (Z.div_mod (mx - mn) 16). pose proof (Z.mod_pos_bound (mx - mn) 16).
    pose proof (Z.div_mod (mx - mn) 8). pose proof (Z.mod_pos_bound (mx - mn) 8). lia. }
  rewrite (u8_id (Z.shiftr _ _)) by (red; lia).
  set (q := Z.shiftr (mx - mn) k) in *. clearbody q.
  set (up := Z.max q 4). assert (HU : up = Z.max q 4) by reflexivity. clearbody up.
  rewrite (Z.shiftr_div_pow2 up) by lia. change (2 ^ 1) with 2.
  pose proof (Z.div_mod up 2). pose proof (Z.mod_pos_bound up 2).
  set (h := up / 2) in *. clearbody h.
  set (dk0 := Z.min 254 (mn + Z.max 1 h)). assert (HD : dk0 = Z.min 254 (mn + Z.max 1 h)) by reflexivity. clearbody dk0.
  rewrite (u8_id dk0) by (red; lia). rewrite (u8_id (Z.min (mx - 1) _)) by (red; lia).
  split; [lia|]. split; [lia|]. split; [split; [discriminate|lia]|reflexivity].
Qed.
Lemma thr_ok_run H : Forall blev H -> thr_ok (ls_run H).
Proof.
  induction H as [|e H IH] using rev_ind; intros F; [vm_compute; intuition discriminate|].
  apply Forall_app in F as [F FE]. apply Forall_inv in FE. specialize (IH F). rewrite ls_run_snoc.
  set (s := ls_run H) in *. clearbody s. unfold thr_ok in *. destruct e as [v|m mn mx sn|b|]; cbn [ls_step fst].
  - unfold ls_read. cbv zeta.
    repeat match goal with
    | |- context [let '(a, b) := if ?c then _ else _ in _] => destruct c
    | |- context [let '(d, o) := update ?x ?y in _] => destruct (update x y)
    | |- context [if hascb s then _ else _] => destruct (hascb s)
    end; cbn [fst lightThr darkThr]; exact IH.
  - cbn [blev] in FE. destruct FE as (B1 & B2 & B3). pose proof (recompute_ok s m mn mx sn B1 B2 B3) as R. unfold ls_typ.
    destruct (recompute s m mn mx sn) as [[[l dk] nr] dt]. cbn [lightThr darkThr]. apply R.
  - exact IH.
  - vm_compute. intuition discriminate.
Qed.
(** getLightThreshold() is in [1,254], getDarkThreshold() in [0,253], and the former is strictly greater, always. *)
Theorem light_thresholds H : Forall blev H ->
  1 <= lightThr (ls_run H) <= 254 /\ 0 <= darkThr (ls_run H) <= 253 /\ darkThr (ls_run H) < lightThr (ls_run H).
Proof. intros F. destruct (thr_ok_run H F) as (A & B & C). auto. Qed.
(** The range is flagged too narrow exactly when both limits are known and are within 4 of each other (or
    inverted, or the minimum is at the top of the scale); and when they are known and usable the long-term minimum
    is below the dark threshold and the long-term maximum above the light threshold, so a reading of either is
    classed accordingly. *)
Theorem light_typ H m mn mx sn : Forall blev H -> byte m -> byte mn -> byte mx ->
  let s := ls_run (H ++ [LTyp m mn mx sn]) in
  (narrow s = true <-> mn <> 255 /\ mx <> 255 /\ (mx - mn <= 4 \/ mn >= 250)) /\
  (narrow s = true -> getDarkMinutes s = 0 /\ isRoomLit s = false /\ isRoomDark s = false /\ isRoomVeryDark s = false) /\
  (mn <> 255 -> mx <> 255 -> narrow s = false ->
     mn < darkThr s /\ lightThr s < mx /\
     isRoomLit (ls_run ((H ++ [LTyp m mn mx sn]) ++ [LRead mx])) = true /\
     isRoomDark (ls_run ((H ++ [LTyp m mn mx sn]) ++ [LRead mn])) = true).
Proof.
  intros F B1 B2 B3. cbv zeta. rewrite !ls_run_snoc. cbn [ls_step]. set (s := ls_run H). clearbody s.
  unfold ls_typ. pose proof (recompute_ok s m mn mx sn B1 B2 B3) as R.
  destruct (recompute s m mn mx sn) as [[[l dk] nr] dt]. destruct R as (R0 & R1 & R2 & R3). cbn [fst narrow lightThr darkThr].
  split; [exact R2|]. split.
  - intros ->. unfold getDarkMinutes, isRoomLit, isRoomDark, isRoomVeryDark. cbn [darkT litf narrow lvalue].
    rewrite !Bool.andb_false_r. auto.
  - intros M1 M2 ->. destruct (R1 M1 M2 eq_refl) as [K1 K2]. split; [exact K1|]. split; [exact K2|].
    unfold ls_read. cbn [lightThr darkThr litf narrow darkT hascb odet].
    rewrite (proj2 (Z.gtb_lt mx l)) by lia. rewrite (proj2 (Z.leb_le mn dk)) by lia.
    assert (E : mn >? l = false) by (rewrite Z.gtb_ltb; apply Z.ltb_ge; lia). rewrite E.
    unfold isRoomLit, isRoomDark. destruct (hascb s); [destruct (update _ mx), (update _ mn)|]; cbn [fst litf narrow]; auto.
Qed.

(** Lit flag: set by a reading above the light threshold then in force, kept until a reading at or below the dark
    threshold then in force (or a reset). *)
Definition last_lit (H : list lev) : Prop :=
  exists H1 v H2, H = H1 ++ LRead v :: H2 /\ v > lightThr (ls_run H1) /\
    forall A e B, H2 = A ++ e :: B ->
      match e with LRead x => x > darkThr (ls_run (H1 ++ LRead v :: A)) | LReset => False | _ => True end.
Lemma last_lit_snoc H e : last_lit (H ++ [e]) <->
  match e with
  | LRead v => v > lightThr (ls_run H) \/ (last_lit H /\ v > darkThr (ls_run H))
  | LReset => False
  | _ => last_lit H
  end.
Proof.
  split.
  - intros (H1 & y & H2 & E & L & W). apply snoc_split in E as [(-> & -> & <-)|(H2' & -> & ->)].
    + left. exact L.
    + pose proof (W H2' e [] eq_refl) as W0. cbn in W0.
      assert (LL : last_lit (H1 ++ LRead y :: H2')).
      { exists H1, y, H2'. split; [reflexivity|]. split; [exact L|]. intros A x B E. apply (W A x (B ++ [e])). rewrite E, <- app_assoc. reflexivity. }
      destruct e; auto.
  - intros K.
    assert (M : (exists v, e = LRead v /\ v > lightThr (ls_run H)) \/ (last_lit H /\ match e with LRead x => x > darkThr (ls_run H) | LReset => False | _ => True end)).
    { destruct e as [v|? ? ? ?|?|]; [destruct K as [K|K]|..]; eauto; contradiction. }
    clear K. destruct M as [(v & -> & L)|[(H1 & y & H2 & -> & L & W) W0]].
    + exists H, v, []. split; [reflexivity|]. split; [exact L|]. intros A x B E. destruct A; discriminate.
    + exists H1, y, (H2 ++ [e]). split; [now rewrite <- app_assoc|]. split; [exact L|].
      intros A x B E. apply snoc_split in E as [(-> & -> & ->)|(B' & -> & ->)]; [exact W0|apply (W A x B' eq_refl)].
Qed.

(** Dark minutes: readings at or below the dark threshold while the range was usable, since the last reading above
    the light threshold (or reset, or range found too narrow), up to 65535. *)
Fixpoint rdark (r : list lev) : Z :=
  match r with
  | [] => 0
  | e :: t =>
    let s := ls_run (rev t) in
    match e with
    | LRead v => if v >? lightThr s then 0
                 else if (v <=? darkThr s) && negb (narrow s) then Z.min 65535 (rdark t + 1) else rdark t
    | LTyp _ mn mx _ => if narrow (ls_run (rev (e :: t))) then 0 else rdark t
    | LCb _ => rdark t
    | LReset => 0
    end
  end.
Definition dark_minutes (H : list lev) : Z := rdark (rev H).
Lemma rdark_range r : 0 <= rdark r <= 65535.
Proof.
  induction r as [|e r IH]; cbn [rdark]; [lia|]. cbv zeta. destruct e; try lia.
  - destruct (_ >? _); [lia|]. destruct (_ && _); lia.
  - destruct (narrow _); lia.
Qed.

(** Settings and levels the embedded detector sees: nothing while no callback is set. *)
Fixpoint det_view (cb : bool) (acc : list dev) (H : list lev) : bool * list dev :=
  match H with
  | [] => (cb, acc)
  | LRead v :: t => det_view cb (if cb then acc ++ [DU v] else acc) t
  | LTyp m mn mx _ :: t => det_view cb (acc ++ [DT m mn mx]) t
  | LCb b :: t => det_view b acc t
  | LReset :: t => det_view false [] t
  end.
Definition seen (H : list lev) : list dev := snd (det_view false [] H).
Definition callback_set (H : list lev) : bool := fst (det_view false [] H).
Lemma det_view_app cb acc H K : det_view cb acc (H ++ K) = det_view (fst (det_view cb acc H)) (snd (det_view cb acc H)) K.
Proof. revert cb acc. induction H as [|[] H IH]; intros cb acc; cbn [app det_view]; auto. Qed.
Lemma seen_snoc H e : seen (H ++ [e]) = match e with
  | LRead v => if callback_set H then seen H ++ [DU v] else seen H
  | LTyp m mn mx _ => seen H ++ [DT m mn mx] | LCb _ => seen H | LReset => [] end.
Proof. unfold seen, callback_set. rewrite det_view_app. destruct e; reflexivity. Qed.
Lemma cb_snoc H e : callback_set (H ++ [e]) = match e with LCb b => b | LReset => false | _ => callback_set H end.
Proof. unfold callback_set. rewrite det_view_app. destruct e; reflexivity. Qed.
Lemma det_run_snoc H e : det_run (H ++ [e]) = det_step (det_run H) e.
Proof. unfold det_run. now rewrite fold_left_app. Qed.

Definition rep (s : lsens) (H : list lev) : Prop :=
  (litf s = true <-> last_lit H) /\ darkT s = dark_minutes H /\ (litf s = true -> darkT s = 0) /\ (narrow s = true -> darkT s = 0) /\
  odet s = det_run (seen H) /\ hascb s = callback_set H.
Lemma rep_run H : Forall blev H -> rep (ls_run H) H.
Proof.
  induction H as [|e H IH] using rev_ind; intros F.
  - unfold rep. cbn. repeat split; try discriminate. intros (H1 & v & H2 & E & _). destruct H1; discriminate.
  - apply Forall_app in F as [F FE]. apply Forall_inv in FE. specialize (IH F).
    pose proof (thr_ok_run H F) as TH. unfold thr_ok in TH.
    unfold rep in IH |- *. destruct IH as (IL & ID & IZ & IN & IO & IC).
    rewrite last_lit_snoc, seen_snoc, cb_snoc. unfold dark_minutes. rewrite rev_unit. cbn [rdark]. cbv zeta.
    change (rdark (rev H)) with (dark_minutes H).
    change (rev (e :: rev H)) with (rev (rev H) ++ [e]). rewrite rev_involutive.
    rewrite ls_run_snoc. pose proof (rdark_range (rev H)) as DR. change (rdark (rev H)) with (dark_minutes H) in DR.
    set (s := ls_run H) in *. clearbody s. destruct e as [v|m mn mx sn|b|]; cbn [ls_step fst].
    + cbn [blev] in FE. unfold ls_read. cbv zeta. rewrite <- IC.
      assert (ED : det_run (if hascb s then seen H ++ [DU v] else seen H) = if hascb s then fst (update (odet s) v) else odet s).
      { destruct (hascb s); [rewrite det_run_snoc, IO; reflexivity|now rewrite IO]. }
      rewrite ED.
      destruct (Z.gtb_spec v (lightThr s)) as [LT|LT].
      * destruct (hascb s) eqn:EH; [destruct (update (odet s) v)|]; cbn [fst litf darkT narrow odet hascb]; rewrite ?EH;
          (split; [split; [intros _; left; lia|reflexivity]|]); (split; [reflexivity|]); (split; [reflexivity|]); (split; [reflexivity|]); auto.
      * destruct (Z.leb_spec v (darkThr s)) as [DK|DK]; cbn [andb].
        -- assert (EDT : (if negb (narrow s) && (darkT s <? 65535) then u16 (darkT s + 1) else darkT s) = (if negb (narrow s) then Z.min 65535 (dark_minutes H + 1) else dark_minutes H)).
           { rewrite ID. destruct (narrow s); cbn [negb andb]; [reflexivity|]. destruct (Z.ltb_spec (dark_minutes H) 65535).
             - rewrite u16_id by lia. lia.
             - lia. }
           assert (NZ : narrow s = true -> (if negb (narrow s) && (darkT s <? 65535) then u16 (darkT s + 1) else darkT s) = 0).
           { intros E. rewrite E. cbn [negb andb]. auto. }
           destruct (hascb s) eqn:EH; [destruct (update (odet s) v)|]; cbn [fst litf darkT narrow odet hascb]; rewrite ?EH;
             (split; [split; [discriminate|intros [K|[_ K]]; lia]|]); (split; [exact EDT|]); (split; [discriminate|]);
             (split; [exact NZ|]); auto.
        -- destruct (hascb s) eqn:EH; [destruct (update (odet s) v)|]; cbn [fst litf darkT narrow odet hascb]; rewrite ?EH;
             (split; [rewrite IL; split; [intros K; right; split; [exact K|lia]|intros [K|[K _]]; [lia|exact K]]|]);
             (split; [exact ID|]); (split; [exact IZ|]); (split; [exact IN|]); auto.
    + cbn [blev] in FE. destruct FE as (B1 & B2 & B3). unfold ls_typ.
      pose proof (recompute_ok s m mn mx sn B1 B2 B3) as R.
      destruct (recompute s m mn mx sn) as [[[l dk] nr] dt]. destruct R as (_ & _ & _ & ->).
      cbn [fst litf darkT narrow odet hascb].
      split; [exact IL|]. split; [rewrite ID; reflexivity|].
      split; [intros K; destruct nr; auto|]. split; [intros ->; reflexivity|].
      split; [rewrite det_run_snoc, IO; reflexivity|]. auto.
    + cbn [fst litf darkT narrow odet hascb ls_cb]. auto 10.
    + unfold ls_reset. cbn. repeat split; try discriminate. contradiction.
Qed.

Theorem light_lit_iff H : Forall blev H -> isRoomLit (ls_run H) = true <-> last_lit H /\ narrow (ls_run H) = false.
Proof.
  intros F. destruct (rep_run H F) as (L & _). unfold isRoomLit. rewrite Bool.andb_true_iff, L, Bool.negb_true_iff. reflexivity.
Qed.
Theorem light_dark_iff H : Forall blev H -> isRoomDark (ls_run H) = true <-> ~ last_lit H /\ narrow (ls_run H) = false.
Proof.
  intros F. destruct (rep_run H F) as (L & _). unfold isRoomDark. rewrite Bool.andb_true_iff, <- L, !Bool.negb_true_iff.
  rewrite Bool.not_true_iff_false. reflexivity.
Qed.
(** Never both lit and dark; dark minutes are only reported in a dark room. *)
Theorem light_never_both H : Forall blev H ->
  ~ (isRoomLit (ls_run H) = true /\ isRoomDark (ls_run H) = true) /\
  (getDarkMinutes (ls_run H) > 0 -> isRoomDark (ls_run H) = true).
Proof.
  intros F. split.
  - unfold isRoomLit, isRoomDark. destruct (litf _), (narrow _); cbn; intros [? ?]; discriminate.
  - destruct (rep_run H F) as (_ & _ & Z1 & Z2 & _). unfold getDarkMinutes, isRoomDark. intros K.
    destruct (litf _); [rewrite Z1 in K by reflexivity; lia|]. destruct (narrow _); [rewrite Z2 in K by reflexivity; lia|]. reflexivity.
Qed.
(** getDarkMinutes() counts dark readings since the last lit one, without wrapping. *)
Theorem light_dark_minutes H : Forall blev H -> getDarkMinutes (ls_run H) = dark_minutes H.
Proof. intros F. apply (rep_run H F). Qed.
(** k dark readings in a row add k to the count, up to 65535. *)
Theorem light_dark_run H vs : Forall blev H -> Forall (fun v => 0 <= v <= darkThr (ls_run H)) vs -> narrow (ls_run H) = false ->
  getDarkMinutes (ls_run (H ++ map LRead vs)) = Z.min 65535 (getDarkMinutes (ls_run H) + Zlen vs).
Proof.
  intros F FV NR. pose proof (thr_ok_run H F) as TH. unfold thr_ok in TH.
  assert (G : forall n, darkThr (ls_run (H ++ map LRead (firstn n vs))) = darkThr (ls_run H) /\ lightThr (ls_run (H ++ map LRead (firstn n vs))) = lightThr (ls_run H) /\ narrow (ls_run (H ++ map LRead (firstn n vs))) = false).
  { intros n. generalize (firstn n vs). intros l. induction l as [|x l IH] using rev_ind.
    - cbn [map]. rewrite app_nil_r. auto.
    - rewrite map_app, app_assoc. cbn [map]. rewrite ls_run_snoc. destruct IH as (I1 & I2 & I3). rewrite <- I1, <- I2, <- I3 at 1.
      set (s := ls_run (H ++ map LRead l)) in *. clearbody s. cbn [ls_step]. unfold ls_read. cbv zeta.
      destruct (x >? lightThr s), (x <=? darkThr s), (hascb s); try destruct (update _ _); cbn [fst darkThr lightThr narrow]; auto. }
  induction vs as [|x l IH] using rev_ind.
  - cbn [map]. rewrite app_nil_r. change (Zlen []) with 0. rewrite light_dark_minutes by exact F. unfold dark_minutes. pose proof (rdark_range (rev H)). lia.
  - apply Forall_app in FV as [FV FX]. apply Forall_inv in FX.
    assert (G' : forall n, darkThr (ls_run (H ++ map LRead (firstn n l))) = darkThr (ls_run H) /\ lightThr (ls_run (H ++ map LRead (firstn n l))) = lightThr (ls_run H) /\ narrow (ls_run (H ++ map LRead (firstn n l))) = false).
    { intros n. specialize (G (Nat.min n (length l))). rewrite firstn_app in G.
      replace (Nat.min n (length l) - length l)%nat with 0%nat in G by lia. rewrite firstn_O, app_nil_r in G.
      replace (firstn (Nat.min n (length l)) l) with (firstn n l) in G; [exact G|].
      destruct (Nat.le_gt_cases n (length l)); [now rewrite Nat.min_l by lia|]. rewrite Nat.min_r by lia. rewrite !firstn_all2 by lia. reflexivity. }
    specialize (IH FV G'). specialize (G' (length l)). rewrite firstn_all in G'. destruct G' as (I1 & I2 & I3).
    rewrite map_app, app_assoc. cbn [map]. rewrite ls_run_snoc.
    replace (Zlen (l ++ [x])) with (Zlen l + 1) by (unfold Zlen; rewrite app_length; cbn [length]; lia).
    assert (Zlen l >= 0) by (unfold Zlen; lia).
    unfold getDarkMinutes in *. set (s := ls_run (H ++ map LRead l)) in *. cbn [ls_step]. unfold ls_read. cbv zeta.
    rewrite I1, I2, I3, IH. cbn [negb andb].
    assert (E : x >? lightThr (ls_run H) = false) by (rewrite Z.gtb_ltb; apply Z.ltb_ge; lia). rewrite E.
    rewrite (proj2 (Z.leb_le x _)) by lia.
    pose proof (rdark_range (rev H)) as DR. pose proof (light_dark_minutes H F) as LD. unfold getDarkMinutes, dark_minutes in LD.
    destruct (Z.ltb_spec (Z.min 65535 (darkT (ls_run H) + Zlen l)) 65535);
      [rewrite u16_id by lia|]; (destruct (hascb s); [destruct (update _ _)|]); cbn [fst darkT]; lia.
Qed.

(** The callback on a reading: 'probable' exactly when the detector says so from the readings it has been shown,
    'weak' exactly when it says weak and the room is definitely lit; none while no callback is set. *)
Theorem light_callback H v : Forall blev H -> 0 <= v <= 254 ->
  snd (ls_step (ls_run H) (LRead v)) =
    if callback_set H then
      match det_out (seen H) v with
      | OccProbable => Some true
      | OccWeak => if v >? lightThr (ls_run H) then Some false else None
      | _ => None
      end
    else None.
Proof.
  intros F B. destruct (rep_run H F) as (_ & _ & _ & _ & IO & IC). cbn [ls_step]. unfold ls_read, det_out. cbv zeta. rewrite <- IO, <- IC.
  assert (FS : Forall bdev (seen H)).
  { clear IO IC. induction H as [|e H IH] using rev_ind; [constructor|]. apply Forall_app in F as [F FE]. apply Forall_inv in FE. rewrite seen_snoc.
    destruct e; [destruct (callback_set H)|..]; auto; apply Forall_snoc; auto; cbn in *; unfold byte in *; lia. }
  pose proof (light_occ_never_strong (seen H) v FS ltac:(unfold byte; lia)) as NS. unfold det_out in NS. rewrite <- IO in NS.
  destruct (v >? lightThr (ls_run H)); [|destruct (v <=? darkThr (ls_run H))];
    (destruct (hascb (ls_run H)); [destruct (update (odet (ls_run H)) v) as [d o]; cbn [snd] in *; destruct o; congruence|reflexivity]).
Qed.
(** Other events make no callback. *)
Theorem light_callback_only_read s e : (forall v, e <> LRead v) -> snd (ls_step s e) = None.
Proof. intros N. destruct e as [v| | |]; [destruct (N v eq_refl)|..]; reflexivity. Qed.

(** After a reading, the room is "very dark" exactly when that reading is at most 4 and the range is usable; the
    change of any typical values or of the callback in between does not affect the reading remembered. *)
Theorem light_very_dark H v E : Forall (fun e => match e with LTyp _ _ _ _ | LCb _ => True | _ => False end) E ->
  let s := ls_run ((H ++ [LRead v]) ++ E) in
  lvalue s = v /\ (isRoomVeryDark s = true <-> v <= 4 /\ narrow s = false).
Proof.
  intros F. cbv zeta. assert (V : lvalue (ls_run ((H ++ [LRead v]) ++ E)) = v).
  { induction E as [|e E IH] using rev_ind.
    - rewrite app_nil_r, ls_run_snoc. cbn [ls_step]. unfold ls_read. cbv zeta.
      destruct (v >? _); [|destruct (v <=? _)]; (destruct (hascb _); [destruct (update _ v)|]); reflexivity.
    - apply Forall_app in F as [F FE]. apply Forall_inv in FE. rewrite app_assoc, ls_run_snoc. specialize (IH F).
      set (s := ls_run _) in *. clearbody s. destruct e as [x|m mn mx sn|b|]; try contradiction; cbn [ls_step fst]; [|exact IH].
      unfold ls_typ. destruct (recompute s m mn mx sn) as [[[l dk] nr] dt]. exact IH. }
  split; [exact V|]. unfold isRoomVeryDark. rewrite V, Bool.andb_true_iff, Bool.negb_true_iff, Z.leb_le. reflexivity.
Qed.
Example light_very_dark_case :
  isRoomVeryDark (ls_run (([] ++ [LRead 4]) ++ [LTyp 50 2 200 false])) = true /\ isRoomVeryDark (ls_run ([] ++ [LRead 5])) = false.
Proof. split; vm_compute; reflexivity. Qed.

Example light_case :
  let H := [LTyp 50 2 200 false; LRead 1; LRead 3; LRead 150] in
  Forall blev H /\ isRoomLit (ls_run H) = true /\ getDarkMinutes (ls_run (firstn 3 H)) = 2 /\
  lightThr (ls_run H) = 20 /\ darkThr (ls_run H) = 8 /\ last_lit H /\
  snd (ls_step (ls_run (LCb true :: repeat (LRead 30) 5)) (LRead 60)) = Some true.
Proof.
  cbv zeta. split; [repeat constructor; cbn; unfold byte; lia|]. split; [vm_compute; reflexivity|].
  split; [vm_compute; reflexivity|]. split; [vm_compute; reflexivity|]. split; [vm_compute; reflexivity|]. split; [|vm_compute; reflexivity].
  exists [LTyp 50 2 200 false; LRead 1; LRead 3], 150, []. split; [reflexivity|]. split; [vm_compute; reflexivity|].
  intros A e B E. destruct A; discriminate.
Qed.
