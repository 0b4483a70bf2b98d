(** The ambient light sensor and its occupancy detector, over whole histories. *)
From Verif Require Import Base LightModel.

(** * The detector: specification *)
(** Level given by the last update; 254 before any. *)
Fixpoint rlevel (r : list dev) : Z :=
  match r with [] => 254 | DU l :: _ => l | DT _ _ _ :: t => rlevel t end.
(** Number of consecutive latest updates that each changed the level by less than 4, counted up to 255. *)
Fixpoint rsteady (r : list dev) : Z :=
  match r with
  | [] => 0
  | DU l :: t => if Z.abs (l - rlevel t) <? 4 then Z.min 255 (1 + rsteady t) else 0
  | DT _ _ _ :: t => rsteady t
  end.
(** Mean, minimum and maximum last set; 255 is 'unknown'. *)
Fixpoint rtyp (r : list dev) : Z * Z * Z :=
  match r with [] => (255, 255, 255) | DT m mn mx :: _ => (m, mn, mx) | DU _ :: t => rtyp t end.
Definition level (H : list dev) := rlevel (rev H).
Definition steady_ticks (H : list dev) := rsteady (rev H).
Definition mean_of (H : list dev) := fst (fst (rtyp (rev H))).
Definition floor_of (H : list dev) := let m := snd (fst (rtyp (rev H))) in if m =? 255 then 4 else m.
Definition ceil_of (H : list dev) := let m := snd (rtyp (rev H)) in if m =? 255 then 251 else m.
(** The rise required: half the distance of the mean for this time of day above the floor, 8 if there is no such mean. *)
Definition rise_needed (H : list dev) :=
  if (mean_of H =? 255) || (mean_of H <=? floor_of H) then 8 else (mean_of H - floor_of H) / 2.
(** A sudden rise after at least three steady ticks. *)
Definition light_on (H : list dev) (l : Z) : Prop :=
  l - level H >= 4 /\ l - level H >= rise_needed H /\ steady_ticks H >= 3.
(** The room was very dark and had been steady for 255 ticks or more. *)
Definition long_dark (H : list dev) : Prop := level H <= floor_of H /\ steady_ticks H = 255.
(** A light-on from long dark is waiting for confirmation: no substantial fall since, and no
    non-falling update since that made three steady ticks. *)
Definition awaiting (H : list dev) : Prop :=
  exists H1 l H2, H = H1 ++ DU l :: H2 /\ light_on H1 l /\ long_dark H1 /\
    forall A x B, H2 = A ++ DU x :: B ->
      level (H1 ++ DU l :: A) - x < 4 /\
      (x >= level (H1 ++ DU l :: A) -> steady_ticks ((H1 ++ DU l :: A) ++ [DU x]) < 3).
(** Steady light that looks like habitual artificial lighting. *)
Definition artificial (H : list dev) (l : Z) : Prop :=
  let mn := floor_of H in let mx := ceil_of H in let mean := mean_of H in
  steady_ticks (H ++ [DU l]) >= 30 /\ mn < mean /\ mean < mx /\ mx - mn > 8 /\
  mn + (mx - mn) / 8 < l /\ l < mx - (mx - mn) / 2 /\
  Z.abs (l - mean) <= Z.min (mean - mn) (mx - mean) / 2.

Definition bdev (e : dev) : Prop := match e with DU l => byte l | DT m mn mx => byte m /\ byte mn /\ byte mx end.

(** * The model keeps exactly these quantities *)
Lemma level_snoc_U H l : level (H ++ [DU l]) = l.
Proof. unfold level. now rewrite rev_unit. Qed.
Lemma level_snoc_T H a b c : level (H ++ [DT a b c]) = level H.
Proof. unfold level. now rewrite rev_unit. Qed.
Lemma steady_snoc_U H l : steady_ticks (H ++ [DU l]) = if Z.abs (l - level H) <? 4 then Z.min 255 (1 + steady_ticks H) else 0.
Proof. unfold steady_ticks, level. now rewrite rev_unit. Qed.
Lemma steady_snoc_T H a b c : steady_ticks (H ++ [DT a b c]) = steady_ticks H.
Proof. unfold steady_ticks. now rewrite rev_unit. Qed.
Lemma rsteady_range r : 0 <= rsteady r <= 255.
Proof. induction r as [|[l|] r IH]; cbn [rsteady]; try lia. destruct (_ <? _); lia. Qed.
Lemma steady_range H : 0 <= steady_ticks H <= 255.
Proof. apply rsteady_range. Qed.
Lemma rlevel_byte r : Forall bdev r -> byte (rlevel r).
Proof. induction 1 as [|[l|a b c] r Hx Hr IH]; cbn [rlevel]; [red; lia|exact Hx|exact IH]. Qed.
Lemma level_byte H : Forall bdev H -> byte (level H).
Proof. intros F. apply rlevel_byte. now apply Forall_rev. Qed.
Lemma rtyp_byte r : Forall bdev r -> byte (fst (fst (rtyp r))) /\ byte (snd (fst (rtyp r))) /\ byte (snd (rtyp r)).
Proof. induction 1 as [|[l|a b c] r Hx Hr IH]; cbn [rtyp fst snd]; [unfold byte; lia|exact IH|exact Hx]. Qed.

Lemma awaiting_nil : ~ awaiting [].
Proof. intros (H1 & l & H2 & E & _). destruct H1; discriminate. Qed.
Lemma snoc_split {A} (H : list A) (e : A) H1 x H2 :
  H ++ [e] = H1 ++ x :: H2 -> (H2 = [] /\ H1 = H /\ x = e) \/ (exists H2', H2 = H2' ++ [e] /\ H = H1 ++ x :: H2').
Proof.
  intros E. destruct H2 as [|y t] using rev_ind.
  - left. apply app_inj_tail in E. destruct E; auto.
  - clear IHt. right. exists t. rewrite app_comm_cons, app_assoc in E. apply app_inj_tail in E as [-> ->]. auto.
Qed.

Lemma awaiting_T H a b c : awaiting (H ++ [DT a b c]) <-> awaiting H.
Proof.
  split.
  - intros (H1 & l & H2 & E & L & D & W). apply snoc_split in E as [(_ & _ & E)|(H2' & -> & ->)]; [discriminate|].
    exists H1, l, H2'. split; [reflexivity|]. split; [exact L|]. split; [exact D|].
    intros A x B E. apply (W A x (B ++ [DT a b c])). rewrite E, <- app_assoc. reflexivity.
  - intros (H1 & l & H2 & -> & L & D & W). exists H1, l, (H2 ++ [DT a b c]).
    split; [now rewrite <- app_assoc|]. split; [exact L|]. split; [exact D|].
    intros A x B E. apply snoc_split in E as [(_ & _ & E)|(B' & -> & ->)]; [discriminate|]. apply (W A x B' eq_refl).
Qed.
Lemma awaiting_U H l : awaiting (H ++ [DU l]) <->
  (light_on H l /\ long_dark H) \/
  (awaiting H /\ level H - l < 4 /\ (l >= level H -> steady_ticks (H ++ [DU l]) < 3)).
Proof.
  split.
  - intros (H1 & y & H2 & E & L & D & W). apply snoc_split in E as [(-> & -> & E)|(H2' & -> & ->)].
    + injection E as ->. left. auto.
    + right. split; [|exact (W H2' l [] eq_refl)].
      exists H1, y, H2'. split; [reflexivity|]. split; [exact L|]. split; [exact D|].
      intros A x B E. apply (W A x (B ++ [DU l])). rewrite E, <- app_assoc. reflexivity.
  - intros [[L D]|[(H1 & y & H2 & -> & L & D & W) [W1 W2]]].
    + exists H, l, []. split; [reflexivity|]. split; [exact L|]. split; [exact D|].
      intros A x B E. destruct A; discriminate.
    + exists H1, y, (H2 ++ [DU l]). split; [now rewrite <- app_assoc|]. split; [exact L|]. split; [exact D|].
      intros A x B E. apply snoc_split in E as [(-> & -> & E)|(B' & -> & ->)].
      * injection E as ->. auto.
      * apply (W A x B' eq_refl).
Qed.

(** Invariant relating the detector state to the history. *)
Definition det_ok (d : det) (H : list dev) : Prop :=
  prevL d = level H /\ steadyT d = steady_ticks H /\
  (meanFF d, minFF d, maxFF d) = rtyp (rev H) /\ (pending d = true <-> awaiting H).

Lemma min_use_ok d H : det_ok d H -> min_use d = floor_of H.
Proof. intros (_ & _ & T & _). unfold min_use, floor_of. rewrite <- T. reflexivity. Qed.
Lemma max_use_ok d H : det_ok d H -> max_use d = ceil_of H.
Proof. intros (_ & _ & T & _). unfold max_use, ceil_of. rewrite <- T. reflexivity. Qed.
Lemma mean_ok d H : det_ok d H -> meanFF d = mean_of H.
Proof. intros (_ & _ & T & _). unfold mean_of. rewrite <- T. reflexivity. Qed.
Lemma floor_byte H : Forall bdev H -> byte (floor_of H).
Proof.
  intros F. apply Forall_rev in F. destruct (rtyp_byte _ F) as (_ & B & _). unfold floor_of.
  cbv zeta. destruct (_ =? 255); [red; lia|exact B].
Qed.
Lemma ceil_byte H : Forall bdev H -> byte (ceil_of H).
Proof.
  intros F. apply Forall_rev in F. destruct (rtyp_byte _ F) as (_ & _ & B). unfold ceil_of.
  cbv zeta. destruct (_ =? 255); [red; lia|exact B].
Qed.
Lemma mean_byte H : Forall bdev H -> byte (mean_of H).
Proof. intros F. apply Forall_rev in F. destruct (rtyp_byte _ F) as (B & _ & _). exact B. Qed.
Lemma min_rise_ok d H : det_ok d H -> Forall bdev H -> min_rise d = rise_needed H.
Proof.
  intros O F. unfold min_rise, rise_needed. rewrite (mean_ok _ _ O), (min_use_ok _ _ O).
  pose proof (mean_byte _ F) as BM. pose proof (floor_byte _ F) as BF. unfold byte in *.
  destruct (mean_of H =? 255); cbn [negb andb orb]; [reflexivity|].
  destruct (Z.gtb_spec (mean_of H) (floor_of H)), (Z.leb_spec (mean_of H) (floor_of H)); try lia; [|reflexivity].
  rewrite Z.shiftr_div_pow2 by lia. change (2 ^ 1) with 2. apply u8_id.
  assert (0 <= (mean_of H - floor_of H) / 2 <= mean_of H - floor_of H) by (split; [apply Z.div_pos; lia|apply Z.div_le_upper_bound; lia]).
  red; lia.
Qed.
Lemma weak_ok d H l : det_ok d H -> Forall bdev H -> byte l -> floor_of H < mean_of H < ceil_of H ->
  weak_now d l = true <->
  (ceil_of H - floor_of H > 8 /\ floor_of H + (ceil_of H - floor_of H) / 8 < l /\
   l < ceil_of H - (ceil_of H - floor_of H) / 2 /\
   Z.abs (l - mean_of H) <= Z.min (mean_of H - floor_of H) (ceil_of H - mean_of H) / 2).
Proof.
  intros O F BL Hm. unfold weak_now. rewrite (max_use_ok _ _ O), (min_use_ok _ _ O), (mean_ok _ _ O).
  pose proof (floor_byte _ F) as B1. pose proof (ceil_byte _ F) as B2. unfold byte in *.
  set (mn := floor_of H) in *. set (mx := ceil_of H) in *. set (mean := mean_of H) in *.
  clearbody mn mx mean. clear O F.
  rewrite (u8_id (mx - mn)) by (red; lia). change (2 * EPS) with 8.
  rewrite !Z.shiftr_div_pow2 by lia. change (2 ^ 1) with 2. change (2 ^ 2) with 4.
  rewrite Z.div_div by lia. change (2 * 4) with 8.
  assert (D8 : 0 <= (mx - mn) / 8 <= mx - mn) by (split; [apply Z.div_pos; lia|apply Z.div_le_upper_bound; lia]).
  assert (D2 : 0 <= (mx - mn) / 2 <= mx - mn) by (split; [apply Z.div_pos; lia|apply Z.div_le_upper_bound; lia]).
  assert (DM : 0 <= Z.min (mean - mn) (mx - mean) / 2 <= Z.min (mean - mn) (mx - mean))
    by (split; [apply Z.div_pos; lia|apply Z.div_le_upper_bound; lia]).
  rewrite (u8_id (mn + _)), (u8_id (mx - _)), (u8_id (_ / 2)) by (red; lia).
  assert (EA : absdiff l mean = Z.abs (l - mean)) by (unfold absdiff; destruct (Z.ltb_spec l mean); lia).
  rewrite EA. destruct (Z.gtb_spec (mx - mn) 8).
  - rewrite !Bool.andb_true_iff, Z.gtb_lt, Z.ltb_lt, Z.leb_le. split; intros K; decompose [and] K; repeat split; lia.
  - split; [discriminate|]. intros (K & _). lia.
Qed.

(** * One update *)
(** What an update returns, in terms of the history alone. *)
Definition spec_probable (H : list dev) (l : Z) : Prop :=
  (awaiting H /\ l >= level H /\ steady_ticks (H ++ [DU l]) >= 3) \/
  (~ awaiting H /\ light_on H l /\ ~ long_dark H).
Definition spec_weak (H : list dev) (l : Z) : Prop :=
  ~ awaiting H /\ l >= level H /\ ((light_on H l /\ long_dark H) \/ (~ (light_on H l) /\ artificial H l)).

Lemma update_ok d H l : det_ok d H -> Forall bdev H -> byte l ->
  det_ok (fst (update d l)) (H ++ [DU l]) /\
  (snd (update d l) = OccProbable <-> spec_probable H l) /\
  (snd (update d l) = OccWeak <-> spec_weak H l) /\
  snd (update d l) <> OccStrong.
Proof.
  intros O F BL. pose proof (level_byte _ F) as BV. pose proof (steady_range H) as SR.
  pose proof (min_rise_ok _ _ O F) as MR. pose proof (min_use_ok _ _ O) as MU.
  pose proof (max_use_ok _ _ O) as MX. pose proof (mean_ok _ _ O) as MM.
  pose proof (weak_ok _ _ l O F BL) as WK.
  destruct O as (EP & ES & ET & EA).
  assert (ET' : (meanFF d, minFF d, maxFF d) = rtyp (rev (H ++ [DU l]))) by (rewrite rev_unit; exact ET).
  unfold update, det_ok. rewrite EP, ES, level_snoc_U, awaiting_U, steady_snoc_U.
  unfold spec_probable, spec_weak, artificial, light_on, long_dark. rewrite steady_snoc_U.
  unfold byte in *. change EPS with 4.
  destruct (Z.ltb_spec l (level H)) as [LT|GE].
  - destruct (Z.geb_spec (level H - l) 4) as [FA|FA]; cbn [fst snd prevL steadyT meanFF minFF maxFF pending].
    + rewrite (proj2 (Z.ltb_ge (Z.abs (l - level H)) 4)) by lia.
      split; [|split; [|split]]; [|split; [discriminate|]|split; [discriminate|]|discriminate].
      * split; [reflexivity|]. split; [reflexivity|]. split; [exact ET'|].
        split; [discriminate|]. intros [K|K]; lia.
      * intros [(_ & K & _)|(_ & (K & _) & _)]; lia.
      * intros (_ & K & _); lia.
    + rewrite (proj2 (Z.ltb_lt (Z.abs (l - level H)) 4)) by lia.
      assert (EST : (if steady_ticks H <? 255 then u8 (steady_ticks H + 1) else steady_ticks H) = Z.min 255 (1 + steady_ticks H)).
      { destruct (Z.ltb_spec (steady_ticks H) 255); [rewrite u8_id by (red; lia)|]; lia. }
      split; [|split; [|split]]; [|split; [discriminate|]|split; [discriminate|]|discriminate].
      * split; [reflexivity|]. split; [exact EST|]. split; [exact ET'|].
        rewrite EA. split; [intros K; right; repeat split; [exact K|lia|lia]|].
        intros [K|(K & _)]; [lia|exact K].
      * intros [(_ & K & _)|(_ & (K & _) & _)]; lia.
      * intros (_ & K & _); lia.
  - cbv zeta. rewrite (u8_id (l - level H)) by (red; lia).
    rewrite MM in ET'. rewrite MR, MU, MX, MM. rewrite Z.abs_eq by lia. change ON_TICKS with 3. change BEFORE_TICKS with 3. change ART_TICKS with 30.
    assert (EST : (if steady_ticks H <? 255 then u8 (steady_ticks H + 1) else steady_ticks H) = Z.min 255 (1 + steady_ticks H)).
    { destruct (Z.ltb_spec (steady_ticks H) 255); [rewrite u8_id by (red; lia)|]; lia. }
    rewrite EST.
    destruct (Z.ltb_spec (l - level H) 4) as [ST|ST]; cbn [negb andb].
    + (* steady *)
      destruct (pending d) eqn:PD.
      * assert (AW : awaiting H) by (apply EA; reflexivity).
        destruct (Z.geb_spec (Z.min 255 (1 + steady_ticks H)) 3) as [G|G];
          cbn [fst snd prevL steadyT meanFF minFF maxFF pending].
        -- split; [|split; [|split]]; [|split; [|reflexivity]|split; [discriminate|]|discriminate].
           ++ split; [reflexivity|]. split; [reflexivity|]. split; [exact ET'|]. split; [discriminate|]. intros [K|(_ & _ & K)]; lia.
           ++ intros _. left. repeat split; [exact AW|lia|lia].
           ++ intros (K & _). contradiction.
        -- split; [|split; [|split]]; [|split; [discriminate|]|split; [discriminate|]|discriminate].
           ++ split; [reflexivity|]. split; [reflexivity|]. split; [exact ET'|]. split; [|reflexivity]. intros _. right.
              split; [exact AW|]. lia.
           ++ intros [(_ & _ & K)|(K & _)]; [lia|contradiction].
           ++ intros (K & _). contradiction.
      * assert (AW : ~ awaiting H) by (intros K; apply EA in K; discriminate).
        assert (NW : false = true <-> (l - level H >= 4 /\ l - level H >= rise_needed H /\ steady_ticks H >= 3) /\ level H <= floor_of H /\ steady_ticks H = 255 \/ awaiting H /\ level H - l < 4 /\ (l >= level H -> Z.min 255 (1 + steady_ticks H) < 3)).
        { split; [discriminate|]. intros [K|(K & _)]; [lia|contradiction]. }
        assert (NP : ~ ((awaiting H /\ l >= level H /\ Z.min 255 (1 + steady_ticks H) >= 3) \/ (~ awaiting H /\ (l - level H >= 4 /\ l - level H >= rise_needed H /\ steady_ticks H >= 3) /\ ~ (level H <= floor_of H /\ steady_ticks H = 255)))).
        { intros [(K & _)|(_ & K & _)]; [contradiction|lia]. }
        destruct (Z.geb_spec (Z.min 255 (1 + steady_ticks H)) 30) as [G|G]; cbn [andb].
        -- destruct (Z.ltb_spec (floor_of H) (mean_of H)); cbn [andb];
             [destruct (Z.ltb_spec (mean_of H) (ceil_of H)); cbn [andb]|].
           ++ specialize (WK ltac:(lia)).
              destruct (weak_now d l) eqn:EW; cbn [fst snd prevL steadyT meanFF minFF maxFF pending].
              ** pose proof (proj1 WK eq_refl) as WK'.
                 split; [|split; [|split]]; [|split; [discriminate|intros K; contradiction]|split; [|reflexivity]|discriminate].
                 --- repeat split; auto; try exact (proj1 NW); exact (proj2 NW).
                 --- intros _. split; [exact AW|]. split; [lia|]. right. clear NW NP.
                     split; [lia|]. split; [lia|]. lia.
              ** split; [|split; [|split]]; [|split; [discriminate|intros K; contradiction]|split; [discriminate|]|discriminate].
                 --- repeat split; auto; try exact (proj1 NW); exact (proj2 NW).
                 --- intros (_ & _ & [[K _]|(_ & K)]); [lia|]. exfalso.
                     assert (false = true) by (apply WK; clear NW NP WK; lia). discriminate.
           ++ cbn [fst snd prevL steadyT meanFF minFF maxFF pending].
              split; [|split; [|split]]; [|split; [discriminate|intros K; contradiction]|split; [discriminate|]|discriminate].
              ** repeat split; auto; try exact (proj1 NW); exact (proj2 NW).
              ** intros (_ & _ & [[K _]|(_ & K)]); lia.
           ++ cbn [fst snd prevL steadyT meanFF minFF maxFF pending].
              split; [|split; [|split]]; [|split; [discriminate|intros K; contradiction]|split; [discriminate|]|discriminate].
              ** repeat split; auto; try exact (proj1 NW); exact (proj2 NW).
              ** intros (_ & _ & [[K _]|(_ & K)]); lia.
        -- cbn [fst snd prevL steadyT meanFF minFF maxFF pending].
           split; [|split; [|split]]; [|split; [discriminate|intros K; contradiction]|split; [discriminate|]|discriminate].
           ++ repeat split; auto; try exact (proj1 NW); exact (proj2 NW).
           ++ intros (_ & _ & [[K _]|(_ & K)]); lia.
    + (* rise of at least 4 *)
      clear WK. change (0 >=? 3) with false. change (0 >=? 30) with false. cbn [andb].
      destruct (pending d) eqn:PD.
      * assert (AW : awaiting H) by (apply EA; reflexivity).
        cbn [fst snd prevL steadyT meanFF minFF maxFF pending].
        split; [|split; [|split]]; [|split; [discriminate|]|split; [discriminate|]|discriminate].
        -- split; [reflexivity|]. split; [reflexivity|]. split; [exact ET'|]. split; [|reflexivity]. intros _. right.
           split; [exact AW|]. lia.
        -- intros [(_ & _ & K)|(K & _)]; [lia|contradiction].
        -- intros (K & _). contradiction.
      * assert (AW : ~ awaiting H) by (intros K; apply EA in K; discriminate). clear EA.
        destruct (Z.geb_spec (steady_ticks H) 3) as [G|G].
        -- destruct (Z.geb_spec (l - level H) (rise_needed H)) as [R|R].
           ++ destruct (Z.gtb_spec (level H) (floor_of H)) as [D|D]; cbn [orb];
                [|destruct (Z.ltb_spec (steady_ticks H) 255) as [D2|D2]];
                cbn [fst snd prevL steadyT meanFF minFF maxFF pending];
                (split; [|split; [|split]]).
              ** split; [reflexivity|]. split; [reflexivity|]. split; [exact ET'|]. split; [discriminate|]. intros [K|(K & _)]; [lia|contradiction].
              ** split; [|reflexivity]. intros _. right. split; [exact AW|]. lia.
              ** split; [discriminate|]. intros (_ & _ & [(_ & K)|(K & _)]); lia.
              ** discriminate.
              ** split; [reflexivity|]. split; [reflexivity|]. split; [exact ET'|]. split; [discriminate|]. intros [K|(K & _)]; [lia|contradiction].
              ** split; [|reflexivity]. intros _. right. split; [exact AW|]. lia.
              ** split; [discriminate|]. intros (_ & _ & [(_ & K)|(K & _)]); lia.
              ** discriminate.
              ** split; [reflexivity|]. split; [reflexivity|]. split; [exact ET'|]. split; [|reflexivity]. intros _. left. lia.
              ** split; [discriminate|]. intros [(K & _)|(_ & _ & K)]; [contradiction|lia].
              ** split; [|reflexivity]. intros _. split; [exact AW|]. split; [lia|]. left. lia.
              ** discriminate.
           ++ cbn [fst snd prevL steadyT meanFF minFF maxFF pending]; (split; [|split; [|split]]).
              ** split; [reflexivity|]. split; [reflexivity|]. split; [exact ET'|]. split; [discriminate|]. intros [K|(K & _)]; [lia|contradiction].
              ** split; [discriminate|]. intros [(K & _)|(_ & K & _)]; [contradiction|lia].
              ** split; [discriminate|]. intros (_ & _ & [(K & _)|(_ & K & _)]); lia.
              ** discriminate.
        -- cbn [fst snd prevL steadyT meanFF minFF maxFF pending]; (split; [|split; [|split]]).
           ++ split; [reflexivity|]. split; [reflexivity|]. split; [exact ET'|]. split; [discriminate|]. intros [K|(K & _)]; [lia|contradiction].
           ++ split; [discriminate|]. intros [(K & _)|(_ & K & _)]; [contradiction|lia].
           ++ split; [discriminate|]. intros (_ & _ & [(K & _)|(_ & K & _)]); lia.
           ++ discriminate.
Qed.

Lemma det_ok_run H : Forall bdev H -> det_ok (det_run H) H.
Proof.
  induction H as [|e H IH] using rev_ind; intros F.
  - unfold det_ok. cbn. repeat split; try discriminate. intros K. destruct (awaiting_nil K).
  - apply Forall_app in F as [F FE]. apply Forall_inv in FE. specialize (IH F).
    unfold det_run. rewrite fold_left_app. cbn [fold_left]. fold (det_run H).
    destruct e as [l|a b c]; cbn [det_step].
    + apply update_ok; assumption.
    + destruct IH as (EP & ES & ET & EA). unfold det_ok, det_typ. cbn [prevL steadyT meanFF minFF maxFF pending].
      rewrite level_snoc_T, steady_snoc_T, awaiting_T, rev_unit. auto.
Qed.
