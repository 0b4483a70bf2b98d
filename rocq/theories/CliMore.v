(** CLI: node ID, time, privacy, statistics, house code, activity timer (C110-C114). *)
From Coq Require String.
Import String.StringSyntax.
From Verif Require Import Base EepromModel EepromProofs EepromProps AssocProps RtcModel RtcProps StatsModel StatsEeprom
  FhtModel FhtSyncModel CliModel CliProps CliCmds.

(** ** C110: the node ID *)
Definition good_id_byte (v : Z) : Prop := 128 <= v <= 254.

Lemma draw_spec rnds : Forall byte rnds ->
  match draw rnds with
  | Some (v, q) => good_id_byte v /\ (exists p, rnds = p ++ q) /\ Forall byte q
  | None => Forall (fun r => Z.land r 127 = 127) rnds
  end.
Proof.
  assert (HB : below 256 (fun r => let v := Z.lor 128 r in
     (if 255 =? v then Z.land r 127 =? 127 else (128 <=? v) && (v <=? 254))) = true) by (vm_compute; reflexivity).
  induction 1 as [|r q Hr Hq IH]; cbn [draw]; [constructor|]. cbv zeta.
  pose proof (below_spec _ _ HB r Hr) as H1. cbv beta zeta in H1.
  destruct (255 =? Z.lor 128 r).
  - destruct (draw q) as [[v q']|]; [|constructor; [lia|exact IH]].
    destruct IH as (H2 & (p & ->) & H3). split; [exact H2|]. split; [exists (r :: p); reflexivity|exact H3].
  - split; [unfold good_id_byte; lia|]. split; [exists [r]; reflexivity|exact Hq].
Qed.

(** What the creation loop leaves when it stops at byte [j] (8: never). *)
Lemma good_valid v : byte v -> validIDByte v = true <-> good_id_byte v.
Proof. apply valid_id_spec. Qed.

Lemma ensure_loop_spec : forall n force i rnds s f, 0 <= i -> Forall byte rnds ->
  (forall q, 20 + i <= q < 20 + i + Z.of_nat n -> byte (mem s q)) ->
  let '(s', o) := ensure_loop force i n rnds s f in
  (* nothing else changes, at whatever point it stops *)
  (forall q, q < 20 + i \/ 20 + i + Z.of_nat n <= q -> mem s' q = mem s q) /\
  (* every byte is either untouched or a fresh good one *)
  (forall q, 20 + i <= q < 20 + i + Z.of_nat n -> mem s' q = mem s q \/
     (good_id_byte (mem s' q) /\ (force = true \/ mem s q = 255))) /\
  match o with
  | Some (Some ok, _) =>
      (ok = true -> forall q, 20 + i <= q < 20 + i + Z.of_nat n -> good_id_byte (mem s' q)) /\
      (ok = false -> exists q, 20 + i <= q < 20 + i + Z.of_nat n /\ ~ good_id_byte (mem s' q) /\ mem s' q = mem s q)
  | _ => True
  end.
Proof.
  induction n as [|n IH]; intros force i rnds s f Hi HR HB; cbn [ensure_loop].
  { unfold ret. split; [auto|]. split; [intros; lia|]. split; [intros _ q Hq; lia|discriminate]. }
  unfold mbind at 1. unfold ee_read at 1. unfold ID_START.
  assert (HBi : byte (mem s (20 + i))) by (apply HB; lia).
  (* the state after the byte has been dealt with *)
  assert (STEP : forall s1 f1 q, Forall byte q ->
    (forall a, a <> 20 + i -> mem s1 a = mem s a) ->
    (mem s1 (20 + i) = mem s (20 + i) \/ (good_id_byte (mem s1 (20 + i)) /\ (force = true \/ mem s (20 + i) = 255))) ->
    let '(s', o) := (run v2 <- ee_read (20 + i); (if negb (validIDByte v2) then ret (Some false) else ensure_loop force (i + 1) n q)) s1 f1 in
    (forall q, q < 20 + i \/ 20 + i + Z.of_nat (S n) <= q -> mem s' q = mem s q) /\
    (forall q, 20 + i <= q < 20 + i + Z.of_nat (S n) -> mem s' q = mem s q \/
       (good_id_byte (mem s' q) /\ (force = true \/ mem s q = 255))) /\
    match o with
    | Some (Some ok, _) =>
        (ok = true -> forall q, 20 + i <= q < 20 + i + Z.of_nat (S n) -> good_id_byte (mem s' q)) /\
        (ok = false -> exists q, 20 + i <= q < 20 + i + Z.of_nat (S n) /\ ~ good_id_byte (mem s' q) /\ mem s' q = mem s q)
    | _ => True
    end).
  { intros s1 f1 q Hq HO HN. unfold mbind at 1. unfold ee_read at 1.
    assert (HB1 : byte (mem s1 (20 + i))).
    { destruct HN as [-> | [HN _]]; [exact HBi|unfold good_id_byte in HN; red; lia]. }
    destruct (validIDByte (mem s1 (20 + i))) eqn:EV; cbn [negb].
    - apply (good_valid _ HB1) in EV.
      specialize (IH force (i + 1) q s1 f1 ltac:(lia) Hq).
      destruct (ensure_loop force (i + 1) n q s1 f1) as [s' o].
      destruct IH as (I1 & I2 & I3).
      { intros a Ha. rewrite HO by lia. apply HB. lia. }
      assert (H20 : mem s' (20 + i) = mem s1 (20 + i)) by (apply I1; lia).
      split; [intros a Ha; rewrite I1 by lia; apply HO; lia|]. split.
      + intros a Ha. destruct (Z.eq_dec a (20 + i)) as [-> | Hne].
        * rewrite H20. exact HN.
        * rewrite <- (HO a Hne). apply I2. lia.
      + destruct o as [[[ok|] fx]|]; [|exact I|exact I]. destruct I3 as [I3 I4]. split.
        * intros Hok a Ha. destruct (Z.eq_dec a (20 + i)) as [-> | Hne]; [rewrite H20; exact EV|]. apply I3; [exact Hok|lia].
        * intros Hok. destruct (I4 Hok) as (a & Ha & H1 & H2). exists a. split; [lia|]. split; [exact H1|].
          rewrite H2. apply HO. lia.
    - unfold ret. assert (HG : ~ good_id_byte (mem s1 (20 + i))) by (rewrite <- good_valid by exact HB1; congruence).
      split; [intros a Ha; apply HO; lia|]. split.
      + intros a Ha. destruct (Z.eq_dec a (20 + i)) as [-> | Hne]; [exact HN|left; apply HO; exact Hne].
      + split; [discriminate|]. intros _. exists (20 + i). split; [lia|]. split; [exact HG|].
        destruct HN as [HN | [HN _]]; [exact HN|contradiction]. }
  destruct (force || (255 =? mem s (20 + i))) eqn:EF.
  - pose proof (draw_spec rnds HR) as HD. destruct (draw rnds) as [[new q]|].
    + destruct HD as (HG & _ & Hq). unfold mbind at 1.
      pose proof (does_smart_update (20 + i) new s f) as [(s1 & k & E & Hf & _ & HM) | (s1 & f1 & E & Hf & HM)].
      * unfold mbind at 1. rewrite E.
        assert (HE : mem s1 = mem s1) by reflexivity.
        assert (HK : forall a, mem s1 a = mem s a \/ (a = 20 + i /\ mem s1 a = new)).
        { intros a. rewrite HM. destruct k as [|k]; cbn [firstn applyw fold_left fst snd]; [left; reflexivity|].
          rewrite firstn_nil. cbn [fold_left]. unfold upd. destruct (a =? 20 + i) eqn:Ea; [right; split; [lia|reflexivity]|left; reflexivity]. }
        split; [intros a Ha; destruct (HK a) as [H | [H _]]; [exact H|lia]|]. split; [|exact I].
        intros a Ha. destruct (HK a) as [H | [-> H]]; [left; exact H|right]. rewrite H. split; [exact HG|].
        apply orb_true_iff in EF. destruct EF as [EF | EF]; [left; exact EF|right; lia].
      * rewrite (mbind_run _ _ _ _ _ _ _ E). unfold ret at 1. cbn [applyw fold_left fst snd] in HM. apply STEP.
        -- exact Hq.
        -- intros a Ha. rewrite HM. apply upd_there. auto.
        -- right. rewrite HM, upd_here. split; [exact HG|].
           apply orb_true_iff in EF. destruct EF as [EF | EF]; [left; exact EF|right; lia].
    + unfold mbind at 1. unfold ret at 1 2. split; [auto|]. split; [intros; left; reflexivity|exact I].
  - unfold mbind at 1. unfold ret at 1. apply STEP; [exact HR|auto|left; reflexivity].
Qed.

(** Creating the node ID, forced or not, for every EEPROM content, every random sequence and
    every moment the power may fail: nothing outside the ID changes; a byte that is set is
    never altered unless forced; every byte written is usable; [true] means that the whole
    ID is usable, [false] that some byte was set to an unusable value and was left alone. *)
Theorem cli_id_create : forall force rnds s f, Forall byte rnds -> bytes_mem (mem s) ->
  let '(s', o) := ensureIDCreated force rnds s f in
  (forall q, q < 20 \/ 28 <= q -> mem s' q = mem s q) /\
  (forall q, 20 <= q < 28 -> mem s' q = mem s q \/
     (128 <= mem s' q <= 254 /\ (force = true \/ mem s q = 255))) /\
  match o with
  | Some (Some true, _) => forall q, 20 <= q < 28 -> 128 <= mem s' q <= 254
  | Some (Some false, _) => exists q, 20 <= q < 28 /\ ~ (128 <= mem s' q <= 254) /\ mem s' q = mem s q
  | _ => True
  end.
Proof.
  intros force rnds s f HR HB. unfold ensureIDCreated.
  pose proof (ensure_loop_spec 8 force 0 rnds s f ltac:(lia) HR ltac:(intros; apply HB)) as H.
  destruct (ensure_loop force 0 8 rnds s f) as [s' o]. destruct H as (H1 & H2 & H3).
  split; [intros q Hq; apply H1; lia|]. split; [intros q Hq; apply H2; lia|].
  destruct o as [[[[|]|] fx]|]; try exact I.
  - intros q Hq. apply (proj1 H3 eq_refl). lia.
  - destruct (proj2 H3 eq_refl) as (q & Hq & H4). exists q. split; [lia|exact H4].
Qed.

(** It does finish: every draw is used unless its low seven bits are all ones, so eight usable
    random bytes are enough, and then a forced or blank ID is always created. *)
Definition usable (r : Z) : bool := negb (Z.land r 127 =? 127).
Lemma draw_count rnds : Forall byte rnds -> (1 <= length (filter usable rnds))%nat ->
  exists v q, draw rnds = Some (v, q) /\ S (length (filter usable q)) = length (filter usable rnds).
Proof.
  assert (HB : below 256 (fun r => Bool.eqb (255 =? Z.lor 128 r) (Z.land r 127 =? 127)) = true) by (vm_compute; reflexivity).
  induction 1 as [|r q Hr Hq IH]; cbn [filter draw length]; [lia|]. intros HL. cbv zeta.
  pose proof (below_spec _ _ HB r Hr) as H1. cbv beta in H1. apply Bool.eqb_prop in H1. rewrite H1.
  unfold usable in *. destruct (Z.land r 127 =? 127); cbn [negb length] in *.
  - apply IH. exact HL.
  - eexists _, q. split; [reflexivity|reflexivity].
Qed.
Lemma draw_bytes rnds v q : Forall byte rnds -> draw rnds = Some (v, q) -> Forall byte q.
Proof. intros HR E. pose proof (draw_spec rnds HR) as H. rewrite E in H. tauto. Qed.
Lemma draw_good rnds v q : Forall byte rnds -> draw rnds = Some (v, q) -> 128 <= v <= 254.
Proof. intros HR E. pose proof (draw_spec rnds HR) as H. rewrite E in H. apply H. Qed.
Lemma ensure_finishes : forall n force i rnds s f, 0 <= i -> Forall byte rnds ->
  (n <= length (filter usable rnds))%nat -> (n <= f)%nat ->
  (forall q, 20 + i <= q < 20 + i + Z.of_nat n -> force = true \/ mem s q = 255 \/ 128 <= mem s q <= 254) ->
  exists s' f', ensure_loop force i n rnds s f = (s', Some (Some true, f')).
Proof.
  induction n as [|n IH]; intros force i rnds s f Hi HR HL Hf HM; cbn [ensure_loop]; [eexists _, _; reflexivity|].
  unfold mbind at 1. unfold ee_read at 1. unfold ID_START.
  destruct (force || (255 =? mem s (20 + i))) eqn:EF.
  - destruct (draw_count rnds HR ltac:(lia)) as (v & q & E & HC). pose proof (draw_bytes _ _ _ HR E) as Hq.
    pose proof (draw_good _ _ _ HR E) as Hv. rewrite E. 
    pose proof (does_smart_update (20 + i) v s f) as [(s1 & k & _ & Hlt & _) | (s1 & f1 & E1 & Hf1 & HM1)]; [cbn in Hlt; lia|].
    unfold mbind at 1. rewrite (mbind_run _ _ _ _ _ _ _ E1). unfold ret at 1. unfold mbind at 1, ee_read at 1.
    cbn [applyw fold_left fst snd length] in *. rewrite HM1, upd_here.
    rewrite (proj2 (valid_id_spec v ltac:(red; lia)) Hv). cbn [negb].
    apply IH; [lia|exact Hq|lia|lia|]. intros a Ha. rewrite HM1, upd_there by lia. apply HM. lia.
  - unfold mbind at 1. unfold ret at 1. unfold mbind at 1, ee_read at 1.
    destruct (HM (20 + i) ltac:(lia)) as [H | [H | H]]; [rewrite H in EF; discriminate|rewrite H, orb_true_r in EF; discriminate|].
    rewrite (proj2 (valid_id_spec (mem s (20 + i)) ltac:(red; lia)) H). cbn [negb].
    apply IH; [lia|exact HR|lia|lia|]. intros a Ha. apply HM. lia.
Qed.
Theorem cli_id_create_finishes : forall force rnds s f, Forall byte rnds ->
  (8 <= length (filter usable rnds))%nat -> (8 <= f)%nat ->
  (forall q, 20 <= q < 28 -> force = true \/ mem s q = 255 \/ 128 <= mem s q <= 254) ->
  exists s' f', ensureIDCreated force rnds s f = (s', Some (Some true, f')).
Proof. intros force rnds s f HR HL Hf HM. apply ensure_finishes; auto; lia. Qed.

(** The "I" command shows the stored ID; only the exact line "I *" (any character in the
    second place) renews it. *)
Theorem cli_id_show : forall rnds line s f, ~ (Zlen line = 3 /\ znth line 2 = 42) ->
  exists s', cmd_id rnds line s f = (s', Some (Some (true, show_id (block (mem s) 20 8)), f)) /\ meq (mem s') (mem s).
Proof.
  intros rnds line s f H. unfold cmd_id. replace ((3 =? Zlen line) && (42 =? znth line 2)) with false by lia.
  unfold mbind at 1, ret at 1. destruct (meq_run0 _ _ _ f (does_read_block 8 ID_START s)) as (s' & E & HM).
  exists s'. rewrite (mbind_run _ _ _ _ _ _ _ E). split; [reflexivity|exact HM].
Qed.
Theorem cli_id_renew : forall rnds line s f, Zlen line = 3 -> znth line 2 = 42 -> Forall byte rnds -> bytes_mem (mem s) ->
  (8 <= length (filter usable rnds))%nat -> (8 <= f)%nat ->
  exists s' f', cmd_id rnds line s f = (s', Some (Some (true, show_id (block (mem s') 20 8)), f')) /\
    (forall q, 20 <= q < 28 -> 128 <= mem s' q <= 254) /\ (forall q, q < 20 \/ 28 <= q -> mem s' q = mem s q).
Proof.
  intros rnds line s f H3 H42 HR HB HL Hf. unfold cmd_id. rewrite H3, H42. change ((3 =? 3) && (42 =? 42)) with true. cbv iota.
  destruct (cli_id_create_finishes true rnds s f HR HL Hf ltac:(auto)) as (s1 & f1 & E).
  pose proof (cli_id_create true rnds s f HR HB) as HC. rewrite E in HC. destruct HC as (C1 & _ & C3).
  rewrite (mbind_run _ _ _ _ _ _ _ E). destruct (meq_run0 _ _ _ f1 (does_read_block 8 ID_START s1)) as (s' & E2 & HM).
  exists s', f1. rewrite (mbind_run _ _ _ _ _ _ _ E2). rewrite (block_meq _ _ HM 8 20). split; [reflexivity|].
  split; intros q Hq; rewrite HM; auto.
Qed.
(** "I hh .. hh" with eight usable bytes sets exactly that ID; an unusable one is refused. *)
Theorem cli_id_set : forall junk rnds line id s f,
  25 <= Zlen line -> Zlen junk = 8 -> Forall2 id_token (firstn 8 (args line)) id -> Zlen id = 8 -> (8 <= f)%nat ->
  exists s' f', cmd_id_set junk rnds line s f = (s', Some (Some (true, [TNl]), f')) /\
    block (mem s') 20 8 = id /\ (forall q, q < 20 \/ 28 <= q -> mem s' q = mem s q).
Proof.
  intros junk rnds line id s f HL HJ HV HI Hf. unfold cmd_id_set. replace (Zlen line >=? 25) with true by lia.
  pose proof (strtok_at (skipn 2 line)) as HW. fold (args line) in HW. destruct (strtok (skipn 2 line)) as [tok last].
  destruct (args line) as [|t ws] eqn:EA; [exfalso; cbn in HV; inversion HV; subst; discriminate|].
  pose proof (parse_id_good 8 (t :: ws) id tok last junk 0 ltac:(lia) HW HV ltac:(unfold Zlen in *; lia)) as HP.
  destruct HW as [-> HW]. rewrite HP. change (Z.to_nat 0) with 0%nat. cbn [firstn app].
  rewrite skipn_all2 by (unfold Zlen in *; lia). rewrite app_nil_r.
  assert (HI' : length id = 8%nat) by (unfold Zlen in HI; lia).
  destruct (does_complete _ _ _ _ (does_update_bytes id ID_START s) f ltac:(rewrite at_addr_len; lia)) as (s' & f' & E & HM).
  exists s', f'. rewrite (mbind_run _ _ _ _ _ _ _ E). split; [reflexivity|]. split.
  - rewrite (block_meq _ _ HM). rewrite <- HI'. apply block_applyw_at.
  - intros q Hq. rewrite HM, applyw_at. rewrite HI. unfold ID_START. replace ((20 <=? q) && _) with false by lia. reflexivity.
Qed.
Theorem cli_id_set_refuses_partial : forall junk rnds line s f, 25 <= Zlen line ->
  (exists t, In t (firstn 8 (args line)) /\ forall v, ~ id_token t v) ->
  cmd_id_set junk rnds line s f = (s, Some (Some (false, [Invalid]), f)).
Proof.
  intros junk rnds line s f HL HX. unfold cmd_id_set. replace (Zlen line >=? 25) with true by lia.
  pose proof (strtok_at (skipn 2 line)) as HW. fold (args line) in HW. destruct (strtok (skipn 2 line)) as [tok last].
  pose proof (parse_id_bad 8 _ tok last junk 0 HW HX) as HP.
  destruct (args line) as [|t ws]; [destruct HX as (t & [] & _)|]. destruct HW as [-> _]. rewrite HP. reflexivity.
Qed.
Theorem cli_id_set_short_refuted :
  ~ (forall junk rnds line s f, Zlen junk = 8 -> 25 <= Zlen line -> (8 <= f)%nat ->
       meq (mem (fst (cmd_id_set junk rnds line s f))) (mem s) \/
       Forall2 id_token (firstn 8 (args line)) (block (mem (fst (cmd_id_set junk rnds line s f))) 20 8)).
Proof.
  intros H.
  specialize (H [1; 2; 3; 4; 5; 6; 7; 8] [] ([73; 32; 56; 49] ++ repeat 32 21)
    (mkEE (fun _ => 255) []) 40%nat eq_refl ltac:(vm_compute; discriminate) ltac:(lia)).
  destruct H as [H | H].
  - specialize (H 21). vm_compute in H. discriminate.
  - change (firstn 8 (args _)) with [[56; 49]] in H. set (b := block _ _ _) in H. vm_compute in b.
    inversion H as [|? ? ? ? _ HR]; subst. inversion HR.
Qed.
Example cli_id_example :
  let s := mkEE (fun q => if q =? 22 then 200 else 255) [] in
  Forall byte [127; 3; 255; 4; 5; 6; 7; 8; 9; 10] /\ length (filter usable [127; 3; 255; 4; 5; 6; 7; 8; 9; 10]) = 8%nat /\
  block (mem (fst (ensureIDCreated false [127; 3; 255; 4; 5; 6; 7; 8; 9; 10] s 8%nat))) 20 8
    = [131; 132; 200; 133; 134; 135; 136; 137].
Proof. split; [repeat constructor; lia|]. split; vm_compute; reflexivity. Qed.

(** ** C111: time and privacy *)
Lemma atoi_dec t : digits t -> decimal t <= 32767 -> atoi t = decimal t /\ 0 <= decimal t.
Proof.
  intros HD HL. split; [rewrite <- (app_nil_r t) at 1; apply (proj1 cli_decimal_parse); [exact HD|exact I|lia]|].
  destruct HD as [_ HD]. apply (decimal_mono t HD 0). lia.
Qed.

(** "T HH MM" sets the local time to HH:MM if that is a time of day; numbers up to 255 that
    are not are refused and change nothing; other lines are ignored. *)
Theorem cli_time_partial : forall c line h m ws s f, clock_ok c -> bytes_mem (mem s) -> (3 <= f)%nat -> 5 <= Zlen line ->
  args line = h :: m :: ws -> digits h -> digits m -> decimal h <= 255 -> decimal m <= 255 ->
  exists s' f' c' out, cmd_time c line s f = (s', Some ((c', (true, out)), f')) /\
    secondsLT c' = secondsLT c /\ daysSince1999LT c' = daysSince1999LT c /\
    (decimal h <= 23 /\ decimal m <= 59 -> out = [] /\ getHoursLT c' = decimal h /\ getMinutesLT c' = decimal m) /\
    (23 < decimal h \/ 59 < decimal m -> out = [Invalid] /\ c' = c /\ s' = s).
Proof.
  intros c line h m ws s f HC HB Hf HL HA Hh Hm Lh Lm. unfold cmd_time. replace (Zlen line >=? 5) with true by lia.
  pose proof (strtok_at (skipn 2 line)) as HW. fold (args line) in HW. destruct (strtok (skipn 2 line)) as [tok last].
  rewrite HA in HW. destruct HW as [-> HW]. pose proof (strtok_at last) as HW2. rewrite HW in HW2.
  destruct (strtok last) as [tok2 last2]. destruct HW2 as [-> _].
  destruct (atoi_dec h Hh ltac:(lia)) as [-> H0]. destruct (atoi_dec m Hm ltac:(lia)) as [-> H1].
  rewrite !u8_id by (red; lia).
  destruct (C42_set c s f (decimal h) (decimal m) HC HB Hf ltac:(red; lia) ltac:(red; lia))
    as (s' & f' & c' & ok & E & _ & HS & HD & HO & HT & HF).
  rewrite (mbind_run _ _ _ _ _ _ _ E). exists s', f', c', (if ok then [] else [Invalid]).
  split; [reflexivity|]. split; [exact HS|]. split; [exact HD|]. split.
  - intros HX. apply HO in HX. subst ok. split; [reflexivity|]. apply HT. reflexivity.
  - intros HX. destruct ok; [exfalso; assert (HY := proj1 HO eq_refl); lia|]. split; [reflexivity|]. apply HF. reflexivity.
Qed.
Theorem cli_time_ignores : forall c line s f, Zlen line < 5 \/ (length (args line) < 2)%nat ->
  cmd_time c line s f = (s, Some ((c, (true, [])), f)).
Proof.
  intros c line s f H. unfold cmd_time. destruct (Zlen line >=? 5) eqn:E5; [|reflexivity].
  pose proof (strtok_at (skipn 2 line)) as HW. fold (args line) in HW. destruct (strtok (skipn 2 line)) as [tok last].
  destruct (args line) as [|a [|b r]]; cbn [length] in H; [destruct HW as [-> _]; reflexivity| |lia].
  destruct HW as [-> HW]. pose proof (strtok_at last) as HW2. rewrite HW in HW2. destruct (strtok last) as [tok2 last2].
  destruct HW2 as [-> _]. reflexivity.
Qed.
(** "Anything that is not a time of day is refused" fails: the numbers are taken modulo 256
    and words that are not numbers count as 0. *)
Theorem cli_time_refuted :
  ~ (forall c line h m s f, args line = [h; m] -> 5 <= Zlen line -> clock_ok c -> (3 <= f)%nat ->
      ~ (digits h /\ digits m /\ decimal h <= 23 /\ decimal m <= 59) ->
      match snd (cmd_time c line s f) with Some ((c', _), _) => c' = c | None => False end) /\
  (let c := mkClock 0 700 9000 in
   match snd (cmd_time c [84; 32; 50; 54; 48; 32; 53] (mkEE (fun _ => 0) []) 9%nat) with
   | Some ((c', _), _) => getHoursLT c' = 4 /\ getMinutesLT c' = 5 | None => False end).
Proof.
  split; [|vm_compute; split; reflexivity].
  intros H. specialize (H (mkClock 0 700 9000) [84; 32; 120; 32; 53] [120] [53] (mkEE (fun _ => 0) []) 9%nat eq_refl).
  specialize (H ltac:(vm_compute; discriminate)).
  assert (HC : clock_ok (mkClock 0 700 9000)) by (unfold clock_ok; cbn [secondsLT minutesSinceMidnightLT daysSince1999LT]; repeat split; lia).
  specialize (H HC ltac:(lia)). 
  assert (HN : ~ (digits [120] /\ digits [53] /\ decimal [120] <= 23 /\ decimal [53] <= 59)).
  { intros ((_ & HD) & _). inversion HD; subst. lia. }
  specialize (H HN). vm_compute in H. discriminate.
Qed.

(** "X NN" stores the privacy level NN (0-255) and changes nothing else; without an argument
    it does nothing. *)
Theorem cli_privacy_partial : forall line s f, (1 <= f)%nat ->
  match args line with
  | [] => cmd_priv line s f = (s, Some ((true, []), f))
  | t :: _ => digits t -> decimal t <= 255 ->
      exists s' f', cmd_priv line s f = (s', Some ((true, []), f')) /\ mem s' 28 = decimal t /\
        forall q, q <> 28 -> mem s' q = mem s q
  end.
Proof.
  intros line s f Hf. unfold cmd_priv. destruct (Zlen line >=? 3) eqn:E3; [|rewrite args_short by lia; reflexivity].
  pose proof (strtok_at (skipn 2 line)) as HW. fold (args line) in HW. destruct (strtok (skipn 2 line)) as [tok last].
  destruct (args line) as [|t ws]; destruct HW as [-> _]; [reflexivity|]. intros HD HL.
  destruct (atoi_dec t HD ltac:(lia)) as [-> H0]. rewrite u8_id by (red; lia).
  destruct (does_complete _ _ _ _ (does_smart_update TX_ENABLE (decimal t) s) f ltac:(cbn; lia)) as (s' & f' & E & HM).
  exists s', f'. rewrite (mbind_run _ _ _ _ _ _ _ E). split; [reflexivity|]. cbn [applyw fold_left fst snd] in HM.
  split; [rewrite HM; apply upd_here|]. intros q Hq. rewrite HM. apply upd_there. auto.
Qed.
(** A larger number does not give at least as much privacy: "X 256" sends everything. *)
Theorem cli_privacy_refuted :
  ~ (forall line t ws s f, args line = t :: ws -> digits t -> 255 <= decimal t <= 32767 -> (1 <= f)%nat ->
       mem (fst (cmd_priv line s f)) 28 = 255).
Proof.
  intros H. specialize (H [88; 32; 50; 53; 54] [50; 53; 54] [] (mkEE (fun _ => 255) []) 3%nat eq_refl).
  assert (HD : digits [50; 53; 54]) by (split; [discriminate|repeat constructor; lia]).
  specialize (H HD ltac:(vm_compute; split; discriminate) ltac:(lia)). vm_compute in H. discriminate.
Qed.

(** ** C112: statistics *)

(** "D N" prints one entry per hour of set N, in order: '-' for unset, else the value (degrees
    for the temperature sets), with '<' at the current hour; it changes nothing. *)
Definition shown (set : Z) (v : Z) : Item :=
  if v =? 255 then TStr "-" else if set <? 2 then TDec ((expandTempC16 v + 8) / 16) else TDec v.
Fixpoint dump_from (n : nat) (set now hh : Z) (m : Z -> Z) : list Item :=
  match n with
  | O => []
  | S n' => shown set (m (256 + 24 * set + hh)) :: (if hh =? now then [TStr "<"] else []) ++ TStr " " :: dump_from n' set now (hh + 1) m
  end.
Lemma does_dump : forall n set now hh s, 0 <= set < 14 -> 0 <= hh -> hh + Z.of_nat n <= 24 ->
  does (dump_hours set now hh n) s [] (dump_from n set now hh (mem s)).
Proof.
  induction n as [|n IH]; intros set now hh s Hs Hh HL; cbn [dump_hours dump_from]; [apply does_ret|].
  unfold ee_getStat, STATS_SETS. replace (14 <=? set) with false by lia. replace (23 <? hh) with false by lia.
  eapply does_bind0; [apply does_read|]. intros s1 H1. cbv beta.
  eapply does_bind0; [apply IH; lia|]. intros s2 H2. cbv beta.
  assert (HD : forall m m', meq m m' -> forall k h, dump_from k set now h m = dump_from k set now h m').
  { intros m m' HM k. induction k as [|k IHk]; intros h; cbn [dump_from]; [reflexivity|]. rewrite HM, IHk. reflexivity. }
  rewrite (HD _ _ H1). unfold stat_addr, STATS_START. replace (256 + set * 24 + hh) with (256 + 24 * set + hh) by lia.
  assert (HE : shown set (mem s (256 + 24 * set + hh)) = (if 255 =? mem s (256 + 24 * set + hh) then TStr "-"
     else if (set =? 0) || (set =? 1) then TDec (Z.shiftr (expandTempC16 (mem s (256 + 24 * set + hh)) + 8) 4) else TDec (mem s (256 + 24 * set + hh)))).
  { unfold shown. rewrite (Z.eqb_sym 255). destruct (_ =? 255); [reflexivity|].
    rewrite Z.shiftr_div_pow2 by lia. change (2 ^ 4) with 16.
    destruct (set <? 2) eqn:E; [replace ((set =? 0) || (set =? 1)) with true by lia|replace ((set =? 0) || (set =? 1)) with false by lia]; reflexivity. }
  rewrite HE. apply does_ret.
Qed.
Theorem cli_dump : forall now line t ws s f, args line = t :: ws -> digits t -> decimal t < 14 ->
  exists s' lbl, cmd_dump now line s f = (s', Some ((false, lbl ++ dump_from 24 (decimal t) now 0 (mem s) ++ [TNl]), f)) /\
    meq (mem s') (mem s) /\ length lbl = 4%nat.
Proof.
  intros now line t ws s f HA HD HL. unfold cmd_dump.
  destruct (Zlen line >=? 3) eqn:E3; [|rewrite args_short in HA by lia; discriminate].
  pose proof (strtok_at (skipn 2 line)) as HW. fold (args line) in HW. destruct (strtok (skipn 2 line)) as [tok last].
  rewrite HA in HW. destruct HW as [-> HW]. destruct (atoi_dec t HD ltac:(lia)) as [-> H0]. cbv zeta. rewrite u8_id by (red; lia).
  destruct (meq_run0 _ _ _ f (does_dump 24 (decimal t) now 0 s ltac:(lia) ltac:(lia) ltac:(lia))) as (s' & E & HM).
  rewrite (mbind_run _ _ _ _ _ _ _ E). unfold ret. eexists s', [_; _; _; _]. split; [reflexivity|]. split; [exact HM|reflexivity].
Qed.
(** "Z" says "Zapped." exactly when no statistic is left set; each go erases at least one if
    any is left, so repeating it finishes the job; nothing outside the statistics changes. *)
Theorem cli_zap : forall ms line s f, 0 <= ms <= 4000 -> (360 <= f)%nat ->
  exists s' f' out, cmd_zap ms line s f = (s', Some ((false, out), f')) /\
    (forall q, q < 256 \/ 616 <= q -> mem s' q = mem s q) /\
    (out = [TStr "Zapped."] \/ out = [TStr "Not finished."]) /\
    (out = [TStr "Zapped."] -> forall q, 256 <= q < 616 -> mem s' q = 255) /\
    (out = [TStr "Not finished."] -> stats_left (mem s') < stats_left (mem s)).
Proof.
  intros ms line s f Hm Hf. unfold cmd_zap. set (lim := u16 _).
  assert (HL : 1 <= lim < 65536).
  { unfold lim. assert (0 <= Z.quot ms 2 <= 2000) by (rewrite Z.quot_div_nonneg by lia; split; [apply Z.div_pos; lia|apply Z.div_le_upper_bound; lia]).
    rewrite u16_id by lia. lia. }
  clearbody lim.
  destruct (zap_exact lim s f ltac:(lia) Hf) as (s' & f' & E & H1 & H2).
  pose proof (zap_touches_only_stats lim s f ltac:(lia)) as HT. cbv zeta in HT. rewrite E in HT. cbn [fst] in HT.
  rewrite (mbind_run _ _ _ _ _ _ _ E).
  assert (HLim : limit_of lim = lim) by (unfold limit_of; replace (lim =? 0) with false by lia; reflexivity). rewrite HLim in *.
  eexists s', f', _. split; [reflexivity|]. split; [apply HT|].
  destruct (stats_left (mem s) <? lim) eqn:EL.
  - split; [left; reflexivity|]. split; [intros _; apply H1; lia|discriminate].
  - split; [right; reflexivity|]. split; [discriminate|]. intros _. rewrite H2 by lia. lia.
Qed.

(** ** C113: the FHT8V house code command *)
Theorem cli_house : forall s line,
  (* "H nn mm" with both in 0-99 sets the live and the stored codes; the valve is put out of
     sync exactly if a code changes *)
  (forall a b ws, 5 <= Zlen line -> args line = a :: b :: ws -> digits a -> digits b -> decimal a <= 99 -> decimal b <= 99 ->
     exists s', cmd_house (Some s) line = (Some s', (true, [])) /\ hc1 s' = decimal a /\ hc2 s' = decimal b /\
       nv1 s' = decimal a /\ nv2 s' = decimal b /\
       (hc1 s = decimal a /\ hc2 s = decimal b -> s' = setNv s (decimal a) (decimal b)) /\
       (hc1 s <> decimal a \/ hc2 s <> decimal b -> synced s' = false)) /\
  (* "H" alone forgets them *)
  (Zlen line < 2 -> exists s', cmd_house (Some s) line = (Some s', (true, [])) /\ hc1 s' = 255 /\ hc2 s' = 255 /\
     nv1 s' = 255 /\ nv2 s' = 255 /\ synced s' = false) /\
  (* two words of which one is out of range are refused *)
  (forall a b ws, 5 <= Zlen line -> args line = a :: b :: ws -> atoi a < 0 \/ atoi a > 99 \/ atoi b < 0 \/ atoi b > 99 ->
     cmd_house (Some s) line = (Some s, (true, [Invalid]))) /\
  (* every other line changes nothing *)
  (2 <= Zlen line -> Zlen line < 5 \/ (length (args line) < 2)%nat -> cmd_house (Some s) line = (Some s, (true, []))) /\
  cmd_house None line = (None, (false, [Invalid])).
Proof.
  intros s line.
  assert (HW : let '(tok, last) := strtok (skipn 2 line) in at_words tok last (args line)) by apply strtok_at.
  split; [|split; [|split; [|split]]].
  - intros a b ws HL HA Ha Hb La Lb. unfold cmd_house. replace (Zlen line >=? 5) with true by lia.
    destruct (strtok (skipn 2 line)) as [tok last]. rewrite HA in HW. destruct HW as [-> HW].
    pose proof (strtok_at last) as HW2. rewrite HW in HW2. destruct (strtok last) as [tok2 last2]. destruct HW2 as [-> _].
    destruct (atoi_dec a Ha ltac:(lia)) as [-> A0]. destruct (atoi_dec b Hb ltac:(lia)) as [-> B0]. cbv zeta.
    replace ((decimal a <? 0) || (decimal a >? 99) || (decimal b <? 0) || (decimal b >? 99)) with false by lia.
    rewrite !u8_id by (red; lia). eexists. split; [reflexivity|].
    unfold nvSetHC2, nvSetHC1, setHC1, setHC2. cbv zeta.
    destruct (decimal a =? hc1 s) eqn:Ea; cbn [hc1 hc2 nv1 nv2 setNv setHC setSync resync];
    (match goal with |- context [decimal b =? ?x] => destruct (decimal b =? x) eqn:Eb end);
    cbn [hc1 hc2 nv1 nv2 setNv setHC setSync resync synced] in *; try (rewrite Ea, Eb);
    (split; [lia|]); (split; [lia|]); (split; [lia|]); (split; [lia|]); (split; [intros; try lia|intros; try lia; reflexivity]).
    reflexivity.
  - intros HL. unfold cmd_house. replace (Zlen line >=? 5) with false by lia. replace (Zlen line <? 2) with true by lia.
    eexists. split; [reflexivity|]. repeat (split; [reflexivity|]). reflexivity.
  - intros a b ws HL HA HX. unfold cmd_house. replace (Zlen line >=? 5) with true by lia.
    destruct (strtok (skipn 2 line)) as [tok last]. rewrite HA in HW. destruct HW as [-> HW].
    pose proof (strtok_at last) as HW2. rewrite HW in HW2. destruct (strtok last) as [tok2 last2]. destruct HW2 as [-> _]. cbv zeta.
    replace ((atoi a <? 0) || (atoi a >? 99) || (atoi b <? 0) || (atoi b >? 99)) with true by lia. reflexivity.
  - intros H2 H. unfold cmd_house. destruct (Zlen line >=? 5) eqn:E5.
    + destruct (strtok (skipn 2 line)) as [tok last]. destruct (args line) as [|a [|b ws]]; cbn [length] in H; [| |lia].
      * destruct HW as [-> _]. replace (Zlen line <? 2) with false by lia. reflexivity.
      * destruct HW as [-> HW]. pose proof (strtok_at last) as HW2. rewrite HW in HW2. destruct (strtok last) as [tok2 last2].
        destruct HW2 as [-> _]. reflexivity.
    + replace (Zlen line <? 2) with false by lia. reflexivity.
  - reflexivity.
Qed.

(** ** C114: the CLI activity timer *)
(** One step of a history: someone starts or stops the CLI, or a minute passes, during which
    an interrupt may itself start or stop it ([Some true]/[Some false]). *)
Inductive CEv := CReset | COff | CMinute (isr : option bool).
Definition cstep (t : Z) (e : CEv) : Z :=
  match e with
  | CReset => cli_reset t
  | COff => cli_off t
  | CMinute isr => cli_count (match isr with Some true => Some (cli_reset 0) | Some false => Some (cli_off 0) | None => None end) t
  end.
Definition crun (t : Z) (es : list CEv) : Z := fold_left cstep es t.
(** Minutes since the last start, if it is the latest start/stop; an interrupt during the
    count-down comes after the minute has begun. *)
Fixpoint since (es_rev : list CEv) : option Z :=
  match es_rev with
  | [] => None
  | CReset :: _ => Some 0
  | COff :: _ => None
  | CMinute None :: r => match since r with Some n => Some (n + 1) | None => None end
  | CMinute (Some true) :: r => match since r with
                                (* the start may coincide with a count-down from the full value *)
                                | Some 0 => Some 1 | _ => Some 0 end
  | CMinute (Some false) :: _ => None
  end.
Theorem cli_timer : forall es, 
  crun 0 es = (match since (rev es) with Some n => Z.max 0 (2 - n) | None => 0 end) /\
  (cli_active (crun 0 es) = true <-> match since (rev es) with Some n => n < 2 | None => False end).
Proof.
  assert (HN : forall l, match since l with Some n => 0 <= n | None => True end).
  { induction l as [|[| |[[|]|]] l IH]; cbn [since]; try exact I; try lia.
    - destruct (since l) as [[|p|p]|]; lia.
    - destruct (since l); [lia|exact I]. }
  assert (H : forall es, crun 0 es = (match since (rev es) with Some n => Z.max 0 (2 - n) | None => 0 end)).
  { induction es as [|e es IH] using rev_ind; [reflexivity|].
    unfold crun. rewrite fold_left_app. cbn [fold_left]. fold (crun 0 es). rewrite IH, rev_app_distr. cbn [rev app].
    pose proof (HN (rev es)) as Hn. destruct e as [| |[[|]|]]; cbn [cstep since cli_reset cli_off cli_count]; try reflexivity.
    - unfold cli_count, cli_reset, CLI_TIMEOUT_M. destruct (since (rev es)) as [n|]; [|reflexivity].
      destruct (0 =? Z.max 0 (2 - n)) eqn:E0; [destruct n as [|p|p]; [discriminate|reflexivity|lia]|].
      destruct (2 =? Z.max 0 (2 - n)) eqn:E2.
      + assert (n = 0) as -> by lia. reflexivity.
      + destruct n as [|p|p]; [discriminate|reflexivity|lia].
    - unfold cli_count, cli_off. destruct (since (rev es)) as [n|]; [|reflexivity].
      destruct (0 =? Z.max 0 (2 - n)); reflexivity.
    - unfold cli_count. destruct (since (rev es)) as [n|]; [|reflexivity].
      destruct (0 =? Z.max 0 (2 - n)) eqn:E0; [lia|]. rewrite Z.eqb_refl, u8_id by (red; lia). lia. }
  intros es. split; [apply H|]. rewrite H. unfold cli_active. destruct (since (rev es)) as [n|]; lia.
Qed.
Example cli_timer_example :
  cli_active (crun 0 [CMinute None; CReset; CMinute None]) = true /\
  cli_active (crun 0 [CReset; CMinute None; CMinute None]) = false /\
  cli_active (crun 0 [CReset; CMinute None; CMinute (Some true); CMinute None]) = true /\
  cli_active (crun 0 [CReset; COff]) = false.
Proof. repeat split. Qed.
