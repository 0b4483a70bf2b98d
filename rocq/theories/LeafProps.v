(** C181: the high-humidity flags over any history of reads.
    C182: the non-secure keep-alive beacon.
    C183: noise added to the random pool is never lost.
    C184: the "new occupancy" report. *)
From Verif Require Import Base CrcModel CrcLin CrcProofs FrameModel FrameSpec FrameProofs FrameProps
  I2cModel I2cProps PrngModel PrngProps OccModel OccProps.

(** ** C181 *)

(** The bus, the sensor and the humidities returned by the reads that got
    data, in order, after a history of reads. *)
Fixpoint rh_run (b : ShtBus) (s : Rh) (envs : list ShtEnv) : ShtBus * Rh * list Z :=
  match envs with
  | [] => (b, s, [])
  | e :: envs =>
    let '(b1, s1, r, _) := sht_read_rh b s e in
    let '(b2, s2, rs) := rh_run b1 s1 envs in
    (b2, s2, match se_data e with None => rs | Some _ => r :: rs end)
  end.

(** The last reading outside the dead band 65..75 %, if any. *)
Fixpoint last_outside (rs : list Z) : option Z :=
  match rs with
  | [] => None
  | r :: rs => match last_outside rs with
               | Some x => Some x
               | None => if (r <? 65) || (75 <? r) then Some r else None
               end
  end.

Lemma rh_run_spec envs : forall b s,
  let '(_, s', rs) := rh_run b s envs in
  rh_value s' = last rs (rh_value s) /\
  rh_high s' = match last_outside rs with Some x => 75 <? x | None => rh_high s end.
Proof.
  induction envs as [|e envs IH]; intros b s; cbn [rh_run].
  - split; reflexivity.
  - unfold sht_read_rh. destruct (sht_prepare b e) as [b1 ev].
    destruct (se_data e) as [[d1 d2]|].
    + set (r := sht_rh (sht_raw d1 d2)). set (b2 := if negb (sb_twi b) then _ else _).
      specialize (IH b2 (rh_publish s r)).
      destruct (rh_run b2 (rh_publish s r) envs) as [[b3 s'] rs]. destruct IH as [IH1 IH2].
      split.
      * rewrite IH1. cbn [rh_publish rh_value].
        destruct rs as [|x rs]; [reflexivity|]. clear.
        replace (last (r :: x :: rs) (rh_value s)) with (last (x :: rs) (rh_value s)) by reflexivity.
        revert x. induction rs as [|y rs IH]; intros x; [reflexivity|]. cbn [last] in *. apply IH.
      * rewrite IH2. cbn [last_outside]. destruct (last_outside rs); [reflexivity|].
        unfold rh_publish, RH_HIGH, RH_EPS. cbn [rh_high].
        change (70 + 5) with 75. change (70 - 5) with 65.
        destruct (75 <? r) eqn:E1, (r <? 65) eqn:E2; cbn [orb]; lia.
    + specialize (IH b1 s). destruct (rh_run b1 s envs) as [[b3 s'] rs]. exact IH.
Qed.

(** For every history of reads from power up, whatever the bus does: the plain
    flag says whether the last humidity read is above 75 % (and says high
    before the first); the flag with hysteresis is on exactly when the last
    reading outside 65..75 % was above 75 %, or there was none; and plainly
    high implies high with hysteresis. *)
Theorem humidity_flags : forall b envs,
  let '(_, s, rs) := rh_run b rh_initial envs in
  (rh_isRHHigh s = true <-> 75 < last rs INVALID_RH) /\
  (rh_high s = true <-> (last_outside rs = None \/ exists x, last_outside rs = Some x /\ 75 < x)) /\
  (rh_isRHHigh s = true -> rh_high s = true).
Proof.
  intros b envs. pose proof (rh_run_spec envs b rh_initial) as H.
  destruct (rh_run b rh_initial envs) as [[b' s] rs]. destruct H as [Hv Hh].
  unfold rh_isRHHigh, RH_HIGH, RH_EPS. rewrite Hv, Hh. cbn [rh_initial rh_value rh_high].
  change (70 + 5) with 75.
  split; [rewrite Z.ltb_lt; reflexivity|].
  assert (HL : 75 < last rs INVALID_RH ->
               last_outside rs = None \/ exists x, last_outside rs = Some x /\ 75 < x).
  { clear. induction rs as [|r rs IH]; intros H; [left; reflexivity|].
    destruct rs as [|y rs].
    - right. exists r. cbn [last] in H. cbn [last_outside].
      replace (75 <? r) with true by lia. rewrite Bool.orb_true_r. auto.
    - change (last (r :: y :: rs) INVALID_RH) with (last (y :: rs) INVALID_RH) in H.
      destruct (IH H) as [E | (x & E & Hx)].
      + exfalso. revert H E. clear. revert y.
        induction rs as [|z rs IH]; intros y H E.
        * cbn [last] in H. cbn [last_outside] in E.
          replace (75 <? y) with true in E by lia. rewrite Bool.orb_true_r in E. discriminate.
        * change (last (y :: z :: rs) INVALID_RH) with (last (z :: rs) INVALID_RH) in H.
          apply (IH z H). cbn [last_outside] in E |- *.
          destruct (last_outside rs); [discriminate|].
          destruct ((z <? 65) || (75 <? z)); [discriminate|reflexivity].
      + right. exists x. split; [|exact Hx].
        remember (y :: rs) as l eqn:El. cbn [last_outside]. rewrite E. reflexivity. }
  assert (HB : (match last_outside rs with Some x => 75 <? x | None => true end) = true <->
               (last_outside rs = None \/ exists x, last_outside rs = Some x /\ 75 < x)).
  { destruct (last_outside rs) as [x|].
    - rewrite Z.ltb_lt. split; [intros; right; exists x; auto|].
      intros [H | (x' & E & Hx)]; [discriminate|]. injection E as ->. exact Hx.
    - split; auto. }
  split; [exact HB|]. rewrite Z.ltb_lt, HB. exact HL.
Qed.

(** 80 %, then a failed read, then 70 %: plainly not high, still high with
    hysteresis; then 60 %: off; then 70 %: still off. *)
Definition rh_env raw := mkShtEnv None (Some (sht_bytes raw 2)).
Example humidity_flags_case :
  (let '(_, s, rs) := rh_run (mkShtBus true false) rh_initial
      [rh_env 45500; mkShtEnv None None; rh_env 40000] in
   (rs, rh_isRHHigh s, rh_high s)) = ([80; 70], false, true) /\
  (let '(_, s, rs) := rh_run (mkShtBus true false) rh_initial
      [rh_env 45500; rh_env 34608; rh_env 40000] in
   (rs, rh_isRHHigh s, rh_high s)) = ([80; 60; 70], false, false).
Proof. split; vm_compute; reflexivity. Qed.

(** A sensor never read (absent, or failing) reports high humidity on both
    flags: "not known" is not distinguished from "high". *)
Theorem humidity_unread_high_refuted : forall b urs,
  let '(_, s, rs) := rh_run b rh_initial (map (fun ur => mkShtEnv ur None) urs) in
  rs = [] /\ rh_isValid (rh_value s) = false /\ rh_isRHHigh s = true /\ rh_high s = true.
Proof.
  intros b urs.
  assert (H : forall b s, exists b', rh_run b s (map (fun ur => mkShtEnv ur None) urs) = (b', s, [])).
  { induction urs as [|u urs IH]; intros b0 s; cbn [map rh_run]; [eexists; reflexivity|].
    unfold sht_read_rh. destruct (sht_prepare b0 _) as [b1 ev]. cbn [se_data].
    destruct (IH b1 s) as [b' E]. rewrite E. eexists; reflexivity. }
  destruct (H b rh_initial) as [b' E]. rewrite E. repeat split.
Qed.

(** ** C182 *)

(** A beacon is produced exactly when the ID is at most 8 bytes and the frame,
    5 bytes and the ID, fits; the bytes after it are untouched; and what is
    produced decodes to a non-secure keep-alive of that sequence number and ID
    with an empty body. *)
Theorem nonsecure_beacon :
  forall outbuf n seq id il, byte seq -> byte il -> byte n ->
  n <= Zlen outbuf -> il <= Zlen id -> Forall byte id ->
  exists r out',
    generateNonsecureBeacon outbuf n seq (Some id) il = Some (r, out') /\
    Zlen out' = Zlen outbuf /\
    (r <> 0 <-> il <= 8 /\ 5 + il <= n) /\
    (r <> 0 ->
       r = 5 + il /\ skipn (Z.to_nat r) out' = skipn (Z.to_nat r) outbuf /\
       forall h2, Zlen (hid h2) = 8 ->
       exists h3,
         decodeHeader h2 (Some (firstn (Z.to_nat r) out')) r = Some (4 + il, h3) /\
         decodeNonsecure h3 (Some (firstn (Z.to_nat r) out')) = Some r /\
         isSecure h3 = false /\ hftype h3 = FTS_ALIVE /\ getSeq h3 = seq mod 16 /\
         getIl h3 = il /\ firstn (Z.to_nat il) (hid h3) = firstn (Z.to_nat il) id /\
         hbl h3 = 0).
Proof.
  intros outbuf n seq id il Hs Hi Hn Hob Hid Hb. unfold generateNonsecureBeacon.
  assert (Hty : byte FTS_ALIVE) by (red; unfold FTS_ALIVE; lia).
  assert (Hz : byte 0) by (red; lia).
  assert (H0 : 0 <= Zlen (@nil Z)) by (change (Zlen (@nil Z)) with 0; lia).
  destruct (C03_encode_nonsecure [] 0 outbuf n FTS_ALIVE seq id il)
    as (r & out' & E & HL & Hiff & Hgood); auto.
  exists r, out'. split; [exact E|]. split; [exact HL|].
  split.
  { rewrite Hiff. unfold FTS_ALIVE. red in Hi. lia. }
  intros Hr. destruct (Hgood Hr) as (Er & _ & Hsk). split; [lia|]. split; [exact Hsk|].
  intros h2 Hh2.
  destruct (C03_nonsecure_round_trip [] 0 outbuf n FTS_ALIVE seq id il r out' h2)
    as (h3 & A1 & A2 & A3 & A4 & A5 & A6 & A7 & A8 & _); auto.
  exists h3. auto 10.
Qed.

(** "OT" as ID, sequence number 21 (sent as 5), in a buffer of 8; and told the
    buffer has 6: fails (having already written the header). *)
Example nonsecure_beacon_case :
  generateNonsecureBeacon [1;2;3;4;5;6;7;8] 8 21 (Some [79; 84]) 2
    = Some (7, [6; 33; 82; 79; 84; 0; nonsecure_crc 33 21 [79; 84] []; 8]) /\
  generateNonsecureBeacon [1;2;3;4;5;6;7;8] 6 21 (Some [79; 84]) 2
    = Some (0, [6; 33; 82; 79; 84; 0; 7; 8]).
Proof. split; vm_compute; reflexivity. Qed.

(** ** C183 *)

(** Contributions of noise bytes to the pool, with the two clock readings
    taken with each. *)
Definition pool_run (s : Rng * Z) (l : list (Z * Z * Z)) : Rng * Z :=
  fold_left (fun s '(d, c, t) => addEntropyToPool s d c t) l s.

Definition pool_ok (s : Rng * Z) : Prop := rng_ok (fst s) /\ byte (snd s).

Lemma lxor_byte a b : byte a -> byte b -> byte (Z.lxor a b).
Proof. apply lxor8. Qed.
Lemma lxor_inj a b c : Z.lxor a c = Z.lxor b c -> a = b.
Proof.
  intros H.
  assert (E : Z.lxor (Z.lxor a c) c = Z.lxor (Z.lxor b c) c) by (rewrite H; reflexivity).
  rewrite !Z.lxor_assoc, Z.lxor_nilpotent, !Z.lxor_0_r in E. exact E.
Qed.
Lemma u8_is_byte z : byte (u8 z).
Proof. unfold u8, byte. pose proof (Z.mod_pos_bound z 256). lia. Qed.

(** One contribution: the pool keeps its shape; different noise bytes, or
    different clock readings, give different pools; and different pools stay
    different, so nothing already gathered is lost. *)
Theorem pool_keeps_noise : forall s s' d c t d' c' t',
  pool_ok s -> pool_ok s' -> byte d -> byte c -> byte t -> byte d' -> byte c' -> byte t' ->
  pool_ok (addEntropyToPool s d c t) /\
  (addEntropyToPool s d c t = addEntropyToPool s d' c' t' -> d = d' /\ c = c' /\ t = t') /\
  (addEntropyToPool s d c t = addEntropyToPool s' d c t -> s = s').
Proof.
  intros [g n] [g' n'] d c t d' c' t' [Hg Hn] [Hg' Hn'] Hd Hc Ht Hd' Hc' Ht'.
  cbn [fst snd] in *. unfold addEntropyToPool, pool_ok. cbn [fst snd].
  pose proof (u8_is_byte (n + 1)) as Hk.
  pose proof (lxor_byte _ _ Hd Hk) as H1. pose proof (lxor_byte _ _ Hd' Hk) as H1'.
  destruct (rng8_seeding_reversible g g' (Z.lxor d (u8 (n + 1))) c t (Z.lxor d' (u8 (n + 1))) c' t')
    as (A & B & C); auto.
  split; [split; assumption|]. split.
  - intros E. pose proof (f_equal fst E) as E1. cbn [fst] in E1.
    destruct (B E1) as (B1 & B2 & B3). apply lxor_inj in B1. auto.
  - intros E. pose proof (f_equal fst E) as E1. pose proof (f_equal snd E) as E2.
    cbn [fst snd] in E1, E2.
    assert (En : n = n').
    { revert E2. unfold u8. red in Hn, Hn'. clear - Hn Hn'.
      assert (Hm : forall x, 0 <= x < 256 -> (x + 1) mod 256 = if x =? 255 then 0 else x + 1).
      { intros x Hx. destruct (x =? 255) eqn:Ex.
        - replace x with 255 by lia. reflexivity.
        - apply Z.mod_small. lia. }
      rewrite !Hm by assumption. destruct (n =? 255) eqn:?, (n' =? 255) eqn:?; lia. }
    subst n'. f_equal. apply C. exact E1.
Qed.

(** Any number of contributions. *)
Definition noise_ok (x : Z * Z * Z) : Prop :=
  let '(d, c, t) := x in byte d /\ byte c /\ byte t.

Theorem pool_never_forgets : forall l s s',
  Forall noise_ok l -> pool_ok s -> pool_ok s' ->
  pool_ok (pool_run s l) /\ (pool_run s l = pool_run s' l -> s = s').
Proof.
  induction l as [|[[d c] t] l IH]; intros s s' Hl Hs Hs'.
  - split; [exact Hs|]. auto.
  - inversion Hl as [|x l0 Hx Hl']; subst. destruct Hx as (Hd & Hc & Ht). cbn [pool_run fold_left].
    fold (pool_run (addEntropyToPool s d c t) l). fold (pool_run (addEntropyToPool s' d c t) l).
    destruct (pool_keeps_noise s s' d c t d c t) as (A & _ & B); auto.
    destruct (pool_keeps_noise s' s d c t d c t) as (A' & _ & _); auto.
    destruct (IH _ _ Hl' A A') as [C D]. split; [exact C|]. intros E. apply B, D, E.
Qed.

(** Two devices whose noise differs in one contribution, and only there, end
    in different states whatever is added later. *)
Theorem pool_one_difference : forall l1 x y l2 s,
  Forall noise_ok l1 -> Forall noise_ok l2 -> noise_ok x -> noise_ok y -> pool_ok s -> x <> y ->
  pool_run s (l1 ++ x :: l2) <> pool_run s (l1 ++ y :: l2).
Proof.
  intros l1 x y l2 s H1 H2 Hx Hy Hs Hne E. unfold pool_run in E. rewrite !fold_left_app in E.
  fold (pool_run s l1) in E. destruct (pool_never_forgets l1 s s H1 Hs Hs) as [Hs1 _].
  set (s1 := pool_run s l1) in *. clearbody s1. cbn [fold_left] in E.
  destruct x as [[d c] t], y as [[d' c'] t']. destruct Hx as (? & ? & ?), Hy as (? & ? & ?).
  destruct (pool_keeps_noise s1 s1 d c t d' c' t') as (A & B & _); auto.
  destruct (pool_keeps_noise s1 s1 d' c' t' d c t) as (A' & _ & _); auto.
  destruct (pool_never_forgets l2 _ _ H2 A A') as [_ D].
  destruct (B (D E)) as (-> & -> & ->). apply Hne. reflexivity.
Qed.

(** The power-up state is admissible, and one bit of difference shows. *)
Example pool_case :
  pool_ok (rng_reset, 0) /\
  pool_run (rng_reset, 0) [(5, 1, 2); (9, 3, 4)] <> pool_run (rng_reset, 0) [(4, 1, 2); (9, 3, 4)].
Proof.
  split; [unfold pool_ok, rng_ok, rng_reset; cbn; unfold byte; lia|].
  vm_compute. discriminate.
Qed.

(** ** C184 *)

(** A confident or probable mark made when the room was not occupied, with
    fewer than [3 - n + 1] minutes gone since and no declaration of vacancy. *)
Definition new_mark (l : list oop) (n : Z) : Prop :=
  exists l1 o l2, l = l1 ++ o :: l2 /\ (o = OOcc \/ o = OPoss) /\
    isLikelyOccupied (orun Occ0 l1) = false /\
    (forall o', In o' l2 -> ~ vacates o') /\ oreads l2 + n <= 3.

Lemma mark_new s o : OInv s -> o <> ORead -> ~ vacates o ->
  newOccupancyCountdownM (ostep s o) =
    if (0 =? occupationCountdownM s) && (match o with OOcc | OPoss => true | _ => false end)
    then 3 else newOccupancyCountdownM s.
Proof.
  intros HI Hr Hv. unfold vacates in Hv.
  destruct o; try congruence; try (exfalso; apply Hv; auto; fail);
    unfold ostep, ostep_i, nogaps.
  - unfold markAsOccupied, isr, fold_left, set_value, set_oc, set_new, NEW_OCCUPANCY_TIMEOUT_M.
    cbn [occupationCountdownM newOccupancyCountdownM].
    destruct (0 =? occupationCountdownM s); reflexivity.
  - unfold markAsPossiblyOccupied, isr, fold_left, cas_oc, set_oc, set_new, NEW_OCCUPANCY_TIMEOUT_M.
    destruct (0 =? occupationCountdownM s); cbn [occupationCountdownM newOccupancyCountdownM];
      rewrite Z.eqb_refl; reflexivity.
  - unfold markAsJustPossiblyOccupied, isr, fold_left, cas_oc, set_oc. rewrite Z.eqb_refl.
    rewrite Bool.andb_false_r. destruct (vacancyH s >? weakVacantHThrH); reflexivity.
Qed.

Lemma new_spec l : forall n, 0 < n -> (n <= newOccupancyCountdownM (orun Occ0 l) <-> new_mark l n).
Proof.
  induction l as [|o l IH] using rev_ind; intros n Hn.
  - cbn. split; [lia|]. intros (l1 & o & l2 & E & _). destruct l1; discriminate.
  - rewrite orun_app. cbn [orun fold_left]. pose proof (orun_inv l Occ0 OInv0) as HI.
    set (s := orun Occ0 l) in *.
    assert (HF : new_mark (l ++ [o]) n <->
       ((o = OOcc \/ o = OPoss) /\ isLikelyOccupied s = false /\ n <= 3) \/
       (~ vacates o /\ new_mark l (n + oreads [o]))).
    { split.
      - intros (l1 & o1 & l2 & E & Ho & Hu & Hv & Hm). destruct l2 as [|x l2] using rev_ind.
        + apply app_inj_tail in E. destruct E as [-> ->]. left. unfold oreads in Hm. cbn in Hm.
          change (Zlen (@nil oop)) with 0 in Hm. unfold s. split; [exact Ho|]. split; [exact Hu|lia].
        + clear IHl2.
          replace (l1 ++ o1 :: l2 ++ [x]) with ((l1 ++ o1 :: l2) ++ [x]) in E by (rewrite <- app_assoc; reflexivity).
          apply app_inj_tail in E. destruct E as [-> ->]. right.
          split; [apply Hv, in_or_app; right; left; reflexivity|].
          exists l1, o1, l2. split; [reflexivity|]. split; [exact Ho|]. split; [exact Hu|].
          split; [intros o' Ho'; apply Hv, in_or_app; auto|].
          rewrite oreads_app in Hm. lia.
      - intros [(Ho & Hu & H3)|(Hnv & l1 & o1 & l2 & -> & Ho & Hu & Hv & Hm)].
        + exists l, o, []. split; [reflexivity|]. split; [exact Ho|]. split; [exact Hu|].
          split; [intros ? []|]. unfold oreads; cbn. change (Zlen (@nil oop)) with 0. lia.
        + exists l1, o1, (l2 ++ [o]). split; [rewrite <- app_assoc; reflexivity|].
          split; [exact Ho|]. split; [exact Hu|].
          split; [|rewrite oreads_app; lia].
          intros o' Ho'. apply in_app_or in Ho'. destruct Ho' as [Ho'|[<-|[]]]; auto. }
    rewrite HF. clear HF. destruct (vacates_dec o) as [Hv|Hv].
    + destruct (vacate_oc s o Hv) as (_ & -> & _). split; [lia|].
      intros [(H & _)|[H _]]; [|contradiction].
      destruct Hv as [-> | [-> | ->]]; destruct H; discriminate.
    + assert (Hr : o = ORead \/ o <> ORead) by (destruct o; auto; right; discriminate).
      destruct Hr as [-> |Hr].
      * rewrite (read_new s HI). change (oreads [ORead]) with 1.
        rewrite <- (IH (n + 1)) by lia. fold s.
        split; [intros H; right; split; [exact Hv|lia]|].
        intros [(H & _)|[_ H]]; [destruct H; discriminate|lia].
      * rewrite (mark_new s o HI Hr Hv).
        assert (E0 : oreads [o] = 0) by (destruct o; try reflexivity; congruence).
        rewrite E0, Z.add_0_r. rewrite <- (IH n Hn). fold s.
        destruct HI as (H1 & H2 & _). unfold isLikelyOccupied.
        destruct (0 =? occupationCountdownM s) eqn:Ez; cbn [negb andb].
        -- destruct o; try congruence; try (exfalso; apply Hv; unfold vacates; auto; fail).
           ++ split; [intros; left; repeat split; auto; lia|]. intros [(_ & _ & H)|[_ H]]; lia.
           ++ split; [intros; left; repeat split; auto; lia|]. intros [(_ & _ & H)|[_ H]]; lia.
           ++ split; [intros; right; auto|]. intros [([H|H] & _)|[_ H]]; [discriminate|discriminate|exact H].
        -- split; [intros; right; auto|]. intros [(_ & H & _)|[_ H]]; [discriminate|exact H].
Qed.

(** After any history, new occupancy is reported exactly when a confident or
    probable mark was made while the room was not occupied, fewer than three
    minutes ago, and vacancy has not been declared since.  In particular weak
    hints never raise it, and marks in an occupied room never renew it. *)
Theorem new_occupancy_iff : forall l,
  reportedNewOccupancyRecently (orun Occ0 l) = true <->
  exists l1 o l2, l = l1 ++ o :: l2 /\ (o = OOcc \/ o = OPoss) /\
    isLikelyOccupied (orun Occ0 l1) = false /\
    (forall o', In o' l2 -> ~ vacates o') /\ oreads l2 < 3.
Proof.
  intros l. unfold reportedNewOccupancyRecently.
  pose proof (orun_inv l Occ0 OInv0) as (_ & H & _).
  pose proof (new_spec l 1 ltac:(lia)) as HS.
  transitivity (1 <= newOccupancyCountdownM (orun Occ0 l)); [lia|]. rewrite HS. clear.
  unfold new_mark. split; intros (l1 & o & l2 & A & B & C & D & E); exists l1, o, l2;
    (split; [exact A|]; split; [exact B|]; split; [exact C|]; split; [exact D|lia]).
Qed.

(** New occupancy implies occupancy. *)
Theorem new_occupancy_occupied : forall l,
  reportedNewOccupancyRecently (orun Occ0 l) = true -> isLikelyOccupied (orun Occ0 l) = true.
Proof.
  intros l H. apply new_occupancy_iff in H.
  destruct H as (l1 & o & l2 & -> & Ho & _ & Hv & Hm). apply C39_occupied_iff.
  exists l1, o, l2. split; [reflexivity|]. split; [exact Hv|].
  destruct Ho as [-> | ->]; cbn [mark_minutes]; lia.
Qed.

Example new_occupancy_case :
  map (fun l => reportedNewOccupancyRecently (orun Occ0 l))
    [[OOcc; ORead; ORead]; [OOcc; ORead; ORead; ORead]; [OJust]; [OJust; OOcc];
     [OOcc; ORead; ORead; OOcc; ORead]; [OPoss; OVacant]]
  = [true; false; false; false; false; false].
Proof. vm_compute. reflexivity. Qed.

Print Assumptions humidity_flags.
Print Assumptions humidity_unread_high_refuted.
Print Assumptions nonsecure_beacon.
Print Assumptions pool_keeps_noise.
Print Assumptions pool_never_forgets.
Print Assumptions pool_one_difference.
Print Assumptions new_occupancy_iff.
Print Assumptions new_occupancy_occupied.
