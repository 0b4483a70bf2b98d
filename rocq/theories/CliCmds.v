(** The CLI commands that change the node's stored configuration: C107-C112. *)
From Coq Require String.
Import String.StringSyntax.
From Verif Require Import Base EepromModel EepromProofs EepromProps AssocProps RtcModel RtcProps StatsModel StatsEeprom
  FhtSyncModel CliModel CliProps.

Lemma mbind_run {A B} (m : M A) (k : A -> M B) s f s' a f' :
  m s f = (s', Some (a, f')) -> mbind m k s f = k a s' f'.
Proof. unfold mbind. intros ->. reflexivity. Qed.

(** A token denoting a usable ID byte: hex, top bit set, not 0xff. *)
Definition id_token (t : str) (v : Z) : Prop := hex_token t v /\ 128 <= v <= 254.

Lemma valid_id_spec v : byte v -> validIDByte v = true <-> 128 <= v <= 254.
Proof.
  intros Hv.
  assert (H : below 256 (fun v => Bool.eqb (validIDByte v) ((128 <=? v) && (v <=? 254))) = true) by (vm_compute; reflexivity).
  pose proof (below_spec _ _ H v Hv) as H1. cbv beta in H1. apply Bool.eqb_prop in H1. rewrite H1. lia.
Qed.
Lemma id_token_ok t v : id_token t v ->
  parseHexByte (Some t) = v /\ (-1 =? parseHexByte (Some t)) || negb (validIDByte (parseHexByte (Some t))) = false /\
  u8 (parseHexByte (Some t)) = v.
Proof.
  intros [H1 H2]. destruct (proj1 cli_hex_parse t v H1) as [-> Hv]. split; [reflexivity|].
  assert (byte v) by (unfold byte; lia). split; [|apply u8_id; assumption].
  rewrite (proj2 (valid_id_spec v ltac:(assumption)) H2). cbn [negb]. lia.
Qed.
Lemma hex_dec t : (exists v, hex_token t v /\ parseHexByte (Some t) = v /\ byte v) \/
  ((forall v, ~ hex_token t v) /\ parseHexByte (Some t) = -1).
Proof.
  destruct (Z.eq_dec (parseHexByte (Some t)) (-1)) as [E | E].
  - right. split; [|exact E]. intros v Hv. destruct (proj1 cli_hex_parse t v Hv). lia.
  - left. assert (exists v, hex_token t v) as [v Hv].
    { destruct t as [|c [|d r]]; cbn [parseHexByte] in E; [congruence| |].
      - exists (parseHexDigit c). cbn [hex_token]. apply parseHexDigit_spec. destruct (parseHexDigit c =? -1) eqn:E1; lia.
      - destruct (parseHexDigit c =? -1) eqn:E1; [congruence|]. destruct (parseHexDigit d =? -1) eqn:E2; [congruence|].
        exists (16 * parseHexDigit c + parseHexDigit d). cbn [hex_token].
        exists (parseHexDigit c), (parseHexDigit d). rewrite !parseHexDigit_spec. lia. }
    exists v. destruct (proj1 cli_hex_parse t v Hv). split; [exact Hv|]. split; [assumption|unfold byte; lia].
Qed.
Lemma id_token_bad t : (forall v, ~ id_token t v) ->
  (-1 =? parseHexByte (Some t)) || negb (validIDByte (parseHexByte (Some t))) = true.
Proof.
  intros H. destruct (hex_dec t) as [(v & H1 & -> & Hv) | [_ ->]]; [|reflexivity].
  destruct (validIDByte v) eqn:E; [|apply orb_true_r].
  exfalso. apply (H v). split; [exact H1|]. apply valid_id_spec; assumption.
Qed.

(** [tok], [rest]: the tokeniser has delivered [tok] and has [rest] left; together [ws]. *)
Definition at_words (tok : option str) (rest : str) (ws : list str) : Prop :=
  match ws with [] => tok = None /\ words rest = [] | t :: r => tok = Some t /\ words rest = r end.
Lemma at_words_next tok rest ws : at_words tok rest ws ->
  let '(tok', rest') := strtok rest in at_words tok' rest' (tl ws).
Proof.
  intros H. pose proof (strtok_words rest) as HS. destruct ws as [|t r]; cbn [at_words tl] in *; destruct H as [_ H]; rewrite H in HS.
  - rewrite HS. split; reflexivity.
  - destruct r as [|t2 r]; [rewrite HS; split; reflexivity|]. destruct HS as (q & -> & HS). split; [reflexivity|exact HS].
Qed.
Lemma strtok_at s : let '(tok, rest) := strtok s in at_words tok rest (words s).
Proof.
  pose proof (strtok_words s) as HS. destruct (words s) as [|t r]; [rewrite HS; split; reflexivity|].
  destruct HS as (q & -> & HS). split; [reflexivity|exact HS].
Qed.

Lemma parse_id_good : forall n ws vs tok rest id i, 0 <= i -> at_words tok rest ws ->
  Forall2 id_token (firstn n ws) vs -> (Z.to_nat i + n <= length id)%nat ->
  parse_id n tok rest id i = Some (firstn (Z.to_nat i) id ++ vs ++ skipn (Z.to_nat i + length vs) id).
Proof.
  induction n as [|n IH]; intros ws vs tok rest id i Hi HW HV HL; cbn [parse_id firstn] in *.
  - inversion HV; subst. cbn [app length]. rewrite Nat.add_0_r, firstn_skipn. reflexivity.
  - pose proof (at_words_next _ _ _ HW) as HN. destruct (strtok rest) as [tok' rest'].
    destruct ws as [|t ws]; cbn [at_words tl firstn] in *.
    + destruct HW as [-> _]. inversion HV; subst. cbn [app length]. rewrite Nat.add_0_r, firstn_skipn.
      assert (HA : Forall2 id_token (firstn n []) []) by (destruct n; constructor).
      rewrite (IH [] [] tok' rest' id (i + 1) ltac:(lia) HN HA) by lia. cbn [app length]. rewrite Nat.add_0_r, firstn_skipn. reflexivity.
    + destruct HW as [-> _]. destruct vs as [|v vs]; inversion HV as [|? ? ? ? HT HR]; subst.
      destruct (id_token_ok _ _ HT) as (_ & -> & ->).
      assert (HF : length (firstn (Z.to_nat i) id) = Z.to_nat i) by (rewrite firstn_length; lia).
      rewrite (IH ws vs tok' rest' _ (i + 1) ltac:(lia) HN HR).
      * replace (Z.to_nat (i + 1)) with (Z.to_nat i + 1)%nat by lia. f_equal.
        set (X := firstn (Z.to_nat i) id) in *. set (Y := skipn (S (Z.to_nat i)) id).
        assert (HX : length (X ++ [v]) = (Z.to_nat i + 1)%nat) by (rewrite app_length, HF; reflexivity).
        assert (H1 : firstn (Z.to_nat i + 1) (X ++ [v] ++ Y) = X ++ [v]).
        { rewrite app_assoc, <- HX, firstn_app, firstn_all, Nat.sub_diag, firstn_O, app_nil_r. reflexivity. }
        assert (H2 : forall m, skipn (Z.to_nat i + 1 + m) (X ++ [v] ++ Y) = skipn m Y).
        { intros m. rewrite app_assoc, <- HX, skipn_app, skipn_all2 by lia. cbn [app]. f_equal. lia. }
        rewrite H1, H2, <- app_assoc. cbn [app length]. do 3 f_equal. unfold Y. rewrite skipn2. f_equal. lia.
      * rewrite !app_length, HF, skipn_length. cbn [length]. lia.
Qed.
Lemma parse_id_bad : forall n ws tok rest id i, at_words tok rest ws ->
  (exists t, In t (firstn n ws) /\ forall v, ~ id_token t v) -> parse_id n tok rest id i = None.
Proof.
  induction n as [|n IH]; intros ws tok rest id i HW (t & HI & HT); cbn [parse_id firstn] in *; [destruct HI|].
  pose proof (at_words_next _ _ _ HW) as HN. destruct (strtok rest) as [tok' rest'].
  destruct ws as [|t0 ws]; [destruct HI|]. cbn [at_words tl firstn] in *. destruct HW as [-> _].
  destruct HI as [-> | HI].
  - rewrite (id_token_bad t HT). reflexivity.
  - destruct ((-1 =? parseHexByte (Some t0)) || negb (validIDByte (parseHexByte (Some t0)))); [reflexivity|].
    eapply IH; [exact HN|]. exists t. auto.
Qed.

(** The arguments on a command line: the words after the letter and the character after it. *)
Definition args (line : str) : list str := words (skipn 2 line).
Lemma args_short line : Zlen line < 3 -> args line = [].
Proof.
  intros H. unfold args. destruct line as [|a [|b [|c r]]]; try reflexivity.
  exfalso. rewrite !Zlen_cons in H. pose proof (Zlen_nonneg r). lia.
Qed.

Lemma is_hex_not c v : is_hex c v -> c <> 63 /\ c <> 42.
Proof. rewrite parseHexDigit_spec. unfold parseHexDigit. intros [H1 H2]. destruct ((48 <=? c) && (c <=? 57)) eqn:E1; [lia|].
  destruct ((97 <=? c) && (c <=? 102)) eqn:E2; [lia|]. destruct ((65 <=? c) && (c <=? 70)) eqn:E3; lia. Qed.
Lemma hex_token_head t v : hex_token t v -> znth t 0 <> 63 /\ znth t 0 <> 42.
Proof.
  destruct t as [|c [|d r]]; cbn [hex_token]; [tauto| |].
  - apply is_hex_not.
  - intros (h & l & H & _). exact (is_hex_not _ _ H).
Qed.

(** ** C107: the association command *)

(** "A hh hh hh hh hh hh hh hh" with eight usable ID bytes adds exactly that ID after those
    already there, with fresh (erased) counters, and reports its position; nothing else in
    the EEPROM changes; a full table is left alone and the command refused. *)
Theorem cli_assoc_add : forall junk line id s f,
  25 <= Zlen line -> Zlen junk = 8 -> Forall2 id_token (firstn 8 (args line)) id -> Zlen id = 8 ->
  compact (mem s) -> (32 <= f)%nat ->
  let n := Zlen (ids (mem s)) in
  exists s' out f', cmd_assoc junk line s f = (s', Some ((false, out), f')) /\ compact (mem s') /\
    (n = 8 -> out = [Invalid] /\ meq (mem s') (mem s)) /\
    (n < 8 -> out = [TStr "Index "; TDec n] /\ ids (mem s') = ids (mem s) ++ [id] /\
       (forall q, 768 + 32 * n + 8 <= q < 768 + 32 * n + 32 -> mem s' q = 255) /\
       (forall q, q < 768 + 32 * n \/ 768 + 32 * n + 32 <= q -> mem s' q = mem s q)).
Proof.
  intros junk line id s f HL HJ HV HI HC Hf n. unfold cmd_assoc. cbv zeta.
  replace (Zlen line >=? 3) with true by lia. pose proof (strtok_at (skipn 2 line)) as HW. fold (args line) in HW.
  destruct (strtok (skipn 2 line)) as [tok last].
  destruct (args line) as [|t ws] eqn:EA.
  { exfalso. cbn in HV. inversion HV; subst. discriminate. }
  pose proof (parse_id_good 8 (t :: ws) id tok last junk 0 ltac:(lia) HW HV ltac:(unfold Zlen in *; lia)) as HP.
  cbn [at_words] in HW. destruct HW as [-> HW].
  assert (HT : exists v, hex_token t v) by (cbn [firstn] in HV; inversion HV as [|? ? ? ? [H _] _]; eauto).
  destruct HT as [v HT]. pose proof (hex_token_head _ _ HT).
  replace (63 =? znth t 0) with false by lia. replace (42 =? znth t 0) with false by lia.
  replace (Zlen line >=? 25) with true by lia. rewrite HP. change (Z.to_nat 0) with 0%nat. cbn [firstn app].
  rewrite skipn_all2 by (unfold Zlen in *; lia). rewrite app_nil_r.
  assert (H255 : znth id 0 <> 255).
  { destruct id as [|b r]; [cbn; discriminate|]. cbn [firstn] in HV. inversion HV as [|? ? ? ? [_ H0] _]; subst. change (znth (b :: r) 0) with b. lia. }
  destruct (C22_add id s f HI H255 HC Hf) as (s' & r & f' & E & HC' & H8 & Hlt). fold n in H8, Hlt.
  rewrite (mbind_run _ _ _ _ _ _ _ E).
  assert (HN : 0 <= n) by apply Zlen_nonneg.
  assert (n <= 8) by apply ids_len.
  destruct (Z.eq_dec n 8) as [E8 | E8].
  - destruct (H8 E8) as [-> HM]. exists s', [Invalid], f'. split; [reflexivity|]. split; [exact HC'|].
    split; [auto|lia].
  - destruct (Hlt ltac:(lia)) as (-> & HA & HB & HD). replace (n >=? 0) with true by lia.
    exists s', [TStr "Index "; TDec n], f'. split; [reflexivity|]. split; [exact HC'|]. split; [lia|]. auto.
Qed.

(** Lines without arguments, too short for eight bytes, or with a word among the first eight
    that is not a usable ID byte, are refused and change nothing. *)
Theorem cli_assoc_refuses_partial : forall junk line s f,
  match args line with
  | [] => True
  | t :: _ => znth t 0 <> 63 /\ znth t 0 <> 42 /\
      (Zlen line < 25 \/ exists t, In t (firstn 8 (args line)) /\ forall v, ~ id_token t v)
  end ->
  cmd_assoc junk line s f = (s, Some ((false, [Invalid]), f)).
Proof.
  intros junk line s f H. unfold cmd_assoc. cbv zeta. destruct (Zlen line >=? 3) eqn:E3.
  - pose proof (strtok_at (skipn 2 line)) as HW. fold (args line) in HW. destruct (strtok (skipn 2 line)) as [tok last].
    destruct (args line) as [|t ws] eqn:EA; [destruct HW as [-> _]; reflexivity|].
    pose proof (parse_id_bad 8 (t :: ws) tok last junk 0 HW) as HP.
    cbn [at_words] in HW. destruct HW as [-> HW]. destruct H as (H1 & H2 & H3).
    replace (63 =? znth t 0) with false by lia. replace (42 =? znth t 0) with false by lia.
    destruct (Zlen line >=? 25) eqn:E25; [|reflexivity]. destruct H3 as [H3 | H3]; [lia|].
    rewrite (HP H3). reflexivity.
  - reflexivity.
Qed.

(** "A *" empties the table. *)
Theorem cli_assoc_clear : forall junk line t ws s f, args line = t :: ws -> znth t 0 = 42 -> (8 <= f)%nat ->
  exists s' f', cmd_assoc junk line s f = (s', Some ((false, [TStr "Cleared"]), f')) /\ ids (mem s') = [] /\
    (forall q, (forall i, 0 <= i < 8 -> q <> 768 + 32 * i) -> mem s' q = mem s q).
Proof.
  intros junk line t ws s f HA Ht Hf. unfold cmd_assoc. cbv zeta.
  destruct (Zlen line >=? 3) eqn:E3; [|rewrite args_short in HA by lia; discriminate].
  pose proof (strtok_at (skipn 2 line)) as HW. fold (args line) in HW. destruct (strtok (skipn 2 line)) as [tok last].
  rewrite HA in HW. destruct HW as [-> HW]. rewrite Ht. change (63 =? 42) with false. change (42 =? 42) with true. cbv iota.
  destruct (C22_clear s f Hf) as (s' & f' & E & H1 & _ & H2). exists s', f'.
  split; [|split; [exact H1|exact H2]]. rewrite (mbind_run _ _ _ _ _ _ _ E). reflexivity.
Qed.

(** "A ?" lists the first two and the last byte of every association, in order, and changes nothing. *)
Definition listing (l : list (list Z)) : list Item :=
  flat_map (fun id => [THex (znth id 0); TStr " "; THex (znth id 1); TStr " ... "; THex (znth id 7); TNl]) l.
Lemma does_listing : forall n i s, 0 <= i -> i + Z.of_nat n <= Zlen (ids (mem s)) ->
  does (list_assocs i n) s [] (listing (firstn n (skipn (Z.to_nat i) (ids (mem s))))).
Proof.
  induction n as [|n IH]; intros i s Hi Hn; cbn [list_assocs]; [apply does_ret|].
  assert (HG : does (getNodeAssociation i) s [] (nth_error (ids (mem s)) (Z.to_nat i))).
  { intros f. right. destruct (C22_get s f i Hi) as (s' & E & HM). exists s', f. split; [exact E|]. split; [cbn; lia|exact HM]. }
  assert (HX : exists id, nth_error (ids (mem s)) (Z.to_nat i) = Some id).
  { destruct (nth_error (ids (mem s)) (Z.to_nat i)) as [id|] eqn:E; [eauto|]. apply nth_error_None in E. unfold Zlen in Hn. lia. }
  destruct HX as [id HX]. rewrite HX in HG. eapply does_bind0; [exact HG|]. intros s1 H1. cbv beta iota zeta.
  pose proof (ids_meq _ _ H1) as HI.
  specialize (IH (i + 1) s1 ltac:(lia)). rewrite HI in IH. eapply does_bind0; [apply IH; lia|]. intros s2 _. cbv beta.
  assert (HS : skipn (Z.to_nat i) (ids (mem s)) = id :: skipn (Z.to_nat (i + 1)) (ids (mem s))).
  { replace (Z.to_nat (i + 1)) with (S (Z.to_nat i)) by lia. revert HX. generalize (Z.to_nat i). generalize (ids (mem s)).
    intros l. induction l as [|a l IHl]; intros [|k] HX; cbn in *; try discriminate; [congruence|]. apply IHl. exact HX. }
  rewrite HS. cbn [firstn]. apply does_ret.
Qed.
Lemma meq_run0 {A} (p : M A) s a f : does p s [] a -> exists s', p s f = (s', Some (a, f)) /\ meq (mem s') (mem s).
Proof. intros H. apply does_run0. exact H. Qed.

Theorem cli_assoc_query : forall junk line t ws s f, args line = t :: ws -> znth t 0 = 63 -> compact (mem s) ->
  exists s' tail, cmd_assoc junk line s f =
      (s', Some ((false, TStr "IDs:" :: listing (ids (mem s)) ++ tail), f)) /\ meq (mem s') (mem s) /\
    match ws with
    | [] => tail = []
    | p :: _ => (forall v, ~ hex_token p v) /\ tail = [] \/
        exists v j, hex_token p v /\ tail = [TDec j; TNl] /\
          (* the first association whose ID starts with that byte, or -1 *)
          (j = -1 /\ (forall id, In id (ids (mem s)) -> znth id 0 <> v) \/
           exists id, 0 <= j < Zlen (ids (mem s)) /\ nth_error (ids (mem s)) (Z.to_nat j) = Some id /\ znth id 0 = v /\
             forall k id', 0 <= k < j -> nth_error (ids (mem s)) (Z.to_nat k) = Some id' -> znth id' 0 <> v)
    end.
Proof.
  intros junk line t ws s f HA Ht HC. unfold cmd_assoc. cbv zeta.
  destruct (Zlen line >=? 3) eqn:E3; [|rewrite args_short in HA by lia; discriminate].
  pose proof (strtok_at (skipn 2 line)) as HW. fold (args line) in HW. destruct (strtok (skipn 2 line)) as [tok last].
  rewrite HA in HW. destruct HW as [-> HW]. rewrite Ht. change (63 =? 63) with true. cbv iota.
  destruct (C22_count s f) as (s1 & E1 & M1). rewrite (mbind_run _ _ _ _ _ _ _ E1).
  assert (HI1 : ids (mem s1) = ids (mem s)) by (apply ids_meq; exact M1).
  pose proof (does_listing (Z.to_nat (Zlen (ids (mem s)))) 0 s1 ltac:(lia) ltac:(rewrite HI1; pose proof (Zlen_nonneg (ids (mem s))); lia)) as HL.
  rewrite HI1 in HL. change (Z.to_nat 0) with 0%nat in HL. cbn [skipn] in HL.
  rewrite firstn_all2 in HL by (unfold Zlen; lia).
  destruct (meq_run0 _ _ _ f HL) as (s2 & E2 & M2). rewrite (mbind_run _ _ _ _ _ _ _ E2).
  assert (M02 : meq (mem s2) (mem s)) by (eapply meq_trans; eassumption).
  pose proof (strtok_at last) as HW2. rewrite HW in HW2. destruct (strtok last) as [tok2 last2].
  destruct ws as [|p ws]; destruct HW2 as [-> _].
  - exists s2, []. rewrite app_nil_r. split; [reflexivity|]. split; [exact M02|reflexivity].
  - destruct (hex_dec p) as [(v & H1 & -> & Hv) | [H1 ->]].
    + replace (-1 =? v) with false by (unfold byte in Hv; lia). rewrite u8_id by exact Hv.
      assert (HI2 : ids (mem s2) = ids (mem s)) by (apply ids_meq; exact M02).
      destruct (C22_lookup s2 f 0 [v] 1 (compact_meq _ _ (meq_sym _ _ M02) HC) ltac:(lia) ltac:(change (Zlen [v]) with 1; lia))
        as (s3 & r & E3' & M3 & HR). rewrite (mbind_run _ _ _ _ _ _ _ E3').
      eexists s3, _. split; [reflexivity|]. split; [eapply meq_trans; eassumption|]. right.
      exists v. eexists. split; [exact H1|]. split; [reflexivity|]. cbv zeta in HR. rewrite HI2 in HR.
      change (firstn (Z.to_nat 1) [v]) with [v] in HR.
      assert (HS : forall id, In id (ids (mem s)) -> starts_with [v] id <-> znth id 0 = v).
      { intros id Hid. unfold starts_with. cbn [length firstn]. 
        assert (HL8 : length id = 8%nat).
        { clear - Hid. unfold ids in Hid. revert Hid. generalize 0. generalize 8%nat at 1.
          induction n as [|n IH]; intros i Hid; cbn [ids_from] in Hid; [destruct Hid|].
          destruct (_ =? 255); [destruct Hid|]. destruct Hid as [<- | Hid]; [apply block_len|]. eapply IH; eassumption. }
        destruct id as [|b r0]; [discriminate|]. change (znth (b :: r0) 0) with b. split; [congruence|intros ->; reflexivity]. }
      destruct r as [[j id] |].
      * right. exists id. destruct HR as (Hj & HN & HS1 & HF). split; [lia|]. split; [exact HN|].
        split; [apply HS; [eapply nth_error_In; eassumption|exact HS1]|].
        intros k id' Hk Hn. rewrite <- HS by (eapply nth_error_In; eassumption). exact (HF k id' ltac:(lia) Hn).
      * left. split; [reflexivity|]. intros id Hid Hz. apply In_nth_error in Hid as Hk. destruct Hk as [k Hk].
        assert (HLk : (k < length (ids (mem s)))%nat) by (apply nth_error_Some; congruence).
        destruct HR as [HR | HR]; [lia|].
        apply (HR (Z.of_nat k) id); [lia|rewrite Nat2Z.id; exact Hk|]. apply HS; assumption.
    + exists s2, []. rewrite app_nil_r. split; [reflexivity|]. split; [exact M02|]. left. auto.
Qed.

(** The wanted property "only IDs written on the line are ever stored" fails: with fewer than
    eight words the rest of the ID is whatever happened to be in memory. *)
Theorem cli_assoc_short_refuted :
  ~ (forall junk line s f id, Zlen junk = 8 -> compact (mem s) -> (32 <= f)%nat ->
       In id (ids (mem (fst (cmd_assoc junk line s f)))) ->
       In id (ids (mem s)) \/ Forall2 id_token (firstn 8 (args line)) id).
Proof.
  intros H.
  specialize (H [1; 2; 3; 4; 5; 6; 7; 8] ([65; 32; 56; 49] ++ repeat 32 21)
    (mkEE (fun _ => 255) []) 40%nat [129; 2; 3; 4; 5; 6; 7; 8] eq_refl).
  destruct H as [H | H].
  - intros i _. reflexivity.
  - lia.
  - vm_compute. left. reflexivity.
  - vm_compute in H. exact H.
  - change (firstn 8 (args _)) with [[56; 49]] in H. inversion H as [|? ? ? ? _ HR]; subst. inversion HR.
Qed.

Example cli_assoc_example :
  let line := [65; 32] ++ flat_map (fun b => hexDigits b ++ [32]) [129; 130; 131; 132; 133; 134; 135; 254] in
  let s := mkEE (fun _ => 255) [] in
  Zlen line >= 25 /\ Forall2 id_token (firstn 8 (args line)) [129; 130; 131; 132; 133; 134; 135; 254] /\ compact (mem s) /\
  ids (mem (fst (cmd_assoc (repeat 0 8) line s 32%nat))) = [[129; 130; 131; 132; 133; 134; 135; 254]].
Proof.
  cbv zeta. split; [vm_compute; discriminate|]. split; [|split; [intros i _; reflexivity|vm_compute; reflexivity]].
  change (firstn 8 (args _)) with (map hexDigits [129; 130; 131; 132; 133; 134; 135; 254]).
  repeat (constructor; [split; [|lia]|]); try constructor.
  all: eexists _, _; rewrite !parseHexDigit_spec; (split; [split; [reflexivity|discriminate]|]); (split; [split; [reflexivity|discriminate]|]); reflexivity.
Qed.

(** ** C108: the generic parameter command "G N [M]" *)

(** With a parameter number 0-31 it shows or sets exactly that byte. *)
Theorem cli_param : forall line ds ws s f, (1 <= f)%nat -> args line = ds :: ws -> digits ds -> decimal ds <= 31 ->
  let a := 32 + decimal ds in
  match ws with
  | [] => exists s', cmd_param line s f = (s', Some ((true, [TDec (mem s a); TNl]), f)) /\ meq (mem s') (mem s)
  | t :: _ =>
      (forall v, digits t /\ v = decimal t /\ v <= 255 ->
        exists s' f', cmd_param line s f = (s', Some ((true, []), f')) /\ mem s' a = v /\
          forall q, q <> a -> mem s' q = mem s q) /\
      (atoi t < 0 \/ atoi t > 255 -> cmd_param line s f = (s, Some ((false, [Invalid]), f)))
  end.
Proof.
  intros line ds ws s f Hf HA HD HN a. unfold cmd_param.
  destruct (Zlen line >=? 3) eqn:E3; [|rewrite args_short in HA by lia; discriminate].
  pose proof (strtok_at (skipn 2 line)) as HW. fold (args line) in HW. destruct (strtok (skipn 2 line)) as [tok last].
  rewrite HA in HW. destruct HW as [-> HW]. cbv zeta.
  assert (HAt : atoi ds = decimal ds) by (rewrite <- (app_nil_r ds) at 1; apply (proj1 cli_decimal_parse); [exact HD|exact I|lia]).
  assert (H0 : 0 <= decimal ds) by (destruct HD as [_ HD]; apply (decimal_mono ds HD 0); lia).
  rewrite HAt, u8_id by (unfold byte; lia). unfold RAW_LEN, RAW_START. replace (decimal ds >? 32) with false by lia.
  fold a. pose proof (strtok_at last) as HW2. rewrite HW in HW2. destruct (strtok last) as [tok2 last2].
  destruct ws as [|t ws]; destruct HW2 as [-> _].
  - exists s. split; [reflexivity|apply meq_refl].
  - split.
    + intros v (HDt & -> & Hv).
      assert (HAt2 : atoi t = decimal t) by (rewrite <- (app_nil_r t) at 1; apply (proj1 cli_decimal_parse); [exact HDt|exact I|lia]).
      assert (H02 : 0 <= decimal t) by (destruct HDt as [_ HDt]; apply (decimal_mono t HDt 0); lia).
      rewrite HAt2. replace ((decimal t <? 0) || (decimal t >? 255)) with false by lia. rewrite u8_id by (unfold byte; lia).
      destruct (does_complete _ _ _ _ (does_smart_update a (decimal t) s) f ltac:(cbn; lia)) as (s' & f' & E & HM).
      exists s', f'. rewrite (mbind_run _ _ _ _ _ _ _ E). split; [reflexivity|].
      cbn [applyw fold_left fst snd] in HM. split; [rewrite HM; apply upd_here|].
      intros q Hq. rewrite HM. apply upd_there. auto.
    + intros H. replace ((atoi t <? 0) || (atoi t >? 255)) with true by lia. reflexivity.
Qed.
(** Parameter numbers 33 to 255 and lines without one are refused, changing nothing. *)
Theorem cli_param_refuses_partial : forall line s f,
  match args line with [] => True | ds :: _ => digits ds /\ 33 <= decimal ds <= 255 end ->
  cmd_param line s f = (s, Some ((false, [Invalid]), f)).
Proof.
  intros line s f H. unfold cmd_param. destruct (Zlen line >=? 3) eqn:E3.
  - pose proof (strtok_at (skipn 2 line)) as HW. fold (args line) in HW. destruct (strtok (skipn 2 line)) as [tok last].
    destruct (args line) as [|ds ws]; [destruct HW as [-> _]; reflexivity|]. destruct HW as [-> _]. destruct H as [HD H]. cbv zeta.
    rewrite <- (app_nil_r ds), (proj1 cli_decimal_parse ds [] HD I ltac:(lia)), u8_id by (unfold byte; lia).
    unfold RAW_LEN. replace (decimal ds >? 32) with true by lia. reflexivity.
  - reflexivity.
Qed.
(** The wanted property "a number that is not one of the 32 parameters is refused" fails twice:
    32 reaches the byte after the block, and 288 is taken modulo 256 to be parameter 32 too. *)
Theorem cli_param_bounds_refuted :
  ~ (forall line ds ws s f, args line = ds :: ws -> digits ds -> 32 <= decimal ds <= 32767 ->
       meq (mem (fst (cmd_param line s f))) (mem s)) /\
  mem (fst (cmd_param [71; 32; 51; 50; 32; 55] (mkEE (fun _ => 255) []) 4%nat)) 64 = 7 /\
  mem (fst (cmd_param [71; 32; 50; 53; 54; 32; 55] (mkEE (fun _ => 255) []) 4%nat)) 32 = 7.
Proof.
  split; [|split; [reflexivity|reflexivity]].
  intros H. specialize (H [71; 32; 51; 50; 32; 55] [51; 50] [[55]] (mkEE (fun _ => 255) []) 4%nat eq_refl).
  assert (HD : digits [51; 50]) by (split; [discriminate|repeat constructor; lia]).
  specialize (H HD ltac:(vm_compute; split; discriminate) 64). vm_compute in H. discriminate.
Qed.
Example cli_param_example :
  let line := [71; 32; 51; 32; 50; 53; 52] in
  args line = [[51]; [50; 53; 52]] /\ mem (fst (cmd_param line (mkEE (fun _ => 255) []) 1%nat)) 35 = 254.
Proof. split; reflexivity. Qed.

(** ** C109: the secret key command *)

Lemma parse_key_good : forall n ws vs rest, words rest = ws -> Forall2 hex_token (firstn n ws) vs -> length vs = n ->
  parse_key n rest = Some vs.
Proof.
  induction n as [|n IH]; intros ws vs rest HW HV HL; cbn [parse_key firstn] in *.
  - destruct vs; [reflexivity|discriminate].
  - pose proof (strtok_at rest) as HS. rewrite HW in HS. destruct (strtok rest) as [tok rest'].
    destruct ws as [|t ws]; [inversion HV; subst; discriminate|]. cbn [firstn] in HV.
    inversion HV as [|? v ? vs' HT HR]; subst. destruct HS as [-> HS].
    destruct (proj1 cli_hex_parse _ _ HT) as [-> Hv]. replace (-1 =? v) with false by lia.
    rewrite (IH ws vs' rest' HS HR) by (cbn in HL; lia). rewrite u8_id by (unfold byte; lia). reflexivity.
Qed.
Lemma parse_key_bad : forall n ws rest, words rest = ws ->
  ((length ws < n)%nat \/ exists t, In t (firstn n ws) /\ forall v, ~ hex_token t v) -> parse_key n rest = None.
Proof.
  induction n as [|n IH]; intros ws rest HW H; cbn [parse_key firstn] in *.
  - destruct H as [H | (t & [] & _)]. lia.
  - pose proof (strtok_at rest) as HS. rewrite HW in HS. destruct (strtok rest) as [tok rest'].
    destruct ws as [|t0 ws]; destruct HS as [-> HS]; [reflexivity|].
    destruct (hex_dec t0) as [(v & H1 & -> & Hv) | [H1 ->]]; [|reflexivity].
    replace (-1 =? v) with false by (unfold byte in Hv; lia).
    rewrite (IH ws rest' HS); [reflexivity|]. cbn [length firstn] in H. destruct H as [H | (t & [<- | HI] & HT)].
    + left. lia.
    + exfalso. exact (HT _ H1).
    + right. eauto.
Qed.

(** "K B" and sixteen hex bytes sets the building key to them, touching nothing else. *)
Theorem cli_key_set : forall kc line b ws k s f,
  35 <= Zlen line -> args line = b :: ws -> (znth b 0 = 66 \/ znth b 0 = 98) ->
  Forall2 hex_token (firstn 16 ws) k -> length k = 16%nat -> (16 <= f)%nat ->
  exists s' f', cmd_key kc line s f = (s', Some ((false, [TStr "B set"]), f')) /\
    (forall q, q < 112 \/ 128 <= q -> mem s' q = mem s q) /\
    (forall f2, exists s2, getKey s' f2 = (s2, Some ((k, negb (list_eqb k (repeat 255 16))), f2))).
Proof.
  intros kc line b ws k s f HL HA HB HV HK Hf. unfold cmd_key. cbv zeta.
  replace (Zlen line >=? 5) with true by lia.
  pose proof (strtok_at (skipn 2 line)) as HW. fold (args line) in HW. destruct (strtok (skipn 2 line)) as [tok last].
  rewrite HA in HW. destruct HW as [-> HW].
  replace (66 =? toupper (znth b 0)) with true by (unfold toupper; destruct HB as [-> | ->]; reflexivity).
  pose proof (strtok_at last) as HW2. rewrite HW in HW2. destruct (strtok last) as [tok2 last2].
  destruct ws as [|t ws]; [inversion HV; subst; discriminate|]. destruct HW2 as [-> HW2]. cbn [firstn] in HV.
  inversion HV as [|? v ? vs HT HR]; subst. pose proof (hex_token_head _ _ HT).
  replace (znth t 0 =? 42) with false by lia. replace (Zlen line >=? 35) with true by lia.
  destruct (proj1 cli_hex_parse _ _ HT) as [-> Hv]. rewrite u8_id by (unfold byte; lia).
  rewrite (parse_key_good 15 _ vs last2 eq_refl HR) by (cbn in HK; lia).
  assert (HBy : Forall byte (v :: vs)).
  { assert (HG : forall la lb, Forall2 hex_token la lb -> Forall byte lb).
    { intros la lb HF. induction HF as [|x y la lb Hx _ IH]; constructor; [|exact IH].
      destruct (proj1 cli_hex_parse _ _ Hx). red. lia. }
    exact (HG _ _ HV). }
  destruct (C23_set_key (v :: vs) s f HK HBy Hf) as (s' & f' & E & H1 & H2). exists s', f'.
  rewrite (mbind_run _ _ _ _ _ _ _ E). split; [reflexivity|]. split; [exact H1|exact H2].
Qed.

(** "K B *" erases the key, and then runs the supplied callback in the erased state. *)
Theorem cli_key_clear : forall kc line b t ws s f, 5 <= Zlen line -> args line = b :: t :: ws ->
  (znth b 0 = 66 \/ znth b 0 = 98) -> znth t 0 = 42 -> (16 <= f)%nat ->
  exists s1 f1, (forall q, 112 <= q < 128 -> mem s1 q = 255) /\ (forall q, q < 112 \/ 128 <= q -> mem s1 q = mem s q) /\
    match kc with
    | None => cmd_key kc line s f = (s1, Some ((false, [TStr "B clear"]), f1))
    | Some cb => forall s2 r f2, cb s1 f1 = (s2, Some (r, f2)) ->
                 cmd_key kc line s f = (s2, Some ((false, [TStr "B clear"]), f2))
    end.
Proof.
  intros kc line b t ws s f HL HA HB Ht Hf. unfold cmd_key. cbv zeta.
  replace (Zlen line >=? 5) with true by lia.
  pose proof (strtok_at (skipn 2 line)) as HW. fold (args line) in HW. destruct (strtok (skipn 2 line)) as [tok last].
  rewrite HA in HW. destruct HW as [-> HW].
  replace (66 =? toupper (znth b 0)) with true by (unfold toupper; destruct HB as [-> | ->]; reflexivity).
  pose proof (strtok_at last) as HW2. rewrite HW in HW2. destruct (strtok last) as [tok2 last2]. destruct HW2 as [-> HW2].
  rewrite Ht. change (42 =? 42) with true. cbv iota.
  assert (HD : does (setKey None) s (at_addr KEY_START (repeat 255 16)) true).
  { unfold setKey. rewrite <- (app_nil_r (at_addr KEY_START _)).
    eapply does_bind; [apply does_erase_bytes|]. intros s' Hs'. apply does_ret. }
  destruct (does_complete _ _ _ _ HD f Hf) as (s1 & f1 & E & HM). exists s1, f1. clear HD.
  assert (HM2 : forall q, mem s1 q = if (112 <=? q) && (q <? 128) then 255 else mem s q).
  { intros q. rewrite HM, applyw_at. unfold KEY_START. change (Zlen (repeat 255 16)) with 16. change (112 + 16) with 128.
    destruct ((112 <=? q) && (q <? 128)) eqn:EQ; [|reflexivity].
    clear HM. assert (HZ2 : exists m, q - 112 = Z.of_nat m /\ (m < 16)%nat) by (exists (Z.to_nat (q - 112)); lia).
    destruct HZ2 as (m & -> & Hm). unfold znth. rewrite Nat2Z.id. do 16 (destruct m as [|m]; [reflexivity|]). lia. }
  split; [|split].
  - intros q Hq. rewrite HM2. replace ((112 <=? q) && (q <? 128)) with true by lia. reflexivity.
  - intros q Hq. rewrite HM2. replace ((112 <=? q) && (q <? 128)) with false by lia. reflexivity.
  - rewrite (mbind_run _ _ _ _ _ _ _ E). destruct kc as [cb|].
    + intros s2 r f2 E2. rewrite (mbind_run _ _ _ _ _ _ _ E2). reflexivity.
    + reflexivity.
Qed.

(** Anything that is not "B" followed by "*" or by sixteen words of which the last fifteen
    are hex bytes is refused and leaves the whole EEPROM alone. *)
Theorem cli_key_refuses_partial : forall kc line s f,
  match args line with
  | [] => True
  | b :: ws => Zlen line < 5 \/ (znth b 0 <> 66 /\ znth b 0 <> 98) \/
      match ws with
      | [] => True
      | t :: r => znth t 0 <> 42 /\ (Zlen line < 35 \/ (length r < 15)%nat \/
                   exists t, In t (firstn 15 r) /\ forall v, ~ hex_token t v)
      end
  end ->
  cmd_key kc line s f = (s, Some ((false, [Invalid]), f)).
Proof.
  intros kc line s f H. unfold cmd_key. cbv zeta. destruct (Zlen line >=? 5) eqn:E5; [|reflexivity].
  pose proof (strtok_at (skipn 2 line)) as HW. fold (args line) in HW. destruct (strtok (skipn 2 line)) as [tok last].
  destruct (args line) as [|b ws]; [destruct HW as [-> _]; reflexivity|]. destruct HW as [-> HW].
  destruct (66 =? toupper (znth b 0)) eqn:EB; [|reflexivity].
  assert (HB : znth b 0 = 66 \/ znth b 0 = 98).
  { unfold toupper in EB. destruct ((97 <=? znth b 0) && (znth b 0 <=? 122)) eqn:EU; lia. }
  destruct H as [H | [H | H]]; [lia|lia|].
  pose proof (strtok_at last) as HW2. rewrite HW in HW2. destruct (strtok last) as [tok2 last2].
  destruct ws as [|t r]; destruct HW2 as [-> HW2]; [reflexivity|]. destruct H as [Ht H].
  replace (znth t 0 =? 42) with false by lia. destruct (Zlen line >=? 35) eqn:E35; [|reflexivity].
  rewrite (parse_key_bad 15 r last2 HW2); [reflexivity|]. destruct H as [H | H]; [lia|exact H].
Qed.

(** The wanted property "a key is only stored if all sixteen words are hex bytes" fails: the
    first word is not checked and a mistyped one is stored as 0xff. *)
Theorem cli_key_first_word_refuted :
  ~ (forall kc line b t ws s f, args line = b :: t :: ws -> znth t 0 <> 42 -> (forall v, ~ hex_token t v) ->
       meq (mem (fst (cmd_key kc line s f))) (mem s)).
Proof.
  intros H.
  specialize (H None ([75; 32; 66; 32; 122; 122] ++ flat_map (fun b => 32 :: hexDigits b) (repeat 18 15))
    [66] [122; 122] (map hexDigits (repeat 18 15)) (mkEE (fun _ => 255) []) 20%nat eq_refl ltac:(discriminate)).
  assert (HT : forall v, ~ hex_token [122; 122] v).
  { intros v (h & l & H1 & _). apply parseHexDigit_spec in H1. vm_compute in H1. destruct H1. congruence. }
  specialize (H HT 113). vm_compute in H. discriminate.
Qed.
Example cli_key_example :
  let k := [1; 2; 3; 4; 5; 6; 7; 8; 9; 10; 11; 12; 13; 14; 15; 240] in
  let line := [75; 32; 98] ++ flat_map (fun b => 32 :: hexDigits b) k in
  args line = [98] :: map hexDigits k /\
  block (mem (fst (cmd_key None line (mkEE (fun _ => 255) []) 20%nat))) 112 16 = k.
Proof. split; vm_compute; reflexivity. Qed.
