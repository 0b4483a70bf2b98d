(** C47: JSON statistics output is well-formed and bounded. *)
From Verif Require Import Base JsonModel JsonBuf JsonSpec JsonWrite JsonMain.

(** What a call must do, given the members every message has to start with and the statistics held:
    either refuse, or write one JSON object. [is] are the positions of the statistics included. *)
Definition refused (buf : list Z) (bufSize : Z) (r : rot) (r' : rot) (buf' : list Z) (n : Z) : Prop :=
  r' = r /\ n = 0 /\ (if bufSize <? 10 then buf' = buf else znth buf' 0 = 0).

Definition written (maximise suppress : bool) (lead : list (list Z)) (bufSize : Z) (r r' : rot) (buf' : list Z) (n : Z) (is : list Z) : Prop :=
  (* the text: a JSON object with the leading members, then distinct statistics *)
  2 <= n <= bufSize - 2 /\
  firstn (Z.to_nat n) buf' = json_object (lead ++ sent_members r is) /\
  znth buf' n = 0 /\
  NoDup is /\ (forall i, In i is -> 0 <= i < Zlen (r_stats r)) /\
  (* the statistics are kept; only those included stop being "changed", and not if asked not to *)
  Zlen (r_stats r') = Zlen (r_stats r) /\
  (forall i, 0 <= i < Zlen (r_stats r) ->
     stat_at (r_stats r') i = if negb suppress && mem i is then clear (stat_at (r_stats r) i) else stat_at (r_stats r) i) /\
  r_cnt r' = (r_cnt r + 1) mod 8 /\
  r_cap r' = r_cap r /\ r_id r' = r_id r /\ r_en r' = r_en r /\
  (* without maximise: at most a changed item and a rotating one *)
  (maximise = false -> (length is <= 2)%nat).

Lemma land7 c : 0 <= c < 8 -> Z.land (c + 1) 7 = (c + 1) mod 8.
Proof. intros H. change 7 with (Z.ones 3). rewrite Z.land_ones by lia. reflexivity. Qed.

Lemma join_lead_len sys r h comma : header sys r = (h, comma) -> h = join (lead_members sys r) /\ (comma = true <-> lead_members sys r <> []).
Proof.
  intros HD. pose proof (header_join sys r) as H. rewrite HD in H. destruct H as [-> ->]. split; [reflexivity|].
  destruct (lead_members sys r); cbn; split; congruence.
Qed.

(** The general shape: no access outside the buffer; nothing beyond the given size is touched; the
    call succeeds exactly if the leading members fit; the text is the object, except that it can have
    a superfluous comma after the brace (see [json_leading_comma_refuted]). *)
Lemma write_general sys maximise suppress buf bufSize r : ok r -> byte bufSize -> bufSize <= Zlen buf ->
  exists r' buf' n, writeJSON sys maximise suppress buf bufSize r = Some (r', buf', n) /\
    Zlen buf' = Zlen buf /\ skipn (Z.to_nat bufSize) buf' = skipn (Z.to_nat bufSize) buf /\
    ((bufSize < 10 \/ bufSize - 3 < 1 + Zlen (join (lead_members sys r))) -> refused buf bufSize r r' buf' n) /\
    (10 <= bufSize -> 1 + Zlen (join (lead_members sys r)) <= bufSize - 3 ->
     exists i1 i2 i3 pre, let is := i1 ++ i2 ++ i3 in
      2 <= n <= bufSize - 2 /\
      firstn (Z.to_nat n) buf' = 123 :: pre ++ join (lead_members sys r ++ sent_members r is) ++ [125] /\
      znth buf' n = 0 /\
      NoDup is /\ (forall i, In i is -> 0 <= i < Zlen (r_stats r)) /\
      cleared_if (negb suppress) (r_stats r) (r_stats r') is /\
      r_cnt r' = (r_cnt r + 1) mod 8 /\ r_cap r' = r_cap r /\ r_id r' = r_id r /\ r_en r' = r_en r /\
      (pre = [] \/ pre = [44]) /\
      (lead_members sys r <> [] \/ fit_alone (bufSize - 3) (r_stats r) -> pre = []) /\
      (r_stats r <> [] -> exists a2 a3, r_last r' = a_sent a2 /\ r_stats r' = a_st a3 /\ Zlen (a_c a3) = n - 1 /\
         passes suppress maximise bufSize (123 :: join (lead_members sys r)) (negb (match lead_members sys r with [] => true | _ => false end)) r a2 a3 i1 i2 i3) /\
      (r_stats r = [] -> i1 = [] /\ i2 = [] /\ i3 = [] /\ r_last r' = r_last r)).
Proof.
  intros OK BB LB. destruct (Z_lt_le_dec bufSize 10) as [SM | B].
  { exists r, buf, 0. unfold writeJSON. replace (bufSize <? 10) with true by lia. split; [reflexivity|].
    split; [reflexivity|]. split; [reflexivity|]. split; [|lia]. intros _. unfold refused. replace (bufSize <? 10) with true by lia. auto. }
  unfold byte in BB.
  pose proof (write_ideal sys maximise suppress buf bufSize r OK ltac:(lia) LB) as W.
  pose proof (header_join sys r) as HJ.
  destruct (header sys r) as [h comma] eqn:HD. cbv zeta in W.
  destruct HJ as [HJ HC].
  set (c := trunc bufSize (123 :: h)) in *.
  destruct W as (m & ML & MS & MF & MO & WE).
  assert (CL : Zlen c = Z.min (bufSize - 1) (1 + Zlen h)).
  { unfold c, trunc. autorewrite with zlen. pose proof (Zlen_nonneg h). lia. }
  assert (CB : bufSize - 3 < 1 + Zlen h -> bufSize - 3 < Zlen c) by lia.
  assert (CE : 1 + Zlen h <= bufSize - 3 -> c = 123 :: h).
  { intros H. unfold c. apply trunc_all. rewrite Zlen_cons. lia. }
  assert (SH0 : shape (123 :: h) comma [] (lead_members sys r)).
  { split; [cbn [app]; rewrite HJ; reflexivity|]. split; [auto|]. rewrite HC. destruct (lead_members sys r); [auto|discriminate]. }
  assert (CM0 : comma = true -> lead_members sys r <> []).
  { rewrite HC. destruct (lead_members sys r); [discriminate|discriminate]. }
  set (a2 := ast2 maximise suppress bufSize c comma r) in *.
  set (a3 := ast3 maximise suppress bufSize c comma r) in *.
  set (full := bufSize - 2 <=? Zlen (a_c a3)) in *.
  exists (Rot (r_cap r) (a_st a3) (a_sent a2) (r_id r) (r_en r) (if full then r_cnt r else Z.land (r_cnt r + 1) 7)), m, (if full then 0 else Zlen (a_c a3) + 1).
  split; [exact WE|]. split; [exact ML|]. split; [exact MS|]. rewrite <- HJ.
  destruct (r_stats r) as [|s st] eqn:RS.
  - (* no statistics *)
    assert (A2 : a2 = AS c comma [] 255 (r_last r) []).
    { unfold a2, ast2, ast1, is_first, round. rewrite RS. cbn [length Nat.sub vis aloop]. unfold anychg. cbn [length Nat.sub skipn existsb].
      rewrite andb_false_r. reflexivity. }
    assert (A3 : a3 = AS c comma [] 255 (r_last r) []).
    { unfold a3, ast3. fold a2. rewrite A2, RS. cbn [length vis aloop]. destruct (maximise && negb suppress && _); reflexivity. }
    unfold full in *. clear full. rewrite A2. rewrite A3 in *. cbn [a_st a_sent a_c] in *. split.
    + intros [X | X]; [lia|]. specialize (CB X). replace (bufSize - 2 <=? Zlen c) with true by lia. unfold refused.
      split; [rewrite <- RS; destruct r; reflexivity|]. split; [reflexivity|].
      replace (bufSize <? 10) with false by lia. apply MF. lia.
    + intros _ X. specialize (CE X). rewrite CE in *. rewrite Zlen_cons in *. clear CB. pose proof (Zlen_nonneg h).
      replace (bufSize - 2 <=? 1 + Zlen h) with false in * by lia. destruct (MO eq_refl) as [M1 M2].
      exists [], [], [], []. cbn [app]. cbv zeta. unfold sent_members. cbn [map]. rewrite app_nil_r. cbn [r_stats r_cnt r_cap r_id r_en r_last].
      split; [lia|]. split; [rewrite M1, HJ; reflexivity|]. split; [exact M2|]. split; [constructor|]. split; [intros i []|].
      split; [unfold cleared_if; destruct (negb suppress); [apply cleared_refl|reflexivity]|].
      split; [apply land7; apply (ok_cnt _ OK)|]. split; [reflexivity|]. split; [reflexivity|]. split; [reflexivity|].
      split; [auto|]. split; [auto|]. split; [congruence|auto].
  - assert (NE : 1 <= Zlen (r_stats r)) by (rewrite RS, Zlen_cons; pose proof (Zlen_nonneg st); lia).
    destruct (passes_hold suppress maximise bufSize c comma r OK NE ltac:(lia)) as (i1 & i2 & i3 & P). fold a2 a3 in P.
    rewrite <- RS. split.
    + intros [X | X]; [lia|]. specialize (CB X). destruct (p_big _ _ _ _ _ _ _ _ _ _ _ P CB) as (G1 & G2 & G3).
      assert (F : full = true) by (unfold full; rewrite G1; lia). rewrite F in *. unfold refused.
      rewrite G2, G3. split; [destruct r; reflexivity|]. split; [reflexivity|]. replace (bufSize <? 10) with false by lia. auto.
    + intros _ X. specialize (CE X).
      assert (LE : Zlen (a_c a3) <= bufSize - 3) by (eapply p_len; [exact P|lia]).
      assert (F : full = false) by (unfold full; lia). rewrite F in *. destruct (MO eq_refl) as [M1 M2].
      destruct (p_shape _ _ _ _ _ _ _ _ _ _ _ P [] (lead_members sys r)) as (pre & SH & PE1 & PE2); [rewrite CE; exact SH0|].
      exists i1, i2, i3, pre. cbv zeta. cbn [r_stats r_cnt r_cap r_id r_en r_last].
      assert (L1 : 1 <= Zlen (a_c a3)).
      { destruct SH as (-> & _). rewrite Zlen_cons. match goal with |- 1 <= 1 + Zlen ?l => pose proof (Zlen_nonneg l); lia end. }
      split; [lia|]. split.
      { rewrite M1. destruct SH as (-> & _). cbn [app]. rewrite <- app_assoc. reflexivity. }
      split; [exact M2|]. split; [eapply p_nd; exact P|]. split; [eapply p_range; exact P|]. split; [eapply p_st; exact P|].
      split; [apply land7; apply (ok_cnt _ OK)|]. split; [reflexivity|]. split; [reflexivity|]. split; [reflexivity|].
      split; [destruct SH as (_ & [-> | [-> _]] & _); auto|]. split.
      { intros [Y | Y]; [apply PE1; exact Y|]. apply PE2; auto. }
      split; [|intros Y; rewrite RS in Y; discriminate].
      intros _. exists a2, a3. split; [reflexivity|]. split; [reflexivity|]. split; [lia|]. rewrite <- HC, <- CE. exact P.
Qed.

(** C47 *)
Theorem json_write_partial sys maximise suppress buf bufSize r :
  ok r -> byte bufSize -> bufSize <= Zlen buf ->
  lead_members sys r <> [] \/ fit_alone (bufSize - 3) (r_stats r) ->
  exists r' buf' n, writeJSON sys maximise suppress buf bufSize r = Some (r', buf', n) /\
    Zlen buf' = Zlen buf /\ skipn (Z.to_nat bufSize) buf' = skipn (Z.to_nat bufSize) buf /\
    if (bufSize <? 10) || (bufSize <? Zlen (json_object (lead_members sys r)) + 2)
    then refused buf bufSize r r' buf' n
    else exists is, written maximise suppress (lead_members sys r) bufSize r r' buf' n is.
Proof.
  intros OK BB LB LF. destruct (write_general sys maximise suppress buf bufSize r OK BB LB) as (r' & buf' & n & E & L & S & RF & WR).
  exists r', buf', n. split; [exact E|]. split; [exact L|]. split; [exact S|].
  assert (JL : Zlen (json_object (lead_members sys r)) = 2 + Zlen (join (lead_members sys r))).
  { unfold json_object. rewrite Zlen_cons, Zlen_app, Zlen_cons. change (Zlen (@nil Z)) with 0. lia. }
  destruct ((bufSize <? 10) || (bufSize <? Zlen (json_object (lead_members sys r)) + 2)) eqn:C.
  - apply RF. rewrite JL in C. lia.
  - rewrite JL in C. destruct WR as (i1 & i2 & i3 & pre & W); [lia|lia|]. cbv zeta in W.
    destruct W as (W1 & W2 & W3 & W4 & W5 & W6 & W7 & W8 & W9 & W10 & W11 & W12 & W13 & W14).
    exists (i1 ++ i2 ++ i3). rewrite (W12 LF) in W2. cbn [app] in W2. unfold written.
    split; [exact W1|]. split; [unfold json_object; exact W2|]. split; [exact W3|]. split; [exact W4|]. split; [exact W5|].
    split; [eapply cleared_if_len; exact W6|]. split.
    { intros i I. unfold cleared_if in W6. destruct (negb suppress); cbn [andb]; [|rewrite W6; reflexivity]. apply W6. exact I. }
    split; [exact W7|]. split; [exact W8|]. split; [exact W9|]. split; [exact W10|].
    intros MX. destruct (r_stats r) as [|s st] eqn:RS.
    + destruct (W14 eq_refl) as (-> & -> & -> & _). cbn. lia.
    + destruct (W13 ltac:(discriminate)) as (a2 & a3 & _ & _ & _ & P). destruct (p_normal1 _ _ _ _ _ _ _ _ _ _ _ P MX) as [A ->].
      pose proof (p_one _ _ _ _ _ _ _ _ _ _ _ P) as A1. rewrite app_nil_r, app_length. lia.
Qed.

(** The members are what they claim: names are the keys or "@"/"+", values decimal numbers or a string. *)
Theorem json_members sys r is : ok r -> match sys with Some (a, b) => byte a /\ byte b | None => True end ->
  (forall i, In i is -> 0 <= i < Zlen (r_stats r)) ->
  Forall (fun m => exists name value, m = member name value /\ plain name /\
            ((exists t, value = quoted t /\ plain t) \/ (exists v, -32768 <= v < 32768 /\ decimal v value)))
         (lead_members sys r ++ sent_members r is).
Proof.
  intros OK SY RG. apply Forall_app. split.
  - unfold lead_members. apply Forall_app. split.
    + destruct (has_id (r_id r)); constructor; [|constructor]. exists [64], (quoted (id_text sys (r_id r))). split; [reflexivity|].
      split; [constructor; [lia|constructor]|]. left. eexists. split; [reflexivity|]. pose proof (ok_id _ OK) as OI.
      unfold id_text. destruct (r_id r) as [t|]; [exact OI|]. destruct sys as [[a b]|]; [|constructor].
      assert (HX : forall v, 32 <= hexDigit v <= 126 /\ hexDigit v <> 34 /\ hexDigit v <> 92).
      { intros v. unfold hexDigit. assert (0 <= Z.land 15 v <= 15).
        { rewrite Z.land_comm. change 15 with (Z.ones 4) at 1 2. rewrite Z.land_ones by lia.
          pose proof (Z.mod_pos_bound v (2 ^ 4) ltac:(lia)) as M. change (2 ^ 4) with 16 in M |- *. change (Z.ones 4) with 15. lia. }
        cbv zeta. destruct (Z.land 15 v <? 10) eqn:Q; lia. }
      repeat constructor; apply HX.
    + destruct (r_en r); constructor; [|constructor]. exists [43], (dec (r_cnt r)). split; [reflexivity|].
      split; [constructor; [lia|constructor]|]. right. exists (r_cnt r). pose proof (ok_cnt _ OK). split; [lia|]. apply json_decimal. lia.
  - unfold sent_members. apply Forall_map. rewrite Forall_forall. intros i I. specialize (RG i I). pose proof (stat_at_in _ _ RG) as IN.
    exists (s_key (stat_at (r_stats r) i)), (dec (s_val (stat_at (r_stats r) i))). split; [reflexivity|].
    pose proof (ok_keys _ OK) as K. pose proof (ok_vals _ OK) as V. rewrite Forall_forall in K, V. split; [apply K; exact IN|].
    right. eexists. split; [apply V; exact IN|]. apply json_decimal. apply V. exact IN.
Qed.

(** With maximise, nothing urgent that fits is left out. *)
Theorem json_write_maximise sys buf bufSize r r' buf' n i :
  ok r -> byte bufSize -> bufSize <= Zlen buf -> 
  writeJSON sys true false buf bufSize r = Some (r', buf', n) -> n <> 0 ->
  0 <= i < Zlen (r_stats r) -> s_key (stat_at (r_stats r) i) <> [] ->
  s_chg (stat_at (r_stats r') i) = true ->
  s_chg (stat_at (r_stats r) i) = true /\ bufSize - 2 < n + 1 + Zlen (stat_member (stat_at (r_stats r) i)).
Proof.
  intros OK BB LB E NZ I KN CHG. destruct (write_general sys true false buf bufSize r OK BB LB) as (r2 & buf2 & n2 & E2 & L & S & RF & WR).
  rewrite E2 in E. apply some_inj in E. apply pair_inj in E. destruct E as [E <-]. apply pair_inj in E. destruct E as [<- <-].
  destruct (Z_lt_le_dec bufSize 10); [exfalso; apply NZ; apply RF; lia|].
  destruct (Z_lt_le_dec (bufSize - 3) (1 + Zlen (join (lead_members sys r)))); [exfalso; apply NZ; apply RF; lia|].
  destruct WR as (i1 & i2 & i3 & pre & W); [lia|lia|]. cbv zeta in W.
  destruct W as (W1 & W2 & W3 & W4 & W5 & W6 & W7 & W8 & W9 & W10 & W11 & W12 & W13 & W14).
  destruct W13 as (a2 & a3 & _ & RS & LC & P). { intros X. rewrite X in I. change (Zlen (@nil stat)) with 0 in I. lia. }
  split.
  - destruct W6 as [_ W6]. rewrite (W6 i I) in CHG. destruct (mem i (i1 ++ i2 ++ i3)); [discriminate|exact CHG].
  - rewrite RS in CHG. pose proof (p_fill _ _ _ _ _ _ _ _ _ _ _ P eq_refl eq_refl i I CHG KN) as NF. unfold nofit in NF. lia.
Qed.
