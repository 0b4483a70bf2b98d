(** C22: the node association table. *)
From Verif Require Import Base EepromModel EepromProofs.

(** ** Specification: the table as a list of 8-byte IDs.
    Row i occupies 32 bytes from 768+32*i; the first row whose first byte is
    0xff ends the list. *)
Definition row_id (m : Z -> Z) (i : Z) : list Z := block m (768 + 32 * i) 8.
Fixpoint ids_from (m : Z -> Z) (i : Z) (n : nat) : list (list Z) :=
  match n with
  | O => []
  | S n' => if m (768 + 32 * i) =? 255 then [] else row_id m i :: ids_from m (i + 1) n'
  end.
Definition ids (m : Z -> Z) : list (list Z) := ids_from m 0 8.
(** No stale row after the end of the list. *)
Definition compact (m : Z -> Z) : Prop :=
  forall i, Zlen (ids m) <= i < 8 -> m (768 + 32 * i) = 255.

Definition starts_with (prefix id : list Z) : Prop := firstn (length prefix) id = prefix.

(** ** Lemmas *)
Lemma row_addr_eq i : row_addr i = 768 + 32 * i.
Proof. unfold row_addr, ASSOC_START, ASSOC_SIZE. lia. Qed.

Lemma ids_from_len m n : forall i, Zlen (ids_from m i n) <= Z.of_nat n.
Proof.
  induction n; intros i; cbn [ids_from]; [rewrite Zlen_nil; lia|].
  destruct (_ =? _); [rewrite Zlen_nil; lia|]. rewrite Zlen_cons. specialize (IHn (i + 1)). lia.
Qed.
Lemma ids_len m : Zlen (ids m) <= 8.
Proof. apply (ids_from_len m 8). Qed.

Lemma ids_from_used m n : forall i j, 0 <= j < Zlen (ids_from m i n) ->
  m (768 + 32 * (i + j)) <> 255 /\ nth_error (ids_from m i n) (Z.to_nat j) = Some (row_id m (i + j)).
Proof.
  induction n; intros i j Hj; cbn [ids_from] in *; [unfold Zlen in Hj; simpl in Hj; lia|].
  destruct (m (768 + 32 * i) =? 255) eqn:E; [unfold Zlen in Hj; simpl in Hj; lia|].
  destruct (Z.eq_dec j 0) as [->|Hj0].
  - rewrite Z.add_0_r. split; [lia|reflexivity].
  - rewrite Zlen_cons in Hj. destruct (IHn (i + 1) (j - 1) ltac:(lia)) as [H1 H2].
    replace (i + 1 + (j - 1)) with (i + j) in * by lia. split; [exact H1|].
    replace (Z.to_nat j) with (S (Z.to_nat (j - 1))) by lia. exact H2.
Qed.

(** [ids] only looks at the table. *)
Lemma row_id_ext m m' i : (forall q, 768 + 32 * i <= q < 768 + 32 * i + 8 -> m q = m' q) ->
  row_id m i = row_id m' i.
Proof. intros H. apply block_ext. intros. apply H. lia. Qed.
Lemma ids_from_ext m m' n : forall i,
  (forall q, 768 + 32 * i <= q < 768 + 32 * (i + Z.of_nat n) -> m q = m' q) ->
  ids_from m i n = ids_from m' i n.
Proof.
  induction n; intros i H; cbn [ids_from]; [reflexivity|].
  rewrite (H (768 + 32 * i)) by lia. destruct (_ =? _); [reflexivity|].
  rewrite (row_id_ext m m' i) by (intros; apply H; lia). f_equal.
  apply IHn. intros. apply H. lia.
Qed.
Lemma ids_ext m m' : (forall q, 768 <= q < 1024 -> m q = m' q) -> ids m = ids m'.
Proof. intros H. apply ids_from_ext. intros. apply H. lia. Qed.
Lemma ids_meq m m' : meq m m' -> ids m = ids m'.
Proof. intros H. apply ids_ext. intros. apply H. Qed.
Lemma compact_meq m m' : meq m m' -> compact m -> compact m'.
Proof.
  intros H HC i Hi. rewrite <- H. apply HC. rewrite (ids_meq m m') by auto. exact Hi.
Qed.

(** ** clear *)
Fixpoint clear_ws (i : Z) (n : nat) : list (Z * Z) :=
  match n with O => [] | S n' => (768 + 32 * i, 255) :: clear_ws (i + 1) n' end.
Lemma does_clear_rows n : forall i s, does (clear_rows i n) s (clear_ws i n) tt.
Proof.
  induction n; intros i s; cbn [clear_rows clear_ws]; [apply does_ret|].
  change ((768 + 32 * i, 255) :: clear_ws (i + 1) n) with ([(768 + 32 * i, 255)] ++ clear_ws (i + 1) n).
  rewrite row_addr_eq. eapply does_bind; [apply does_smart_erase|]. intros. apply IHn.
Qed.

Theorem C22_clear : forall s f, (8 <= f)%nat ->
  exists s' f', clearAllNodeAssociations s f = (s', Some (tt, f')) /\
    ids (mem s') = [] /\ compact (mem s') /\
    (forall q, (forall i, 0 <= i < 8 -> q <> 768 + 32 * i) -> mem s' q = mem s q).
Proof.
  intros s f Hf. destruct (does_complete _ _ _ _ (does_clear_rows 8 0 s) f Hf) as (s' & f' & E & Hm).
  exists s', f'. split; [exact E|].
  assert (H8 : forall i, 0 <= i < 8 -> mem s' (768 + 32 * i) = 255).
  { intros i Hi. rewrite Hm. unfold clear_ws, applyw, upd. cbn [fold_left fst snd].
    repeat match goal with |- context [?a =? ?b] => destruct (Z.eqb_spec a b); [reflexivity|] end. lia. }
  assert (HI : ids (mem s') = []).
  { unfold ids. cbn [ids_from]. rewrite H8 by lia. reflexivity. }
  split; [exact HI|]. split.
  - intros i Hi. apply H8. pose proof (Zlen_nonneg (ids (mem s'))). lia.
  - intros q Hq. rewrite Hm. apply applyw_other.
    assert (HG : forall n i, 0 <= i -> i + Z.of_nat n <= 8 ->
              forall w, In w (clear_ws i n) -> fst w <> q).
    { induction n; intros i H0 H1 w Hw; cbn [clear_ws] in Hw; [destruct Hw|].
      destruct Hw as [<-|Hw].
      - cbn [fst]. intros HX. apply (Hq i); [lia|]. lia.
      - apply (IHn (i + 1) ltac:(lia) ltac:(lia) w Hw). }
    apply (HG 8%nat 0); lia.
Qed.

(** ** count and get *)
Lemma does_count_rows n : forall i s, i + Z.of_nat n = 8 ->
  does (count_rows i n) s [] (i + Zlen (ids_from (mem s) i n)).
Proof.
  induction n; intros i s Hi; cbn [count_rows ids_from].
  - rewrite Zlen_nil. replace (i + 0) with ASSOC_MAX by (unfold ASSOC_MAX; lia). apply does_ret.
  - rewrite row_addr_eq. eapply does_bind0; [apply does_read|]. intros s' Hs'. cbv beta.
    rewrite Z.eqb_sym. destruct (_ =? 255).
    + rewrite Zlen_nil, Z.add_0_r. apply does_ret.
    + rewrite Zlen_cons. replace (i + (1 + Zlen (ids_from (mem s) (i + 1) n))) with
        (i + 1 + Zlen (ids_from (mem s) (i + 1) n)) by lia.
      rewrite (ids_from_ext (mem s) (mem s')) by (intros; symmetry; apply Hs').
      apply IHn. lia.
Qed.
Lemma does_count s : does countNodeAssociations s [] (Zlen (ids (mem s))).
Proof. apply (does_count_rows 8 0 s). lia. Qed.

Lemma does_run0 {A} (p : M A) s a : does p s [] a ->
  forall f, exists s', p s f = (s', Some (a, f)) /\ meq (mem s') (mem s).
Proof.
  intros H f. destruct (H f) as [(s' & k & _ & Hlt & _)|(s' & f' & E & Hf & Hm)]; [simpl in Hlt; lia|].
  exists s'. rewrite E. replace f' with f by (simpl in Hf; lia). auto.
Qed.

Theorem C22_count : forall s f, exists s', countNodeAssociations s f = (s', Some (Zlen (ids (mem s)), f)) /\
  meq (mem s') (mem s).
Proof. intros. apply does_run0. apply does_count. Qed.

Theorem C22_get : forall s f i, 0 <= i ->
  exists s', getNodeAssociation i s f = (s', Some (nth_error (ids (mem s)) (Z.to_nat i), f)) /\
  meq (mem s') (mem s).
Proof.
  intros s f i Hi. apply does_run0. unfold getNodeAssociation.
  eapply does_bind0; [apply does_count|]. intros s1 H1. cbv beta.
  destruct (i >=? Zlen (ids (mem s))) eqn:E.
  - assert (nth_error (ids (mem s)) (Z.to_nat i) = None) as -> by (apply nth_error_None; unfold Zlen in E; lia).
    apply does_ret.
  - destruct (ids_from_used (mem s) 8 0 i) as [_ HN]; [unfold ids in E; lia|].
    cbn [Z.add] in HN. unfold ids. rewrite HN.
    eapply does_bind0; [apply does_read_block|]. intros s2 H2. cbv beta.
    rewrite row_addr_eq, (block_meq _ _ H1). apply does_ret.
Qed.

(** ** add *)
Lemma does_add_rows id n : forall i s, i + Z.of_nat n = 8 -> 
  does (add_rows id i n) s
    (if Zlen (ids_from (mem s) i n) =? Z.of_nat n then []
     else let r := i + Zlen (ids_from (mem s) i n) in
          at_addr (768 + 32 * r) id ++ at_addr (768 + 32 * r + 8) (repeat 255 24))
    (if Zlen (ids_from (mem s) i n) =? Z.of_nat n then -1 else i + Zlen (ids_from (mem s) i n)).
Proof.
  induction n; intros i s Hi.
  - cbn [add_rows ids_from]. change (Zlen [] =? Z.of_nat 0) with true. cbn iota. apply does_ret.
  - cbn [add_rows ids_from]. rewrite row_addr_eq.
    eapply does_bind0; [apply does_read|]. intros s' Hs'. cbv beta.
    destruct (mem s (768 + 32 * i) =? 255) eqn:E.
    + rewrite Zlen_nil. replace (0 =? Z.of_nat (S n)) with false by lia. cbv zeta. rewrite Z.add_0_r.
      eapply does_bind; [apply does_update_bytes|]. intros s1 _. cbv beta.
      rewrite <- (app_nil_r (at_addr (768 + 32 * i + 8) _)).
      eapply does_bind; [apply does_erase_bytes|]. intros s2 _. apply does_ret.
    + rewrite Zlen_cons.
      replace (1 + Zlen (ids_from (mem s) (i + 1) n) =? Z.of_nat (S n)) with
        (Zlen (ids_from (mem s) (i + 1) n) =? Z.of_nat n) by lia.
      rewrite (Z.add_assoc i 1). 
      rewrite (ids_from_ext (mem s) (mem s')) by (intros; symmetry; apply Hs').
      apply (IHn (i + 1) s'). lia.
Qed.

Definition row_ws (r : Z) (id : list Z) : list (Z * Z) := at_addr (768 + 32 * r) (id ++ repeat 255 24).

Lemma row_ws_eq r id : Zlen id = 8 ->
  at_addr (768 + 32 * r) id ++ at_addr (768 + 32 * r + 8) (repeat 255 24) = row_ws r id.
Proof. intros H. unfold row_ws. rewrite at_addr_app, H. reflexivity. Qed.

Lemma row_ws_mem r id m q : Zlen id = 8 ->
  applyw (row_ws r id) m q =
  if (768 + 32 * r <=? q) && (q <? 768 + 32 * r + 32)
  then znth (id ++ repeat 255 24) (q - (768 + 32 * r)) else m q.
Proof.
  intros H. unfold row_ws. rewrite applyw_at.
  replace (Zlen (id ++ repeat 255 24)) with 32 by (rewrite Zlen_app, Zlen_repeat; lia). reflexivity.
Qed.

(** Effect of filling row r on the list. *)
Lemma ids_from_fill m m' id n : forall i, Zlen id = 8 -> znth id 0 <> 255 ->
  Zlen (ids_from m i n) < Z.of_nat n ->
  (let r := i + Zlen (ids_from m i n) in
   (forall q, 768 + 32 * i <= q -> q < 768 + 32 * r \/ 768 + 32 * r + 32 <= q -> m' q = m q) /\
   block m' (768 + 32 * r) 8 = id /\
   (r + 1 < i + Z.of_nat n -> m (768 + 32 * (r + 1)) = 255)) ->
  ids_from m' i n = ids_from m i n ++ [id].
Proof.
  induction n; intros i Hid H0 HL Hc; [pose proof (Zlen_nonneg (ids_from m i 0)); lia|].
  cbn [ids_from] in *. destruct (m (768 + 32 * i) =? 255) eqn:E.
  - rewrite Zlen_nil, Z.add_0_r in Hc. cbv zeta in Hc. destruct Hc as (H1 & H2 & H3).
    assert (HF : m' (768 + 32 * i) = znth id 0).
    { rewrite <- H2. rewrite block_znth by lia. f_equal. lia. }
    rewrite HF. replace (znth id 0 =? 255) with false by lia.
    cbn [app]. unfold row_id at 1. rewrite H2. f_equal.
    destruct n; [reflexivity|]. cbn [ids_from]. rewrite H1 by lia. rewrite H3 by lia. reflexivity.
  - rewrite Zlen_cons in Hc, HL. cbv zeta in Hc. destruct Hc as (H1 & H2 & H3).
    pose proof (Zlen_nonneg (ids_from m (i + 1) n)).
    rewrite H1 by lia. rewrite E. cbn [app]. f_equal.
    + apply block_ext. intros q Hq. apply H1; lia.
    + apply IHn; auto; [lia|]. cbv zeta.
      replace (i + 1 + Zlen (ids_from m (i + 1) n)) with (i + (1 + Zlen (ids_from m (i + 1) n))) by lia.
      split; [|split; [exact H2|]].
      * intros q Hq Hq'. apply H1; lia.
      * intros. apply H3. lia.
Qed.

Theorem C22_add : forall id s f, Zlen id = 8 -> znth id 0 <> 255 -> compact (mem s) -> (32 <= f)%nat ->
  let n := Zlen (ids (mem s)) in
  exists s' r f', addNodeAssociation id s f = (s', Some (r, f')) /\ compact (mem s') /\
    (n = 8 -> r = -1 /\ meq (mem s') (mem s)) /\
    (n < 8 -> r = n /\ ids (mem s') = ids (mem s) ++ [id] /\
       (forall q, 768 + 32 * n + 8 <= q < 768 + 32 * n + 32 -> mem s' q = 255) /\
       (forall q, q < 768 + 32 * n \/ 768 + 32 * n + 32 <= q -> mem s' q = mem s q)).
Proof.
  intros id s f Hid H0 HC Hf n.
  pose proof (does_add_rows id 8 0 s ltac:(lia)) as HD. fold (ids (mem s)) in HD. fold n in HD.
  change (Z.of_nat 8) with 8 in HD. rewrite Z.add_0_l in HD. cbv zeta in HD.
  rewrite row_ws_eq in HD by auto.
  pose proof (ids_len (mem s)) as HL. fold n in HL.
  pose proof (Zlen_nonneg (ids (mem s))) as HL0. fold n in HL0.
  destruct (does_complete _ _ _ _ HD f) as (s' & f' & E & Hm).
  { destruct (n =? 8); [simpl; lia|]. unfold row_ws. rewrite at_addr_len, app_length, repeat_length.
    unfold Zlen in Hid. lia. }
  unfold addNodeAssociation. rewrite E. eexists s', _, f'. split; [reflexivity|].
  destruct (n =? 8) eqn:E8.
  - split; [apply (compact_meq (mem s)); auto; apply meq_sym; exact Hm|].
    split; [intros _; split; [reflexivity|exact Hm]|]. lia.
  - assert (HO : forall q, q < 768 + 32 * n \/ 768 + 32 * n + 32 <= q -> mem s' q = mem s q).
    { intros q Hq. rewrite Hm, row_ws_mem by auto.
      replace ((768 + 32 * n <=? q) && _) with false by lia. reflexivity. }
    assert (HI : ids (mem s') = ids (mem s) ++ [id]).
    { apply ids_from_fill; auto; [fold (ids (mem s)); fold n; lia|]. fold (ids (mem s)). fold n. cbv zeta.
      rewrite Z.add_0_l. split; [|split].
      - intros q Hq Hq'. apply HO. lia.
      - apply zlist_ext.
        + unfold Zlen in *. rewrite block_len. lia.
        + unfold Zlen at 1. rewrite block_len. intros i Hi. rewrite block_znth by lia.
          rewrite Hm, row_ws_mem by auto.
          replace ((768 + 32 * n <=? _) && _) with true by lia.
          rewrite (znth_app id) by lia.
          replace (768 + 32 * n + i - (768 + 32 * n)) with i by lia.
          replace (i <? Zlen id) with true by lia. reflexivity.
      - intros. apply HC. fold n. lia. }
    split.
    + intros i Hi. rewrite HI, Zlen_app in Hi. fold n in Hi. change (Zlen [id]) with 1 in Hi.
      rewrite HO by lia. apply HC. fold n. lia.
    + split; [lia|]. intros _. split; [reflexivity|]. split; [exact HI|]. split; [|exact HO].
      intros q Hq. rewrite Hm, row_ws_mem by auto.
      replace ((768 + 32 * n <=? q) && _) with true by lia.
      rewrite (znth_app id) by lia. replace (_ <? _) with false by lia.
      apply znth_repeat. lia.
Qed.

(** ** A whole history: clear, then any list of adds. *)
Fixpoint add_all (l : list (list Z)) : M (list Z) :=
  match l with
  | [] => ret []
  | id :: r => run i <- addNodeAssociation id; run is <- add_all r; ret (i :: is)
  end.

Theorem C22_add_history : forall l s f, (32 * length l <= f)%nat ->
  (forall id, In id l -> Zlen id = 8 /\ znth id 0 <> 255) -> compact (mem s) ->
  exists s' is f', add_all l s f = (s', Some (is, f')) /\ compact (mem s') /\
    ids (mem s') = ids (mem s) ++ firstn (8 - length (ids (mem s))) l /\
    is = map (fun k => let i := Zlen (ids (mem s)) + Z.of_nat k in if i <? 8 then i else -1)
             (seq 0 (length l)).
Proof.
  induction l as [|id r IH]; intros s f Hf Hl HC.
  - exists s, [], f. split; [reflexivity|]. split; [exact HC|]. rewrite firstn_nil, app_nil_r. auto.
  - destruct (Hl id (or_introl eq_refl)) as [Hid H0]. cbn [length] in Hf.
    pose proof (ids_len (mem s)) as HL.
    cbn [add_all]. unfold mbind at 1.
    (* run the head with exactly the budget it may need to know what is left *)
    assert (HA : exists s1 r1 f1, addNodeAssociation id s f = (s1, Some (r1, f1)) /\
               (f - 32 <= f1)%nat /\ compact (mem s1) /\
               (Zlen (ids (mem s)) = 8 -> r1 = -1 /\ meq (mem s1) (mem s)) /\
               (Zlen (ids (mem s)) < 8 -> r1 = Zlen (ids (mem s)) /\ ids (mem s1) = ids (mem s) ++ [id])).
    { destruct (C22_add id s f Hid H0 HC ltac:(lia)) as (s1 & r1 & f1 & E & HC1 & HA & HB).
      exists s1, r1, f1. split; [exact E|]. split.
      - pose proof (does_add_rows id 8 0 s ltac:(lia) f) as HD. unfold addNodeAssociation in E. rewrite E in HD.
        destruct HD as [(s2 & k & X & _)|(s2 & f2 & X & Hf2 & _)]; [congruence|].
        apply pair_inj in X. destruct X as [_ X]. apply some_pair_inj in X. destruct X as [_ <-].
        destruct (Zlen (ids_from (mem s) 0 8) =? Z.of_nat 8); [simpl in Hf2; lia|].
        cbv zeta in Hf2. rewrite app_length, !at_addr_len, repeat_length in Hf2. unfold Zlen in Hid. lia.
      - split; [exact HC1|]. split; [exact HA|]. intros H8. destruct (HB H8) as (X1 & X2 & _). auto. }
    destruct HA as (s1 & r1 & f1 & E & Hf1 & HC1 & HA & HB). rewrite E.
    destruct (IH s1 f1 ltac:(lia) ltac:(intros; apply Hl; right; auto) HC1)
      as (s2 & is & f2 & E2 & HC2 & HI2 & His).
    unfold mbind. rewrite E2. exists s2, (r1 :: is), f2. split; [reflexivity|]. split; [exact HC2|].
    destruct (Z.eq_dec (Zlen (ids (mem s))) 8) as [H8|H8].
    + destruct (HA H8) as [-> Hm]. rewrite (ids_meq _ _ Hm) in *. split.
      * rewrite HI2. unfold Zlen in H8. replace (8 - length (ids (mem s)))%nat with 0%nat by lia. reflexivity.
      * cbn [length seq map]. rewrite H8 in *. cbn [Z.of_nat]. f_equal. rewrite His.
        rewrite <- seq_shift, map_map. apply map_ext. intros k. cbv zeta.
        replace (8 + Z.of_nat k <? 8) with false by lia.
        replace (8 + Z.of_nat (S k) <? 8) with false by lia. reflexivity.
    + destruct (HB ltac:(lia)) as [-> HI1]. split.
      * rewrite HI2, HI1, app_length. cbn [length]. unfold Zlen in H8, HL.
        replace (8 - length (ids (mem s)))%nat with (S (8 - (length (ids (mem s)) + 1)))%nat by lia.
        cbn [firstn]. rewrite <- app_assoc. reflexivity.
      * cbn [length seq map]. f_equal.
        -- cbv zeta. replace (Zlen (ids (mem s)) + Z.of_nat 0) with (Zlen (ids (mem s))) by lia.
           replace (_ <? 8) with true by lia. reflexivity.
        -- rewrite His. rewrite <- seq_shift, map_map. apply map_ext. intros k. cbv zeta.
           rewrite HI1, Zlen_app. change (Zlen [id]) with 1.
           replace (Zlen (ids (mem s)) + 1 + Z.of_nat k) with (Zlen (ids (mem s)) + Z.of_nat (S k)) by lia.
           reflexivity.
Qed.

(** ** Prefix lookup *)
Fixpoint scan (m : Z -> Z) (prefix : list Z) (i : Z) (n : nat) : option (Z * list Z) :=
  match n with
  | O => None
  | S n' => if 255 =? znth (row_id m i) 0 then None
            else if (Zlen prefix =? 0) || list_eqb (firstn (length prefix) (row_id m i)) prefix
            then Some (i, row_id m i) else scan m prefix (i + 1) n'
  end.
Lemma scan_meq m m' prefix : meq m m' -> forall n i, scan m prefix i n = scan m' prefix i n.
Proof.
  intros H n. induction n; intros i; cbn [scan]; [reflexivity|].
  assert (row_id m i = row_id m' i) as -> by (apply block_meq; auto). rewrite IHn. reflexivity.
Qed.
Lemma does_match_rows prefix n : forall i s, i + Z.of_nat n = 8 ->
  does (match_rows prefix i n) s [] (scan (mem s) prefix i n).
Proof.
  induction n; intros i s Hi; cbn [match_rows scan]; [apply does_ret|].
  unfold table_get. replace (i >=? ASSOC_MAX) with false by (unfold ASSOC_MAX; lia).
  rewrite row_addr_eq. eapply does_bind0; [apply does_read_block|]. intros s1 H1. cbv beta.
  fold (row_id (mem s) i). destruct (255 =? _); [apply does_ret|].
  destruct (_ || _); [apply does_ret|]. rewrite <- (scan_meq _ _ prefix H1). apply IHn. lia.
Qed.

Lemma match_bool prefix id : (Zlen prefix =? 0) || list_eqb (firstn (length prefix) id) prefix = true
  <-> starts_with prefix id.
Proof.
  unfold starts_with. destruct prefix as [|b p].
  - split; reflexivity.
  - rewrite Zlen_cons. pose proof (Zlen_nonneg p). replace (1 + Zlen p =? 0) with false by lia.
    cbn [orb]. apply list_eqb_eq.
Qed.
Lemma row_first m i : znth (row_id m i) 0 = m (768 + 32 * i).
Proof. unfold row_id. rewrite block_znth by lia. f_equal. lia. Qed.

Lemma scan_spec m prefix n : forall i,
  match scan m prefix i n with
  | Some (j, id) => i <= j < i + Zlen (ids_from m i n) /\
       nth_error (ids_from m i n) (Z.to_nat (j - i)) = Some id /\ starts_with prefix id /\
       (forall k id', i <= k < j -> nth_error (ids_from m i n) (Z.to_nat (k - i)) = Some id' ->
          ~ starts_with prefix id')
  | None => forall id, In id (ids_from m i n) -> ~ starts_with prefix id
  end.
Proof.
  induction n; intros i; cbn [scan ids_from]; [intros id []|].
  rewrite row_first. rewrite Z.eqb_sym. destruct (m (768 + 32 * i) =? 255); [intros id []|].
  pose proof (match_bool prefix (row_id m i)) as HB.
  destruct (_ || _).
  - pose proof (Zlen_nonneg (ids_from m (i + 1) n)). rewrite Zlen_cons. split; [lia|].
    rewrite Z.sub_diag. split; [reflexivity|]. split; [apply HB; reflexivity|]. intros. lia.
  - assert (HN : ~ starts_with prefix (row_id m i)) by (intros X; apply HB in X; discriminate).
    specialize (IHn (i + 1)). destruct (scan m prefix (i + 1) n) as [[j id]|].
    + destruct IHn as (H1 & H2 & H3 & H4). rewrite Zlen_cons. split; [lia|].
      split; [replace (Z.to_nat (j - i)) with (S (Z.to_nat (j - (i + 1)))) by lia; exact H2|].
      split; [exact H3|]. intros k id' Hk HE. destruct (Z.eq_dec k i) as [->|Hki].
      * rewrite Z.sub_diag in HE. cbn in HE. apply some_inj in HE. subst id'. exact HN.
      * replace (Z.to_nat (k - i)) with (S (Z.to_nat (k - (i + 1)))) in HE by lia.
        apply (H4 k id'); [lia|exact HE].
    + intros id [<-|Hin]; auto.
Qed.

Lemma ids_from_skip m n : forall i k, 0 <= k <= Zlen (ids_from m i n) ->
  ids_from m (i + k) (n - Z.to_nat k) = skipn (Z.to_nat k) (ids_from m i n).
Proof.
  induction n; intros i k Hk; cbn [ids_from] in *.
  - unfold Zlen in Hk. simpl in Hk. replace k with 0 by lia. reflexivity.
  - destruct (Z.eq_dec k 0) as [->|Hk0].
    + rewrite Z.add_0_r. change (Z.to_nat 0) with 0%nat. cbn [skipn Nat.sub ids_from]. reflexivity.
    + destruct (m (768 + 32 * i) =? 255) eqn:E; [unfold Zlen in Hk; simpl in Hk; lia|].
      rewrite Zlen_cons in Hk. replace (Z.to_nat k) with (S (Z.to_nat (k - 1))) by lia.
      cbn [skipn Nat.sub]. rewrite <- IHn by lia. f_equal. lia.
Qed.

(** The search: first association at or after [index] starting with the prefix. *)
Theorem C22_lookup : forall s f index prefix plen, compact (mem s) -> 0 <= index ->
  0 <= plen <= Zlen prefix ->
  let tab := ids (mem s) in
  let pre := firstn (Z.to_nat plen) prefix in
  exists s' r, getNextMatchingNodeID index (Some prefix) plen s f = (s', Some (r, f)) /\
    meq (mem s') (mem s) /\
    match r with
    | Some (j, id) => index <= j < Zlen tab /\ nth_error tab (Z.to_nat j) = Some id /\ starts_with pre id /\
         (forall k id', index <= k < j -> nth_error tab (Z.to_nat k) = Some id' -> ~ starts_with pre id')
    | None => plen > 8 \/
         forall k id, index <= k -> nth_error tab (Z.to_nat k) = Some id -> ~ starts_with pre id
    end.
Proof.
  intros s f index prefix plen HC Hi Hp tab pre.
  pose proof (ids_len (mem s)) as HL. fold tab in HL. pose proof (Zlen_nonneg tab) as HL0.
  assert (HN : forall k id, nth_error tab (Z.to_nat k) = Some id -> 0 <= k -> k < Zlen tab).
  { intros k id HE Hk. assert (nth_error tab (Z.to_nat k) <> None) by congruence.
    apply nth_error_Some in H. unfold Zlen. lia. }
  unfold getNextMatchingNodeID.
  destruct (index >=? ASSOC_MAX) eqn:E1; unfold ASSOC_MAX in *.
  { exists s, None. split; [reflexivity|]. split; [apply meq_refl|]. right. intros k id Hk HE.
    apply HN in HE; lia. }
  destruct (plen >? 8) eqn:E2.
  { exists s, None. split; [reflexivity|]. split; [apply meq_refl|]. left. lia. }
  destruct (does_run0 _ _ _ (does_match_rows (firstn (Z.to_nat plen) prefix) (Z.to_nat (8 - index)) index s ltac:(lia)) f)
    as (s' & E & Hm).
  fold pre in E. fold pre. exists s', (scan (mem s) pre index (Z.to_nat (8 - index))).
  split; [exact E|]. split; [exact Hm|].
  destruct (Z_le_dec index (Zlen tab)) as [Hle|Hgt].
  - pose proof (scan_spec (mem s) pre (Z.to_nat (8 - index)) index) as HS.
    assert (HT : ids_from (mem s) index (Z.to_nat (8 - index)) = skipn (Z.to_nat index) tab).
    { change tab with (ids_from (mem s) 0 8) in Hle |- *.
      rewrite <- (ids_from_skip (mem s) 8 0 index) by (split; [lia|exact Hle]).
      rewrite Z.add_0_l. f_equal. lia. }
    rewrite HT in HS.
    assert (HNE : forall k, index <= k -> nth_error (skipn (Z.to_nat index) tab) (Z.to_nat (k - index))
                    = nth_error tab (Z.to_nat k)).
    { intros k Hk. replace (Z.to_nat k) with (Z.to_nat index + Z.to_nat (k - index))%nat by lia.
      generalize (Z.to_nat index) (Z.to_nat (k - index)). generalize tab. clear. intros l0 a b. revert l0 b.
      induction a; intros l b; [reflexivity|]. destruct l; [destruct b; reflexivity|]. simpl. apply IHa. }
    destruct (scan (mem s) pre index (Z.to_nat (8 - index))) as [[j id]|].
    + destruct HS as (H1 & H2 & H3 & H4). rewrite Zlen_skipn in H1. split; [lia|].
      rewrite HNE in H2 by lia. split; [exact H2|]. split; [exact H3|].
      intros k id' Hk HE. apply (H4 k id' Hk). rewrite HNE by lia. exact HE.
    + right. intros k id Hk HE. apply HS. rewrite <- HNE in HE by lia. apply nth_error_In in HE. exact HE.
  - (* beyond the end of the list every row starts 0xff *)
    assert (scan (mem s) pre index (Z.to_nat (8 - index)) = None) as ->.
    { replace (Z.to_nat (8 - index)) with (S (Z.to_nat (7 - index))) by lia. cbn [scan].
      rewrite row_first, HC by (fold tab; lia). reflexivity. }
    right. intros k id Hk HE. apply HN in HE; lia.
Qed.

(** The result of every query depends on the table area only. *)
Theorem C22_reads_table_only : forall s1 s2 f index prefix plen,
  (forall q, 768 <= q < 1024 -> mem s1 q = mem s2 q) -> 0 <= index ->
  snd (getNextMatchingNodeID index prefix plen s1 f) = snd (getNextMatchingNodeID index prefix plen s2 f).
Proof.
  intros s1 s2 f index prefix plen H Hi. unfold getNextMatchingNodeID.
  assert (HS : forall p n i, 0 <= i -> i + Z.of_nat n = 8 -> scan (mem s1) p i n = scan (mem s2) p i n).
  { intros p n. induction n; intros i H0 Hn; cbn [scan]; [reflexivity|].
    rewrite (row_id_ext (mem s1) (mem s2) i) by (intros; apply H; lia). rewrite IHn by lia. reflexivity. }
  destruct (index >=? ASSOC_MAX) eqn:E1; unfold ASSOC_MAX in *; [reflexivity|].
  destruct (plen >? 8); [reflexivity|].
  assert (HG : forall p, snd (match_rows p index (Z.to_nat (8 - index)) s1 f) =
                    snd (match_rows p index (Z.to_nat (8 - index)) s2 f)).
  { intros p.
    destruct (does_run0 _ _ _ (does_match_rows p (Z.to_nat (8 - index)) index s1 ltac:(lia)) f) as (a & -> & _).
    destruct (does_run0 _ _ _ (does_match_rows p (Z.to_nat (8 - index)) index s2 ltac:(lia)) f) as (b & -> & _).
    cbn [snd]. rewrite HS by lia. reflexivity. }
  destruct prefix as [p|]; [apply HG|]. destruct (negb (0 =? plen)); [reflexivity|apply HG].
Qed.

(** Non-vacuity: a cleared store is compact, and three nodes are found. *)
Example C22_nonvacuous :
  let s0 := mkEE (fun q => if q =? 800 then 7 else 255) [] in
  let s1 := fst (clearAllNodeAssociations s0 99%nat) in
  let a := [128;1;2;3;4;5;6;7] in let b := [129;1;2;3;4;5;6;7] in let c := [129;9;2;3;4;5;6;7] in
  let s2 := fst (add_all [a; b; c] s1 99%nat) in
  ids (mem s2) = [a; b; c] /\
  snd (getNextMatchingNodeID 0 (Some [129; 9]) 2 s2 0%nat) = Some (Some (2, c), 0%nat) /\
  snd (getNextMatchingNodeID 0 (Some [129]) 1 s2 0%nat) = Some (Some (1, b), 0%nat) /\
  snd (getNextMatchingNodeID 2 (Some [128]) 1 s2 0%nat) = Some (None, 0%nat).
Proof. vm_compute. repeat split; reflexivity. Qed.

Print Assumptions C22_clear.
Print Assumptions C22_count.
Print Assumptions C22_get.
Print Assumptions C22_add.
Print Assumptions C22_add_history.
Print Assumptions C22_lookup.
Print Assumptions C22_reads_table_only.

(** ** Any sequence of clears and adds, from memory with anything in it once it has been cleared. *)
Inductive TabOp := TabClear | TabAdd (id : list Z).
Definition tab_op (o : TabOp) (s : EE) : EE :=
  match o with TabClear => fst (clearAllNodeAssociations s 8%nat) | TabAdd id => fst (addNodeAssociation id s 32%nat) end.
Definition tab_run (l : list TabOp) (s : EE) : EE := fold_left (fun s o => tab_op o s) l s.
(** What the table should list. *)
Definition tab_step (t : list (list Z)) (o : TabOp) : list (list Z) :=
  match o with TabClear => [] | TabAdd id => if Nat.ltb (length t) 8 then t ++ [id] else t end.
Definition op_ok (o : TabOp) : Prop := match o with TabClear => True | TabAdd id => Zlen id = 8 /\ znth id 0 <> 255 end.
Theorem C22_history : forall l s, Forall op_ok l ->
  ids (mem (tab_run (TabClear :: l) s)) = fold_left tab_step l [] /\
  (forall q, q < 768 \/ 1024 <= q -> mem (tab_run (TabClear :: l) s) q = mem s q).
Proof.
  intros l s HL. cbn [tab_run fold_left tab_op].
  destruct (C22_clear s 8 ltac:(lia)) as (s1 & f1 & E1 & HI & HC & HF). rewrite E1. cbn [fst].
  assert (HQ : forall q, q < 768 \/ 1024 <= q -> mem s1 q = mem s q) by (intros q Hq; apply HF; intros i Hi; lia).
  clear E1 HF. rewrite <- HI. revert s1 HC HQ HI. intros s1 HC HQ _. revert s1 HC HQ.
  induction HL as [|o l Ho HL IH]; intros s1 HC HQ; cbn [fold_left]; [split; [reflexivity|exact HQ]|].
  destruct o as [|id]; cbn [tab_op tab_step].
  - destruct (C22_clear s1 8 ltac:(lia)) as (s2 & f2 & E2 & HI & HC2 & HF). rewrite E2. cbn [fst].
    rewrite <- HI. apply IH; [exact HC2|]. intros q Hq. rewrite <- HQ by exact Hq. apply HF. intros i Hi. lia.
  - destruct Ho as [H8 H0]. destruct (C22_add id s1 32 H8 H0 HC ltac:(lia)) as (s2 & r & f2 & E2 & HC2 & HFull & HAdd).
    rewrite E2. cbn [fst]. pose proof (ids_len (mem s1)) as HN. unfold Zlen in *.
    destruct (Nat.ltb_spec (length (ids (mem s1))) 8) as [Hlt|Hge].
    + destruct (HAdd ltac:(lia)) as (_ & HI & _ & HO). rewrite <- HI. apply IH; [exact HC2|].
      intros q Hq. rewrite HO by lia. apply HQ. exact Hq.
    + destruct (HFull ltac:(lia)) as [_ HM]. assert (HX : ids (mem s2) = ids (mem s1)).
      { apply ids_meq. exact HM. }
      rewrite <- HX. apply IH; [exact HC2|]. intros q Hq. rewrite (HM q). apply HQ. exact Hq.
Qed.
Example C22_history_ex : Forall op_ok (TabAdd [128;1;2;3;4;5;6;7] :: TabClear :: repeat (TabAdd [129;1;2;3;4;5;6;7]) 10) /\
  fold_left tab_step (TabAdd [128;1;2;3;4;5;6;7] :: TabClear :: repeat (TabAdd [129;1;2;3;4;5;6;7]) 10) [] = repeat [129;1;2;3;4;5;6;7] 8.
Proof. split; [|vm_compute; reflexivity]. repeat (constructor; [first [exact I | split; [reflexivity|vm_compute; discriminate]]|]). constructor. Qed.
Print Assumptions C22_history.
