(** C70: the set of statistics behaves as a finite map of bounded size. *)
From Coq Require Import Permutation.
From Verif Require Import Base JsonModel JsonBuf JsonSpec JsonWrite JsonMain JsonThm.

(** ** Specification: a map from names to (value, low priority, changed), and its size. *)

Record entry := En { e_val : Z; e_low : bool; e_chg : bool }.
Definition fmap := list Z -> option entry.
Definition set (m : fmap) (k : list Z) (e : option entry) : fmap := fun k' => if list_eq_dec Z.eq_dec k' k then e else m k'.

Definition m_put (cap n : Z) (m : fmap) (k : list Z) (v : Z) (low : bool) : fmap * Z * bool :=
  match m k with
  | Some e => (set m k (Some (En v (e_low e) (e_chg e || negb (e_val e =? v)))), n, true)
  | None => if n <? cap then (set m k (Some (En v low true)), n + 1, true) else (m, n, false)
  end.
Definition m_desc (cap n : Z) (m : fmap) (k : list Z) (low : bool) : fmap * Z * bool :=
  match m k with
  | Some e => (set m k (Some (En (e_val e) low (e_chg e))), n, true)
  | None => if n <? cap then (set m k (Some (En 0 low false)), n + 1, true) else (m, n, false)
  end.
Definition m_remove (n : Z) (m : fmap) (k : list Z) : fmap * Z * bool :=
  match m k with
  | Some _ => (set m k None, n - 1, true)
  | None => (m, n, false)
  end.

(** The map a rotation holds. *)
Definition entry_of (s : stat) : entry := En (s_val s) (s_low s) (s_chg s).
Fixpoint look (st : list stat) : fmap := fun k =>
  match st with
  | [] => None
  | s :: st => if list_eq_dec Z.eq_dec (s_key s) k then Some (entry_of s) else look st k
  end.
Definition same (m1 m2 : fmap) : Prop := forall k, m1 k = m2 k.

(** ** Keys *)

Lemma key_eqb_spec a b : key_eqb a b = true <-> a = b.
Proof.
  revert b. induction a as [|x a IH]; intros [|y b]; cbn [key_eqb]; try (split; congruence).
  rewrite andb_true_iff, IH. split; [intros [E ->]; f_equal; lia|]. intros E. apply (f_equal (fun l => (hd 0 l, tl l))) in E. cbn in E.
  apply pair_inj in E. destruct E as [-> ->]. split; [lia|reflexivity].
Qed.

(** Valid names are those that need no escaping in JSON. *)
Theorem json_valid_key k : Forall byte k -> (validKey (Some k) = true <-> plain k).
Proof.
  intros B. cbn [validKey]. unfold plain. rewrite forallb_forall, Forall_forall. rewrite Forall_forall in B.
  split; intros H c I; specialize (H c I); specialize (B c I); unfold byte in B.
  - unfold badchar in H. apply negb_true_iff in H. apply orb_false_iff in H. destruct H as [H H4]. apply orb_false_iff in H. destruct H as [H H3].
    apply orb_false_iff in H. destruct H as [H1 H2]. unfold i8 in H1, H2.
    destruct (Z_lt_le_dec c 128).
    + rewrite Z.mod_small in H1, H2 by lia. lia.
    + replace ((c + 128) mod 256) with (c - 128) in H1 by (apply (Z.mod_unique _ _ 1); lia). lia.
  - unfold badchar. unfold i8. rewrite Z.mod_small by lia. apply negb_true_iff. repeat (apply orb_false_iff; split); lia.
Qed.

(** ** Lookup *)

Lemma find_none k st : findByKey k st = None <-> ~ In k (map s_key st).
Proof.
  induction st as [|s st IH]; cbn [findByKey map In]; [tauto|]. destruct (key_eqb (s_key s) k) eqn:E.
  - apply key_eqb_spec in E. split; [discriminate|]. intros H. exfalso. apply H. left. exact E.
  - destruct (findByKey k st); cbn [option_map].
    + split; [discriminate|]. intros H. exfalso. destruct IH as [_ IH]. assert (Some n = None) by (apply IH; intros X; apply H; right; exact X). discriminate.
    + split; [|reflexivity]. intros _ [X | X]; [apply key_eqb_spec in X; congruence|]. apply IH in X; auto.
Qed.
Lemma find_some k st i : findByKey k st = Some i -> exists l s l', st = l ++ s :: l' /\ length l = i /\ s_key s = k /\ ~ In k (map s_key l).
Proof.
  revert i. induction st as [|s st IH]; intros i; cbn [findByKey]; [discriminate|]. destruct (key_eqb (s_key s) k) eqn:E.
  - intros H. apply some_inj in H. subst i. apply key_eqb_spec in E. exists [], s, st. cbn. auto.
  - destruct (findByKey k st) as [j|]; cbn [option_map]; [|discriminate]. intros H. apply some_inj in H. subst i.
    destruct (IH j eq_refl) as (l & s' & l' & -> & L & K & NI). exists (s :: l), s', l'. cbn [app length map In]. split; [reflexivity|]. split; [lia|]. split; [exact K|].
    intros [X | X]; [|auto]. apply key_eqb_spec in X. congruence.
Qed.
Lemma update_split l s l' f : update (length l) f (l ++ s :: l') = l ++ f s :: l'.
Proof. induction l; cbn [length update app]; [reflexivity|]. f_equal. assumption. Qed.
Lemma look_app l l' k : look (l ++ l') k = match look l k with Some e => Some e | None => look l' k end.
Proof. induction l as [|s l IH]; cbn [app look]; [reflexivity|]. destruct (list_eq_dec Z.eq_dec (s_key s) k); [reflexivity|exact IH]. Qed.
Lemma look_none l k : look l k = None <-> ~ In k (map s_key l).
Proof.
  induction l as [|s l IH]; cbn [look map In]; [tauto|]. destruct (list_eq_dec Z.eq_dec (s_key s) k) as [E | E].
  - split; [discriminate|]. intros H. exfalso. apply H. left. exact E.
  - rewrite IH. tauto.
Qed.
Lemma look_in st s : NoDup (map s_key st) -> In s st -> look st (s_key s) = Some (entry_of s).
Proof.
  induction st as [|t st IH]; intros ND IN; [destruct IN|]. destruct IN as [-> | I]; cbn [map look] in *.
  - destruct (list_eq_dec Z.eq_dec (s_key s) (s_key s)); [reflexivity|congruence].
  - apply NoDup_cons_iff in ND. destruct ND as [NI ND]. destruct (list_eq_dec Z.eq_dec (s_key t) (s_key s)) as [E | E]; [|auto].
    exfalso. apply NI. rewrite E. apply in_map. exact I.
Qed.

Lemma nodup_split {A} (l l' : list A) x : NoDup (l ++ x :: l') -> ~ In x l /\ ~ In x l'.
Proof. intros H. apply NoDup_remove_2 in H. split; intros X; apply H; apply in_or_app; auto. Qed.

Lemma nodup_app_r {A} (l l' : list A) : NoDup (l ++ l') -> NoDup l'.
Proof. induction l as [|a l IH]; cbn [app]; [auto|]. intros H. apply NoDup_cons_iff in H. apply IH. apply H. Qed.

(** ** Operations *)

(** What one slot changes to. *)
Lemma put_existing st l s l' f : st = l ++ s :: l' -> NoDup (map s_key st) -> s_key (f s) = s_key s ->
  let st' := update (length l) f st in
  map s_key st' = map s_key st /\ same (look st') (set (look st) (s_key s) (Some (entry_of (f s)))).
Proof.
  intros -> ND K. cbv zeta. rewrite update_split. split; [rewrite !map_app; cbn [map]; rewrite K; reflexivity|].
  rewrite map_app in ND. cbn [map] in ND. destruct (nodup_split _ _ _ ND) as [N1 N2].
  intros k. unfold set. rewrite !look_app. cbn [look]. rewrite K. destruct (list_eq_dec Z.eq_dec k (s_key s)) as [-> | E].
  - apply look_none in N1. rewrite N1. destruct (list_eq_dec Z.eq_dec (s_key s) (s_key s)); [reflexivity|congruence].
  - destruct (list_eq_dec Z.eq_dec (s_key s) k); [congruence|reflexivity].
Qed.
Lemma put_new st k v low chg : ~ In k (map s_key st) ->
  same (look (st ++ [St k v low chg])) (set (look st) k (Some (En v low chg))).
Proof.
  intros NI k'. unfold set. rewrite look_app. cbn [look s_key]. destruct (list_eq_dec Z.eq_dec k' k) as [-> | E].
  - apply look_none in NI. rewrite NI. destruct (list_eq_dec Z.eq_dec k k); [reflexivity|congruence].
  - destruct (look st k'); [reflexivity|]. destruct (list_eq_dec Z.eq_dec k k'); [congruence|reflexivity].
Qed.

Lemma look_split l s l' : NoDup (map s_key (l ++ s :: l')) -> look (l ++ s :: l') (s_key s) = Some (entry_of s).
Proof. intros ND. apply look_in; [exact ND|apply in_or_app; right; left; reflexivity]. Qed.

Lemma ok_intro r st : ok r -> Forall (fun s => plain (s_key s)) st -> NoDup (map s_key st) -> Forall (fun s => -32768 <= s_val s < 32768) st ->
  Zlen st <= r_cap r -> ok (set_stats r st).
Proof. intros [A B C D E F G] K N V L. constructor; cbn [r_stats r_cap r_last r_id r_cnt set_stats]; auto. lia. Qed.

Lemma forall_update (P : stat -> Prop) l s l' f : Forall P (l ++ s :: l') -> P (f s) -> Forall P (update (length l) f (l ++ s :: l')).
Proof. intros H Q. rewrite update_split. apply Forall_app in H. destruct H as [H1 H2]. inversion H2; subst. apply Forall_app. split; [assumption|]. constructor; assumption. Qed.
Lemma nodup_snoc {A} (l : list A) x : NoDup l -> ~ In x l -> NoDup (l ++ [x]).
Proof. intros N I. induction N as [|a l NA N IH]; cbn [app]; [constructor; [intros []|constructor]|]. constructor; [|apply IH; intros X; apply I; right; exact X].
  intros X. apply in_app_or in X. destruct X as [X | [X | []]]; [auto|]. subst. apply I. left. reflexivity. Qed.

(** put: an invalid name is refused; otherwise the map is updated as specified. *)
Theorem json_put k v low r : ok r -> -32768 <= v < 32768 -> match k with Some k => Forall byte k | None => True end ->
  let '(r', b) := put k v low r in
  ok r' /\
  match k with
  | None => r' = r /\ b = false
  | Some k =>
      (~ plain k -> r' = r /\ b = false) /\
      (plain k -> let '(m', n', b') := m_put (r_cap r) (Zlen (r_stats r)) (look (r_stats r)) k v low in
         same (look (r_stats r')) m' /\ Zlen (r_stats r') = n' /\ b = b' /\ r_cap r' = r_cap r)
  end.
Proof.
  intros OK V B. unfold put. destruct k as [k|]; [|cbn; auto].
  pose proof (json_valid_key k B) as VK. destruct (validKey (Some k)) eqn:E; cbn [negb].
  2:{ split; [exact OK|]. split; [auto|]. intros P. exfalso. apply VK in P. congruence. }
  assert (PK : plain k) by (apply VK; reflexivity). clear VK E.
  unfold m_put. pose proof OK as [K N VV [C1 C2] _ _ _].
  destruct (findByKey k (r_stats r)) as [i|] eqn:F.
  - destruct (find_some _ _ _ F) as (l & s & l' & ST & LI & SK & NI). subst i.
    set (f := fun s => if s_val s =? v then s else set_val s v).
    assert (FK : s_key (f s) = s_key s) by (unfold f; destruct (s_val s =? v); reflexivity).
    destruct (put_existing _ _ _ _ f ST N FK) as [MK SM].
    assert (L0 : look (r_stats r) k = Some (entry_of s)) by (rewrite ST, <- SK; apply look_split; rewrite <- ST; exact N).
    rewrite L0. cbn [r_stats set_stats r_cap].
    assert (LN : Zlen (update (length l) f (r_stats r)) = Zlen (r_stats r)) by (unfold Zlen; rewrite update_len; reflexivity).
    split; [|split; [tauto|]].
    + apply ok_intro; auto.
      * rewrite ST in K |- *. apply forall_update; [exact K|]. rewrite FK, SK. exact PK.
      * rewrite MK. exact N.
      * rewrite ST in VV |- *. apply forall_update; [exact VV|]. unfold f. destruct (s_val s =? v) eqn:Q; [|exact V].
        apply Forall_app in VV. destruct VV as [_ VV]. inversion VV; assumption.
      * rewrite LN. lia.
    + intros _. split; [|auto]. intros k'. rewrite SM. unfold set. rewrite SK. destruct (list_eq_dec Z.eq_dec k' k); [|reflexivity].
      f_equal. unfold f, entry_of. destruct (s_val s =? v) eqn:Q; cbn [s_val s_low s_chg set_val e_val e_low e_chg].
      * rewrite Q. cbn [negb]. rewrite orb_false_r. assert (s_val s = v) by lia. congruence.
      * rewrite Q. cbn [negb]. rewrite orb_true_r. reflexivity.
  - apply find_none in F. pose proof F as F'. apply look_none in F. rewrite F. destruct (Zlen (r_stats r) <? r_cap r) eqn:L; cbn [r_stats set_stats r_cap].
    + split; [|split; [tauto|]].
      * apply ok_intro; auto.
        { apply Forall_app. split; [exact K|]. constructor; [exact PK|constructor]. }
        { rewrite map_app. cbn [map s_key]. apply nodup_snoc; auto. }
        { apply Forall_app. split; [exact VV|]. constructor; [exact V|constructor]. }
        { rewrite Zlen_app, Zlen_cons. change (Zlen (@nil stat)) with 0. lia. }
      * intros _. split; [apply put_new; exact F'|]. split; [rewrite Zlen_app, Zlen_cons; change (Zlen (@nil stat)) with 0; lia|]. auto.
    + split; [exact OK|]. split; [tauto|]. intros _. split; [intros ?; reflexivity|]. auto.
Qed.

Theorem json_put_descriptor k low r : ok r -> match k with Some k => Forall byte k | None => True end ->
  let '(r', b) := putDescriptor k low r in
  ok r' /\
  match k with
  | None => r' = r /\ b = false
  | Some k =>
      (~ plain k -> r' = r /\ b = false) /\
      (plain k -> let '(m', n', b') := m_desc (r_cap r) (Zlen (r_stats r)) (look (r_stats r)) k low in
         same (look (r_stats r')) m' /\ Zlen (r_stats r') = n' /\ b = b' /\ r_cap r' = r_cap r)
  end.
Proof.
  intros OK B. unfold putDescriptor. destruct k as [k|]; [|cbn; auto].
  pose proof (json_valid_key k B) as VK. destruct (validKey (Some k)) eqn:E; cbn [negb].
  2:{ split; [exact OK|]. split; [auto|]. intros P. exfalso. apply VK in P. congruence. }
  assert (PK : plain k) by (apply VK; reflexivity). clear VK E.
  unfold m_desc. pose proof OK as [K N VV [C1 C2] _ _ _].
  destruct (findByKey k (r_stats r)) as [i|] eqn:F.
  - destruct (find_some _ _ _ F) as (l & s & l' & ST & LI & SK & NI). subst i.
    set (f := fun s => set_low s low).
    assert (FK : s_key (f s) = s_key s) by reflexivity.
    destruct (put_existing _ _ _ _ f ST N FK) as [MK SM].
    assert (L0 : look (r_stats r) k = Some (entry_of s)) by (rewrite ST, <- SK; apply look_split; rewrite <- ST; exact N).
    rewrite L0. cbn [r_stats set_stats r_cap].
    assert (LN : Zlen (update (length l) f (r_stats r)) = Zlen (r_stats r)) by (unfold Zlen; rewrite update_len; reflexivity).
    split; [|split; [tauto|]].
    + apply ok_intro; auto.
      * rewrite ST in K |- *. apply forall_update; [exact K|]. rewrite FK, SK. exact PK.
      * rewrite MK. exact N.
      * rewrite ST in VV |- *. apply forall_update; [exact VV|].
        apply Forall_app in VV. destruct VV as [_ VV]. inversion VV; assumption.
      * rewrite LN. lia.
    + intros _. split; [|auto]. intros k'. rewrite SM. unfold set. rewrite SK. destruct (list_eq_dec Z.eq_dec k' k); reflexivity.
  - apply find_none in F. pose proof F as F'. apply look_none in F. rewrite F. destruct (Zlen (r_stats r) <? r_cap r) eqn:L; cbn [r_stats set_stats r_cap].
    + split; [|split; [tauto|]].
      * apply ok_intro; auto.
        { apply Forall_app. split; [exact K|]. constructor; [exact PK|constructor]. }
        { rewrite map_app. cbn [map s_key]. apply nodup_snoc; auto. }
        { apply Forall_app. split; [exact VV|]. constructor; [cbn [s_val]; lia|constructor]. }
        { rewrite Zlen_app, Zlen_cons. change (Zlen (@nil stat)) with 0. lia. }
      * intros _. split; [apply put_new; exact F'|]. split; [rewrite Zlen_app, Zlen_cons; change (Zlen (@nil stat)) with 0; lia|]. auto.
    + split; [exact OK|]. split; [tauto|]. intros _. split; [intros ?; reflexivity|]. auto.
Qed.

(** remove: the statistic is gone, all others stay. *)
Theorem json_remove k r : ok r ->
  let '(r', b) := remove k r in
  ok r' /\
  let '(m', n', b') := m_remove (Zlen (r_stats r)) (look (r_stats r)) k in
  same (look (r_stats r')) m' /\ Zlen (r_stats r') = n' /\ b = b' /\ r_cap r' = r_cap r.
Proof.
  intros OK. unfold remove, m_remove. pose proof OK as [K N VV [C1 C2] _ _ _].
  destruct (findByKey k (r_stats r)) as [i|] eqn:F.
  - destruct (find_some _ _ _ F) as (l & s & l' & ST & LI & SK & NI). subst i.
    assert (L0 : look (r_stats r) k = Some (entry_of s)) by (rewrite ST, <- SK; apply look_split; rewrite <- ST; exact N).
    rewrite L0. cbv zeta.
    (* the resulting list *)
    assert (RES : exists st', removelast (match rev (r_stats r) with [] => r_stats r | x :: _ =>
                    if Nat.eqb (length l) (length (r_stats r) - 1) then r_stats r else update (length l) (fun _ => x) (r_stats r) end) = st' /\
                  (l' = [] /\ st' = l \/ exists m x, l' = m ++ [x] /\ st' = l ++ x :: m)).
    { eexists. split; [reflexivity|]. destruct l' as [|y l'] using rev_ind.
      - left. split; [reflexivity|]. rewrite ST. rewrite rev_app_distr. cbn [rev app]. rewrite app_length. cbn [length].
        replace (Nat.eqb (length l) (length l + 1 - 1)) with true by (symmetry; apply Nat.eqb_eq; lia). apply removelast_last.
      - clear IHl'. right. exists l', y. split; [reflexivity|]. rewrite ST. rewrite rev_app_distr. cbn [rev]. rewrite rev_app_distr. cbn [rev app].
        replace (Nat.eqb (length l) (length (l ++ s :: l' ++ [y]) - 1)) with false
          by (symmetry; apply Nat.eqb_neq; rewrite !app_length; cbn [length]; rewrite !app_length; cbn [length]; lia).
        rewrite update_split. change (l ++ y :: l' ++ [y]) with (l ++ (y :: l') ++ [y]). rewrite app_assoc. apply removelast_last. }
    destruct RES as (st' & E & RES). rewrite E. clear E. cbn [r_stats set_stats r_cap].
    rewrite ST in K, N, VV. rewrite map_app in N. cbn [map] in N. destruct (nodup_split _ _ _ N) as [N1 N2].
    apply Forall_app in K, VV. destruct K as [K1 K2], VV as [V1 V2]. inversion K2; subst. inversion V2; subst.
    assert (INV : forall P : stat -> Prop, Forall P l -> Forall P l' -> Forall P st').
    { intros P A B. destruct RES as [[-> ->] | (m & x & -> & ->)]; [exact A|]. apply Forall_app in B. destruct B as [B1 B2]. inversion B2; subst.
      apply Forall_app. split; [exact A|]. constructor; assumption. }
    assert (LK : same (look st') (set (look (r_stats r)) (s_key s) None)).
    { intros k'. unfold set. rewrite ST. apply look_none in N1, N2.
      rewrite look_app. cbn [look]. destruct RES as [[-> ->] | (m & x & -> & ->)].
      - cbn [look]. destruct (list_eq_dec Z.eq_dec k' (s_key s)) as [-> | Q]; [exact N1|].
        destruct (list_eq_dec Z.eq_dec (s_key s) k'); [congruence|]. destruct (look l k'); reflexivity.
      - rewrite look_app. cbn [look]. rewrite look_app in N2. cbn [look] in N2. rewrite look_app. cbn [look].
        assert (ND2 : NoDup (map s_key (m ++ [x]))) by (apply NoDup_remove_1 in N; apply nodup_app_r in N; exact N).
        rewrite map_app in ND2. cbn [map] in ND2. 
        destruct (list_eq_dec Z.eq_dec k' (s_key s)) as [-> | Q].
        + rewrite N1. destruct (look m (s_key s)); [discriminate|]. destruct (list_eq_dec Z.eq_dec (s_key x) (s_key s)); [discriminate|reflexivity].
        + destruct (look l k'); [reflexivity|]. destruct (list_eq_dec Z.eq_dec (s_key s) k'); [congruence|].
          destruct (list_eq_dec Z.eq_dec (s_key x) k') as [<- | Q2]; [|destruct (look m k'); reflexivity].
          apply nodup_split in ND2. destruct ND2 as [ND2 _]. apply look_none in ND2. rewrite ND2. reflexivity. }
    assert (LN : Zlen st' = Zlen (r_stats r) - 1).
    { rewrite ST. destruct RES as [[-> ->] | (m & x & -> & ->)]; repeat (rewrite Zlen_app || rewrite Zlen_cons); change (Zlen (@nil stat)) with 0; lia. }
    split; [apply ok_intro; auto|].
    + destruct RES as [[-> ->] | (m & x & -> & ->)].
      * apply NoDup_remove_1 in N. cbn [map] in N. rewrite app_nil_r in N. exact N.
      * apply NoDup_remove_1 in N. rewrite map_app in N |- *. cbn [map] in *.
        eapply Permutation_NoDup; [|exact N]. apply Permutation_app_head. apply Permutation_sym. apply Permutation_cons_append.
    + lia.
    + split; [exact LK|]. split; [exact LN|]. auto.
  - apply find_none in F. apply look_none in F. rewrite F. split; [exact OK|]. split; [intros ?; reflexivity|]. auto.
Qed.

(** The ID can only be set to a string that needs no escaping. *)
Theorem json_set_id k r : ok r -> match k with Some k => Forall byte k | None => True end ->
  let '(r', b) := setID k r in
  ok r' /\ r_stats r' = r_stats r /\ (b = true <-> exists t, k = Some t /\ plain t) /\ r_id r' = if b then k else r_id r.
Proof.
  intros OK B. unfold setID. destruct k as [k|].
  - pose proof (json_valid_key k B) as VK. destruct (validKey (Some k)); destruct OK as [O1 O2 O3 O4 O5 O6 O7].
    + assert (PK : plain k) by (apply VK; reflexivity). split; [constructor; assumption|]. split; [reflexivity|]. split; [|reflexivity].
      split; [intros _; exists k; auto|reflexivity].
    + split; [constructor; assumption|]. split; [reflexivity|]. split; [|reflexivity]. split; [discriminate|].
      intros (t & E & P). apply some_inj in E. subst t. apply VK in P. discriminate.
  - cbn. split; [exact OK|]. split; [reflexivity|]. split; [|reflexivity]. split; [discriminate|]. intros (t & E & _). discriminate.
Qed.

(** ** Histories *)

Inductive op :=
| OPut (k : option (list Z)) (v : Z) (low : bool)
| ODesc (k : option (list Z)) (low : bool)
| ORemove (k : list Z)
| OSetID (k : option (list Z))
| OEnable (e : bool)
| OWrite (maximise suppress : bool) (buf : list Z) (bufSize : Z).

Definition bytes_opt (k : option (list Z)) : Prop := match k with Some k => Forall byte k | None => True end.
Definition good_op (o : op) : Prop :=
  match o with
  | OPut k v _ => bytes_opt k /\ -32768 <= v < 32768
  | ODesc k _ => bytes_opt k
  | ORemove k => True
  | OSetID k => bytes_opt k
  | OEnable _ => True
  | OWrite _ _ buf bs => byte bs /\ bs <= Zlen buf
  end.
Definition step (sys : option (Z * Z)) (o : op) (r : rot) : option rot :=
  match o with
  | OPut k v low => Some (fst (put k v low r))
  | ODesc k low => Some (fst (putDescriptor k low r))
  | ORemove k => Some (fst (remove k r))
  | OSetID k => Some (fst (setID k r))
  | OEnable e => Some (enableCount e r)
  | OWrite mx sp buf bs => option_map (fun x => fst (fst x)) (writeJSON sys mx sp buf bs r)
  end.
Fixpoint run (sys : option (Z * Z)) (os : list op) (r : rot) : option rot :=
  match os with
  | [] => Some r
  | o :: os => do r <- step sys o r ; run sys os r
  end.

Lemma ok_new cap : 0 <= cap <= 255 -> ok (rot_new cap).
Proof. intros C. constructor; cbn; try constructor; try lia. try (unfold Zlen; cbn; lia). Qed.

Lemma write_last_byte sys mx sp buf bs r r' buf' n : ok r -> byte bs -> bs <= Zlen buf ->
  writeJSON sys mx sp buf bs r = Some (r', buf', n) -> byte (r_last r').
Proof.
  intros OK BB LB E. destruct (write_general sys mx sp buf bs r OK BB LB) as (r2 & buf2 & n2 & E2 & L & S & RF & WR).
  rewrite E2 in E. apply some_inj in E. apply pair_inj in E. destruct E as [E <-]. apply pair_inj in E. destruct E as [<- <-].
  destruct (Z_lt_le_dec bs 10) as [H | H]; [destruct (RF (or_introl H)) as [-> _]; apply (ok_last _ OK)|].
  destruct (Z_lt_le_dec (bs - 3) (1 + Zlen (join (lead_members sys r)))) as [H2 | H2]; [destruct (RF (or_intror H2)) as [-> _]; apply (ok_last _ OK)|].
  destruct (WR H H2) as (i1 & i2 & i3 & pre & W). cbv zeta in W.
  destruct W as (W1 & W2 & W3 & W4 & W5 & W6 & W7 & W8 & W9 & W10 & W11 & W12 & W13 & W14).
  destruct (r_stats r) as [|s st] eqn:RS.
  - destruct (W14 eq_refl) as (_ & _ & _ & ->). apply (ok_last _ OK).
  - destruct (W13 ltac:(discriminate)) as (a2 & a3 & -> & _ & _ & P). pose proof (p_sent _ _ _ _ _ _ _ _ _ _ _ P) as ->.
    destruct i2 as [|x j2]; [apply (ok_last _ OK)|].
    destruct (exists_last (l := x :: j2)) as (l' & y & EY); [discriminate|]. rewrite EY in *. rewrite last_last.
    assert (0 <= y < Zlen (r_stats r)).
    { eapply p_range; [exact P|]. apply in_or_app. right. apply in_or_app. left. apply in_or_app. right. left. reflexivity. }
    destruct (ok_cap _ OK). unfold byte. lia.
Qed.

Lemma stat_at_map {A} (f : stat -> A) st1 st2 : Zlen st1 = Zlen st2 -> (forall i, 0 <= i < Zlen st1 -> f (stat_at st1 i) = f (stat_at st2 i)) -> map f st1 = map f st2.
Proof.
  revert st2. induction st1 as [|s st1 IH]; intros st2 L H.
  { destruct st2 as [|t st2]; [reflexivity|]. unfold Zlen in L. cbn [length] in L. lia. }
  destruct st2 as [|t st2]. { unfold Zlen in L. cbn [length] in L. lia. }
  cbn [map]. rewrite !Zlen_cons in L. f_equal.
  - apply (H 0). rewrite Zlen_cons. pose proof (Zlen_nonneg st1). lia.
  - apply IH; [lia|]. intros i I. specialize (H (i + 1)). rewrite Zlen_cons in H. specialize (H ltac:(lia)). unfold stat_at in *.
    replace (Z.to_nat (i + 1)) with (S (Z.to_nat i)) in H by lia. exact H.
Qed.

Lemma forall_by_map {A} (f : stat -> A) (P : A -> Prop) l1 l2 : map f l1 = map f l2 -> Forall (fun s => P (f s)) l1 -> Forall (fun s => P (f s)) l2.
Proof. intros E H. rewrite <- Forall_map in H |- *. rewrite <- E. exact H. Qed.

(** A write changes no name, value or priority. *)
Lemma write_keeps sys mx sp buf bs r : ok r -> byte bs -> bs <= Zlen buf ->
  exists r' buf' n, writeJSON sys mx sp buf bs r = Some (r', buf', n) /\ ok r' /\
    map (fun s => (s_key s, s_val s, s_low s)) (r_stats r') = map (fun s => (s_key s, s_val s, s_low s)) (r_stats r) /\ r_cap r' = r_cap r.
Proof.
  intros OK BB LB. destruct (write_general sys mx sp buf bs r OK BB LB) as (r2 & buf2 & n2 & E2 & L & S & RF & WR).
  exists r2, buf2, n2. split; [exact E2|]. pose proof (write_last_byte _ _ _ _ _ _ _ _ _ OK BB LB E2) as LB2.
  destruct (Z_lt_le_dec bs 10) as [H | H]; [destruct (RF (or_introl H)) as [-> _]; auto|].
  destruct (Z_lt_le_dec (bs - 3) (1 + Zlen (join (lead_members sys r)))) as [H2 | H2]; [destruct (RF (or_intror H2)) as [-> _]; auto|].
  destruct (WR H H2) as (i1 & i2 & i3 & pre & W). cbv zeta in W.
  destruct W as (W1 & W2 & W3 & W4 & W5 & W6 & W7 & W8 & W9 & W10 & W11 & W12 & W13 & W14).
  assert (LN : Zlen (r_stats r2) = Zlen (r_stats r)) by (eapply cleared_if_len; exact W6).
  assert (EQ : map (fun s => (s_key s, s_val s, s_low s)) (r_stats r2) = map (fun s => (s_key s, s_val s, s_low s)) (r_stats r)).
  { apply stat_at_map; [exact LN|]. intros i I. rewrite LN in I. unfold cleared_if in W6. destruct (negb sp); [|rewrite W6; reflexivity].
    destruct W6 as [_ W6]. rewrite (W6 i I). destruct (mem i (i1 ++ i2 ++ i3)); reflexivity. }
  split; [|split; [exact EQ|exact W8]].
  assert (EK : map s_key (r_stats r2) = map s_key (r_stats r)).
  { apply (f_equal (map (fun x => fst (fst x)))) in EQ. rewrite !map_map in EQ. cbn [fst] in EQ. exact EQ. }
  assert (EV : map s_val (r_stats r2) = map s_val (r_stats r)).
  { apply (f_equal (map (fun x => snd (fst x)))) in EQ. rewrite !map_map in EQ. cbn [fst snd] in EQ. exact EQ. }
  constructor.
  - pose proof (ok_keys _ OK) as K. exact (forall_by_map s_key (fun k => plain k) _ _ (eq_sym EK) K).
  - rewrite EK. apply (ok_distinct _ OK).
  - pose proof (ok_vals _ OK) as K. exact (forall_by_map s_val (fun v => -32768 <= v < 32768) _ _ (eq_sym EV) K).
  - rewrite LN, W8. apply (ok_cap _ OK).
  - exact LB2.
  - rewrite W9. apply (ok_id _ OK).
  - rewrite W7. apply Z.mod_pos_bound. lia.
Qed.

(** Every reachable rotation satisfies the conditions the other theorems assume, and nothing on the
    way leaves memory: for every history of calls. *)
Theorem json_rotation_ok sys cap os : 0 <= cap <= 255 -> Forall good_op os ->
  exists r, run sys os (rot_new cap) = Some r /\ ok r /\ r_cap r = cap.
Proof.
  intros C. assert (G : forall os r, ok r -> r_cap r = cap -> Forall good_op os -> exists r', run sys os r = Some r' /\ ok r' /\ r_cap r' = cap).
  { clear os. induction os as [|o os IH]; intros r OK CP GO; [exists r; auto|]. inversion GO; subst. cbn [run].
    assert (ST : exists r1, step sys o r = Some r1 /\ ok r1 /\ r_cap r1 = r_cap r).
    { destruct o as [k v low | k low | k | k | e | mx sp buf bs]; cbn [step good_op] in *.
      - pose proof (json_put k v low r OK (proj2 H1) (proj1 H1)) as P. destruct (put k v low r) as [r1 b] eqn:E. exists r1. split; [reflexivity|].
        destruct P as [P _]. split; [exact P|].
        unfold put in E. destruct (negb (validKey k)); [congruence|]. destruct k as [k|]; [|congruence].
        destruct (findByKey k (r_stats r)); [|destruct (Zlen (r_stats r) <? r_cap r)]; apply pair_inj in E; destruct E as [<- _]; reflexivity.
      - pose proof (json_put_descriptor k low r OK H1) as P. destruct (putDescriptor k low r) as [r1 b] eqn:E. exists r1. split; [reflexivity|].
        destruct P as [P _]. split; [exact P|].
        unfold putDescriptor in E. destruct (negb (validKey k)); [congruence|]. destruct k as [k|]; [|congruence].
        destruct (findByKey k (r_stats r)); [|destruct (Zlen (r_stats r) <? r_cap r)]; apply pair_inj in E; destruct E as [<- _]; reflexivity.
      - pose proof (json_remove k r OK) as P. destruct (remove k r) as [r1 b] eqn:E. exists r1. split; [reflexivity|]. destruct P as [P Q].
        split; [exact P|]. destruct (m_remove _ _ _) as [[m n] b']. apply Q.
      - pose proof (json_set_id k r OK H1) as P. destruct (setID k r) as [r1 b] eqn:E. exists r1. split; [reflexivity|]. destruct P as [P _].
        split; [exact P|]. unfold setID in E. destruct (validKey k); apply pair_inj in E; destruct E as [<- _]; reflexivity.
      - eexists. split; [reflexivity|]. split; [|reflexivity]. destruct OK as [O1 O2 O3 O4 O5 O6 O7]. constructor; assumption.
      - destruct H1 as [BB LB]. destruct (write_keeps sys mx sp buf bs r OK BB LB) as (r1 & b1 & n1 & E & O1 & _ & CC). exists r1. rewrite E. auto. }
    destruct ST as (r1 & -> & O1 & C1). cbn [bind]. apply IH; auto; congruence. }
  intros GO. apply G; auto. apply ok_new. exact C.
Qed.
