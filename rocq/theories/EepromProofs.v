(** Reasoning about EEPROM programs with power failures. *)
From Verif Require Import Base EepromModel.

Definition meq (a b : Z -> Z) : Prop := forall q, a q = b q.
Definition bytes_mem (m : Z -> Z) : Prop := forall q, byte (m q).

(** The memory after a list of single-byte updates. *)
Definition applyw (ws : list (Z * Z)) (m : Z -> Z) : Z -> Z :=
  fold_left (fun m w => upd m (fst w) (snd w)) ws m.

(** Program [p] from [s] performs the updates [ws] in order and returns [a];
    if the power fails, exactly a prefix of [ws] has been performed. *)
Definition does {A} (p : M A) (s : EE) (ws : list (Z * Z)) (a : A) : Prop :=
  forall f,
    (exists s' k, p s f = (s', None) /\ (f < length ws)%nat /\ (k <= length ws)%nat /\
        meq (mem s') (applyw (firstn k ws) (mem s))) \/
    (exists s' f', p s f = (s', Some (a, f')) /\ (f - length ws <= f' <= f)%nat /\
        meq (mem s') (applyw ws (mem s))).

Lemma meq_refl a : meq a a. Proof. intro; reflexivity. Qed.
Lemma meq_sym a b : meq a b -> meq b a. Proof. intros H q. symmetry. apply H. Qed.
Lemma meq_trans a b c : meq a b -> meq b c -> meq a c.
Proof. intros H1 H2 q. rewrite H1. apply H2. Qed.

Lemma upd_meq a b p v : meq a b -> meq (upd a p v) (upd b p v).
Proof. intros H q. unfold upd. destruct (q =? p); auto. Qed.
Lemma applyw_meq ws : forall a b, meq a b -> meq (applyw ws a) (applyw ws b).
Proof. induction ws as [|w ws IH]; intros a b H; simpl; [auto|]. apply IH. apply upd_meq; auto. Qed.
Lemma applyw_app w1 w2 m : applyw (w1 ++ w2) m = applyw w2 (applyw w1 m).
Proof. unfold applyw. apply fold_left_app. Qed.

(** What an updated memory contains. *)
Lemma applyw_other ws : forall m q, (forall w, In w ws -> fst w <> q) -> applyw ws m q = m q.
Proof.
  induction ws as [|[p v] ws IH]; intros m q H; simpl; [reflexivity|].
  rewrite IH by (intros w Hw; apply H; right; auto).
  unfold upd. specialize (H (p, v) (or_introl eq_refl)). simpl in H.
  replace (q =? p) with false by lia. reflexivity.
Qed.

Lemma applyw_bytes ws : forall m, bytes_mem m -> (forall w, In w ws -> byte (snd w)) ->
  bytes_mem (applyw ws m).
Proof.
  induction ws as [|[p v] ws IH]; intros m Hm H; simpl; [auto|].
  apply IH; [|intros; apply H; right; auto].
  intros q. unfold upd. destruct (q =? p); [apply (H (p, v)); left; reflexivity|apply Hm].
Qed.

Lemma does_ret {A} (a : A) s : does (ret a) s [] a.
Proof.
  intros f. right. exists s, f. split; [reflexivity|]. split; [simpl; lia|apply meq_refl].
Qed.

Lemma does_read p s : does (ee_read p) s [] (mem s p).
Proof.
  intros f. right. exists s, f. split; [reflexivity|]. split; [simpl; lia|apply meq_refl].
Qed.

Lemma does_bind {A B} (p : M A) (k : A -> M B) s ws1 ws2 a b :
  does p s ws1 a ->
  (forall s', meq (mem s') (applyw ws1 (mem s)) -> does (k a) s' ws2 b) ->
  does (mbind p k) s (ws1 ++ ws2) b.
Proof.
  intros H1 H2 f. unfold mbind. destruct (H1 f) as [(s' & n & E & Hf & Hn & Hm)|(s' & f' & E & Hf & Hm)].
  - left. exists s', n. rewrite E. rewrite app_length. split; [reflexivity|]. split; [lia|]. split; [lia|].
    rewrite firstn_app. replace (n - length ws1)%nat with 0%nat by lia. rewrite app_nil_r. exact Hm.
  - rewrite E. destruct (H2 s' Hm f') as [(s2 & n & E2 & Hf2 & Hn & Hm2)|(s2 & f2 & E2 & Hf2 & Hm2)].
    + left. exists s2, (length ws1 + n)%nat. rewrite app_length. split; [exact E2|]. split; [lia|]. split; [lia|].
      rewrite firstn_app_2, applyw_app. eapply meq_trans; [exact Hm2|]. apply applyw_meq. exact Hm.
    + right. exists s2, f2. rewrite app_length. split; [exact E2|]. split; [lia|].
      rewrite applyw_app. eapply meq_trans; [exact Hm2|]. apply applyw_meq. exact Hm.
Qed.

Lemma does_bind0 {A B} (p : M A) (k : A -> M B) s ws2 a b :
  does p s [] a -> (forall s', meq (mem s') (mem s) -> does (k a) s' ws2 b) ->
  does (mbind p k) s ws2 b.
Proof. intros H1 H2. change ws2 with ([] ++ ws2). eapply does_bind; eauto. Qed.

(** Only the memory matters. *)
Definition pure_read {A} (p : M A) (g : (Z -> Z) -> A) : Prop := forall s, does p s [] (g (mem s)).

Lemma upd_same m p v : m p = v -> meq (upd m p v) m.
Proof. intros H q. unfold upd. destruct (q =? p) eqn:E; [|reflexivity]. apply Z.eqb_eq in E. subst. auto. Qed.

Lemma does_op k p v s : does (ee_op k p v) s [(p, phys k (mem s p) v)] tt.
Proof.
  intros f. destruct f as [|f].
  - left. exists s, 0%nat. split; [reflexivity|]. simpl. repeat split; try lia.
  - right. eexists _, f. split; [reflexivity|]. split; [simpl; lia|]. simpl. apply meq_refl.
Qed.

Lemma does_noop p v s {A} (a : A) : mem s p = v -> does (ret a) s [(p, v)] a.
Proof.
  intros H f. right. exists s, f. split; [reflexivity|]. split; [simpl; lia|].
  simpl. apply meq_sym, upd_same. exact H.
Qed.

Lemma does_smart_erase p s : does (smart_erase p) s [(p, 255)] (negb (255 =? mem s p)).
Proof.
  unfold smart_erase. eapply does_bind0; [apply does_read|]. intros s' Hs. cbv beta.
  destruct (negb (255 =? mem s p)) eqn:E.
  - change [(p, 255)] with ([(p, phys KErase (mem s' p) 255)] ++ []).
    eapply does_bind; [apply does_op|]. intros. apply does_ret.
  - apply does_noop. rewrite Hs. lia.
Qed.

Lemma does_smart_clear p mask s :
  does (smart_clear_bits p mask) s [(p, Z.land (mem s p) mask)]
       (negb (mem s p =? Z.land (mem s p) mask)).
Proof.
  unfold smart_clear_bits. eapply does_bind0; [apply does_read|]. intros s' Hs. cbv beta zeta.
  destruct (negb (mem s p =? Z.land (mem s p) mask)) eqn:E.
  - replace [(p, Z.land (mem s p) mask)] with
      ([(p, phys KWrite (mem s' p) (Z.land (mem s p) mask))] ++ []).
    + eapply does_bind; [apply does_op|]. intros. apply does_ret.
    + simpl. rewrite (Hs p). rewrite Z.land_assoc, Z.land_diag. reflexivity.
  - apply does_noop. rewrite Hs. lia.
Qed.

Lemma does_smart_update p v s : does (smart_update p v) s [(p, v)] (negb (mem s p =? v)).
Proof.
  unfold smart_update. destruct (255 =? v) eqn:E.
  - apply Z.eqb_eq in E. subst v. rewrite (Z.eqb_sym (mem s p)). apply does_smart_erase.
  - eapply does_bind0; [apply does_read|]. intros s' Hs. cbv beta.
    destruct (v =? mem s p) eqn:E1.
    + replace (negb (mem s p =? v)) with false by lia. apply does_noop. rewrite Hs. lia.
    + replace (negb (mem s p =? v)) with true by lia.
      destruct (v =? Z.land v (mem s p)) eqn:E2.
      * apply Z.eqb_eq in E2. pose proof (does_smart_clear p v s') as H.
        rewrite (Hs p), Z.land_comm, <- E2 in H.
        replace (negb (mem s p =? v)) with true in H by lia. exact H.
      * change [(p, v)] with ([(p, phys KEraseWrite (mem s' p) v)] ++ []).
        eapply does_bind; [apply does_op|]. intros. apply does_ret.
Qed.

(** Address/value lists of block operations. *)
Fixpoint at_addr (p : Z) (l : list Z) : list (Z * Z) :=
  match l with [] => [] | b :: r => (p, b) :: at_addr (p + 1) r end.

Lemma at_addr_app l1 : forall p l2, at_addr p (l1 ++ l2) = at_addr p l1 ++ at_addr (p + Zlen l1) l2.
Proof.
  induction l1 as [|b r IH]; intros p l2; cbn [at_addr app].
  - rewrite Zlen_nil, Z.add_0_r. reflexivity.
  - rewrite IH, Zlen_cons. replace (p + (1 + Zlen r)) with (p + 1 + Zlen r) by lia. reflexivity.
Qed.
Lemma at_addr_len l : forall p, length (at_addr p l) = length l.
Proof. induction l; intros; simpl; auto. Qed.
Lemma at_addr_in l : forall p w, In w (at_addr p l) -> p <= fst w < p + Zlen l /\ In (snd w) l.
Proof.
  induction l as [|b r IH]; intros p w H; simpl in H; [tauto|].
  rewrite Zlen_cons. pose proof (Zlen_nonneg r). destruct H as [<-|H].
  - cbn [fst snd In]. split; [lia|auto].
  - apply IH in H. cbn [fst snd In]. split; [lia|tauto].
Qed.
Lemma applyw_at l : forall p m q,
  applyw (at_addr p l) m q = if (p <=? q) && (q <? p + Zlen l) then znth l (q - p) else m q.
Proof.
  induction l as [|b r IH]; intros p m q.
  - rewrite Zlen_nil. simpl. replace ((p <=? q) && (q <? p + 0)) with false by lia. reflexivity.
  - cbn [at_addr]. change (applyw ((p, b) :: at_addr (p + 1) r) m) with
      (applyw (at_addr (p + 1) r) (upd m p b)).
    rewrite IH, Zlen_cons. pose proof (Zlen_nonneg r). unfold upd.
    destruct (Z.eq_dec q p) as [->|Hq].
    + replace ((p + 1 <=? p) && _) with false by lia. rewrite Z.eqb_refl.
      replace ((p <=? p) && (p <? p + (1 + Zlen r))) with true by lia.
      rewrite Z.sub_diag. reflexivity.
    + replace (q =? p) with false by lia.
      destruct ((p + 1 <=? q) && (q <? p + 1 + Zlen r)) eqn:E.
      * replace ((p <=? q) && (q <? p + (1 + Zlen r))) with true by lia.
        rewrite znth_cons by lia. replace (q - p =? 0) with false by lia. f_equal. lia.
      * replace ((p <=? q) && (q <? p + (1 + Zlen r))) with false by lia. reflexivity.
Qed.
Lemma firstn_at_addr l : forall k p, firstn k (at_addr p l) = at_addr p (firstn k l).
Proof.
  induction l as [|b r IH]; intros k p; destruct k; simpl; auto. f_equal. apply IH.
Qed.

(** The block of memory at [p]. *)
Fixpoint block (m : Z -> Z) (p : Z) (n : nat) : list Z :=
  match n with O => [] | S n' => m p :: block m (p + 1) n' end.
Lemma block_meq m m' : meq m m' -> forall n p, block m p n = block m' p n.
Proof. intros H n. induction n; intros; simpl; auto. rewrite H, IHn. reflexivity. Qed.
Lemma block_len m n : forall p, length (block m p n) = n.
Proof. induction n; intros; simpl; auto. Qed.
Lemma block_znth m n : forall p i, 0 <= i < Z.of_nat n -> znth (block m p n) i = m (p + i).
Proof.
  induction n; intros p i Hi; [lia|]. cbn [block]. rewrite znth_cons by lia.
  destruct (i =? 0) eqn:E; [f_equal; lia|]. rewrite IHn by lia. f_equal. lia.
Qed.
Lemma block_ext m m' n : forall p, (forall q, p <= q < p + Z.of_nat n -> m q = m' q) ->
  block m p n = block m' p n.
Proof.
  induction n; intros p H; simpl; [reflexivity|].
  rewrite (H p) by lia. f_equal. apply IHn. intros. apply H. lia.
Qed.
Lemma block_bytes m n : forall p, bytes_mem m -> Forall byte (block m p n).
Proof. induction n; intros; simpl; auto. Qed.
Lemma block_applyw_at l : forall p m, block (applyw (at_addr p l) m) p (length l) = l.
Proof.
  intros p m. apply zlist_ext.
  - unfold Zlen. rewrite block_len. reflexivity.
  - unfold Zlen. rewrite block_len. intros i Hi. rewrite block_znth by lia.
    rewrite applyw_at. replace ((p <=? p + i) && _) with true by (unfold Zlen; lia). f_equal. lia.
Qed.

Lemma does_read_block n : forall p s, does (read_block p n) s [] (block (mem s) p n).
Proof.
  induction n; intros p s; simpl; [apply does_ret|].
  eapply does_bind0; [apply does_read|]. intros s1 H1. cbv beta.
  eapply does_bind0; [apply IHn|]. intros s2 H2. cbv beta.
  rewrite (block_meq _ _ H1). apply does_ret.
Qed.

Lemma does_update_bytes l : forall p s, does (update_bytes p l) s (at_addr p l) tt.
Proof.
  induction l as [|b r IH]; intros p s; simpl; [apply does_ret|].
  change ((p, b) :: at_addr (p + 1) r) with ([(p, b)] ++ at_addr (p + 1) r).
  eapply does_bind; [apply does_smart_update|]. intros. apply IH.
Qed.
Lemma does_erase_bytes n : forall p s, does (erase_bytes p n) s (at_addr p (repeat 255 n)) tt.
Proof.
  induction n; intros p s; simpl; [apply does_ret|].
  change ((p, 255) :: at_addr (p + 1) (repeat 255 n)) with
    ([(p, 255)] ++ at_addr (p + 1) (repeat 255 n)).
  eapply does_bind; [apply does_smart_erase|]. intros. apply IHn.
Qed.
Lemma does_check_bytes l : forall p s,
  does (check_bytes p l) s [] (list_eqb l (block (mem s) p (length l))).
Proof.
  assert (HE : forall b v r t, list_eqb (b :: r) (v :: t) = (b =? v) && list_eqb r t).
  { intros. unfold list_eqb. rewrite !Zlen_cons. cbn [combine forallb fst snd].
    replace (1 + Zlen r =? 1 + Zlen t) with (Zlen r =? Zlen t) by lia.
    destruct (b =? v), (Zlen r =? Zlen t); reflexivity. }
  induction l as [|b r IH]; intros p s; cbn [check_bytes length block]; [apply does_ret|].
  eapply does_bind0; [apply does_read|]. intros s1 H1. cbv beta.
  eapply does_bind0; [apply IH|]. intros s2 H2. cbv beta.
  rewrite HE, (block_meq _ _ H1). apply does_ret.
Qed.

Lemma list_eqb_eq a b : list_eqb a b = true <-> a = b.
Proof.
  unfold list_eqb. revert b. induction a as [|x a IH]; intros [|y b]; cbn [combine forallb fst snd].
  - split; reflexivity.
  - rewrite Zlen_nil, Zlen_cons. pose proof (Zlen_nonneg b). split; [lia|discriminate].
  - rewrite Zlen_nil, Zlen_cons. pose proof (Zlen_nonneg a). split; [lia|discriminate].
  - rewrite !Zlen_cons. specialize (IH b). split.
    + intros H. apply andb_prop in H. destruct H as [H1 H2]. apply andb_prop in H2.
      destruct H2 as [H2 H3]. apply Z.eqb_eq in H2. subst y. f_equal. apply IH.
      rewrite H3. lia.
    + intros H. injection H as -> ->. destruct IH as [_ IH]. specialize (IH eq_refl).
      apply andb_prop in IH. destruct IH as [H1 H2]. rewrite H2, Z.eqb_refl. lia.
Qed.

(** Consequences of [does] stated without the write list. *)
Lemma does_complete {A} (p : M A) s ws a : does p s ws a ->
  forall f, (length ws <= f)%nat -> exists s' f', p s f = (s', Some (a, f')) /\ meq (mem s') (applyw ws (mem s)).
Proof.
  intros H f Hf. destruct (H f) as [(s' & k & _ & Hlt & _)|(s' & f' & E & _ & Hm)]; [lia|].
  exists s', f'. auto.
Qed.
