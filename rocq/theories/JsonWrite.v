(** C47: what writeJSON produces. *)
From Verif Require Import Base JsonModel JsonBuf JsonSpec.

(** ** Numbers *)

Lemma digits_value_app l1 l2 a : fold_left (fun a d => 10 * a + (d - 48)) (l1 ++ l2) a =
  fold_left (fun a d => 10 * a + (d - 48)) l2 (fold_left (fun a d => 10 * a + (d - 48)) l1 a).
Proof. apply fold_left_app. Qed.

Lemma udigits_spec fuel : forall n acc, 0 <= n < 10 ^ (Z.of_nat fuel + 1) -> 
  exists l, udigits fuel n acc = l ++ acc /\ numeral n l /\ 1 <= Zlen l <= Z.of_nat fuel + 1.
Proof.
  induction fuel as [|fuel IH]; intros n acc R.
  - change (10 ^ (Z.of_nat 0 + 1)) with 10 in R. cbn [udigits]. rewrite Z.mod_small by lia.
    exists [48 + n]. split; [reflexivity|]. split.
    + split; [constructor; [unfold is_digit; lia|constructor]|]. split; [unfold digits_value; cbn [fold_left]; lia|].
      destruct (Z.eq_dec n 0) as [-> |]; [left; reflexivity|right; exists (48 + n), []; split; [reflexivity|lia]].
    + rewrite Zlen_cons. change (Zlen (@nil Z)) with 0. lia.
  - cbn [udigits]. pose proof (Z.mod_pos_bound n 10 ltac:(lia)) as MB. pose proof (Z_div_mod_eq_full n 10) as DM.
    destruct (n / 10 >? 0) eqn:Q.
    + destruct (IH (n / 10) ((48 + n mod 10) :: acc)) as (l & E & (F & V & H) & L).
      { split; [lia|]. apply Z.div_lt_upper_bound; [lia|]. replace (Z.of_nat (S fuel) + 1) with (Z.succ (Z.of_nat fuel + 1)) in R by lia.
        rewrite Z.pow_succ_r in R by lia. lia. }
      exists (l ++ [48 + n mod 10]). rewrite E, <- app_assoc. split; [reflexivity|]. split.
      * split; [apply Forall_app; split; [exact F|constructor; [unfold is_digit; lia|constructor]]|]. split.
        { unfold digits_value in *. rewrite digits_value_app, V. cbn [fold_left]. lia. }
        right. destruct H as [-> | (d & r & -> & D)].
        { exfalso. unfold digits_value in V. cbn in V. lia. }
        exists d, (r ++ [48 + n mod 10]). split; [reflexivity|exact D].
      * rewrite Zlen_app, Zlen_cons. change (Zlen (@nil Z)) with 0. lia.
    + assert (n / 10 = 0) by (assert (0 <= n / 10) by (apply Z.div_pos; lia); lia).
      exists [48 + n mod 10]. split; [reflexivity|]. split.
      * split; [constructor; [unfold is_digit; lia|constructor]|]. split; [unfold digits_value; cbn [fold_left]; lia|].
        destruct (Z.eq_dec n 0) as [-> |]; [left; reflexivity|right; eexists _, _; split; [reflexivity|lia]].
      * rewrite Zlen_cons. change (Zlen (@nil Z)) with 0. lia.
Qed.

(** Any 16-bit value is printed in decimal, in at most 6 characters. *)
Theorem json_decimal v : -32768 <= v < 32768 -> decimal v (dec v) /\ 1 <= Zlen (dec v) <= 6.
Proof.
  intros R. unfold decimal, dec. destruct (v <? 0) eqn:N.
  - destruct (udigits_spec 4 (- v) []) as (l & E & H & L); [change (10 ^ (Z.of_nat 4 + 1)) with 100000; lia|].
    assert (E5 : udigits 5 (- v) [] = udigits 4 (- v) []).
    { clear - R N. cbn [udigits].
      assert (X : forall m, 0 <= m -> m / 10 = 0 -> (m / 10 >? 0) = false) by (intros; lia).
      assert (T : - v / 10 / 10 / 10 / 10 / 10 = 0).
      { rewrite !Z.div_div by lia. apply Z.div_small. lia. }
      rewrite T. change (0 >? 0) with false. reflexivity. }
    rewrite E5, E, app_nil_r. split; [exists l; auto|]. rewrite Zlen_cons. lia.
  - destruct (udigits_spec 4 v []) as (l & E & H & L); [change (10 ^ (Z.of_nat 4 + 1)) with 100000; lia|].
    assert (E5 : udigits 5 v [] = udigits 4 v []).
    { clear - R N. cbn [udigits].
      assert (T : v / 10 / 10 / 10 / 10 / 10 = 0).
      { rewrite !Z.div_div by lia. apply Z.div_small. lia. }
      rewrite T. change (0 >? 0) with false. reflexivity. }
    rewrite E5, E, app_nil_r. split; [exact H|]. lia.
Qed.
Lemma dec_small v : 0 <= v <= 9 -> dec v = [48 + v].
Proof.
  intros H. unfold dec. replace (v <? 0) with false by lia. cbn [udigits].
  rewrite (Z.mod_small v) by lia. rewrite (Z.div_small v) by lia. reflexivity.
Qed.

Definition stat_member (s : stat) : list Z := member (s_key s) (dec (s_val s)).
Lemma field_member comma s : field comma s = (if comma then [44] else []) ++ stat_member s.
Proof.
  unfold field, stat_member, member, quoted. f_equal. cbn [app]. f_equal. rewrite <- app_assoc. f_equal. cbn [app].
  do 2 f_equal. destruct ((s_val s >=? 0) && (s_val s <=? 9)) eqn:E; [|reflexivity]. symmetry. apply dec_small. lia.
Qed.

(** ** Slots *)

Lemma stat_at_update i j f st : 0 <= i < Zlen st -> 0 <= j -> 
  stat_at (update (Z.to_nat i) f st) j = if j =? i then f (stat_at st j) else stat_at st j.
Proof.
  intros I J. unfold stat_at.
  assert (G : forall (st : list stat) a b, (a < length st)%nat -> nth b (update a f st) st0 = if Nat.eqb b a then f (nth b st st0) else nth b st st0).
  { clear. induction st as [|s st IH]; intros a b L; [cbn in L; lia|].
    destruct a, b; cbn [update nth Nat.eqb]; try reflexivity. apply IH. cbn in L; lia. }
  rewrite G by (unfold Zlen in I; lia).
  destruct (j =? i) eqn:E.
  - replace (Z.to_nat j =? Z.to_nat i)%nat with true by (symmetry; apply Nat.eqb_eq; lia). reflexivity.
  - replace (Z.to_nat j =? Z.to_nat i)%nat with false by (symmetry; apply Nat.eqb_neq; lia). reflexivity.
Qed.

Definition mem (i : Z) (l : list Z) : bool := existsb (Z.eqb i) l.
Lemma mem_in i l : mem i l = true <-> In i l.
Proof.
  unfold mem. rewrite existsb_exists. split; [intros (x & I & E); assert (i = x) by lia; subst; exact I|].
  intros I. exists i. split; [exact I|lia].
Qed.
(** The same slots with the flags of those in [is] cleared. *)
Definition cleared (st st' : list stat) (is : list Z) : Prop :=
  Zlen st' = Zlen st /\ forall j, 0 <= j < Zlen st -> stat_at st' j = if mem j is then clear (stat_at st j) else stat_at st j.

Lemma cleared_refl st : cleared st st [].
Proof. split; [reflexivity|]. intros j J. reflexivity. Qed.
Lemma clear_clear s : clear (clear s) = clear s.
Proof. reflexivity. Qed.
Lemma cleared_trans s1 s2 s3 a b : cleared s1 s2 a -> cleared s2 s3 b -> cleared s1 s3 (a ++ b).
Proof.
  intros [L1 H1] [L2 H2]. split; [lia|]. intros j J. rewrite H2 by lia. rewrite H1 by lia.
  unfold mem. rewrite existsb_app. destruct (existsb (Z.eqb j) a), (existsb (Z.eqb j) b); reflexivity.
Qed.
Lemma cleared_one st i : 0 <= i < Zlen st -> cleared st (update (Z.to_nat i) clear st) [i].
Proof.
  intros I. split; [unfold Zlen; rewrite update_len; reflexivity|]. intros j J.
  rewrite stat_at_update by lia. cbn [mem existsb]. rewrite orb_false_r. reflexivity.
Qed.
Definition cleared_if (clr : bool) (st st' : list stat) (is : list Z) : Prop := if clr then cleared st st' is else st' = st.
Lemma cleared_if_member clr st st' is j : cleared_if clr st st' is -> 0 <= j < Zlen st -> stat_member (stat_at st' j) = stat_member (stat_at st j).
Proof.
  unfold cleared_if. destruct clr; [|intros ->; reflexivity]. intros [_ H] J. rewrite (H j J). destruct (mem j is); reflexivity.
Qed.
Lemma cleared_if_len clr st st' is : cleared_if clr st st' is -> Zlen st' = Zlen st.
Proof. unfold cleared_if. destruct clr; [intros [L _]; exact L|intros ->; reflexivity]. Qed.

(** ** Text under construction *)

Definition shape (c : list Z) (comma : bool) (pre : list Z) (ms : list (list Z)) : Prop :=
  c = 123 :: pre ++ join ms /\ (pre = [] \/ (pre = [44] /\ ms <> [])) /\ (comma = false -> ms = [] /\ pre = []).

Lemma join_snoc ms m : ms <> [] -> join (ms ++ [m]) = join ms ++ 44 :: m.
Proof.
  induction ms as [|x ms IH]; [congruence|]. intros _. destruct ms as [|y ms]; [reflexivity|].
  specialize (IH ltac:(discriminate)). cbn [app] in *. change (join (x :: y :: ms ++ [m])) with (x ++ 44 :: join (y :: ms ++ [m])).
  rewrite IH. change (join (x :: y :: ms)) with (x ++ 44 :: join (y :: ms)). rewrite <- app_assoc. reflexivity.
Qed.

Lemma shape_add c comma pre ms s : shape c comma pre ms ->
  exists pre', shape (c ++ field comma s) true pre' (ms ++ [stat_member s]) /\ (ms <> [] -> pre' = pre) /\
    ((comma = true -> ms <> []) -> pre = [] -> pre' = []).
Proof.
  intros (C & P & K). rewrite field_member. destruct ms as [|m ms].
  - destruct P as [-> | [_ X]]; [|congruence]. cbn [app join] in *. exists (if comma then [44] else []). split; [|split; [congruence|]].
    + split; [subst c; cbn [app]; reflexivity|]. split; [destruct comma; [right; split; [reflexivity|discriminate]|auto]|discriminate].
    + intros X _. destruct comma; [exfalso; apply X; reflexivity|reflexivity].
  - assert (comma = true) by (destruct comma; [reflexivity|destruct (K eq_refl); discriminate]). subst comma.
    exists pre. split; [|split; auto]. split.
    + subst c. rewrite join_snoc by discriminate. cbn [app]. rewrite <- app_assoc. reflexivity.
    + split; [|discriminate]. destruct P as [-> | [-> _]]; [auto|]. right. split; [reflexivity|]. destruct ms; discriminate.
Qed.

(** ** One loop *)

(** Every statistic fits in a message of its own. *)
Definition fit_alone (lim : Z) (st : list stat) : Prop :=
  forall j, 0 <= j < Zlen st -> 1 + Zlen (stat_member (stat_at st j)) <= lim.

Record facts (skip : Z -> stat -> bool) (sf so clr : bool) (lim : Z) (ps : list Z) (a a' : ast) (is : list Z) : Prop := {
  f_log : a_log a' = a_log a ++ is;
  f_incl : incl is ps;
  f_nd : NoDup is;
  f_skip : forall i, In i is -> skip i (stat_at (a_st a) i) = false;
  f_st : cleared_if clr (a_st a) (a_st a') is;
  f_none : is = [] -> a_c a' = a_c a /\ a_st a' = a_st a;
  f_shape : forall pre ms, shape (a_c a) (a_comma a) pre ms ->
     exists pre', shape (a_c a') (a_comma a') pre' (ms ++ map (fun i => stat_member (stat_at (a_st a) i)) is) /\
       (ms <> [] -> pre' = pre) /\
       (fit_alone lim (a_st a) -> pre = [] -> (a_comma a = true -> ms <> []) ->
          pre' = [] /\ (a_comma a' = true -> ms ++ map (fun i => stat_member (stat_at (a_st a) i)) is <> []));
  f_len : Zlen (a_c a) <= lim -> Zlen (a_c a') <= lim;
  f_big : lim < Zlen (a_c a) -> is = [];
  f_sent : a_sent a' = last is (a_sent a);
  f_once : so = true -> is = [] \/ exists i, is = [i] /\ a_tried a' = i;
  f_prefix : sf = true -> exists ps1 ps2, ps = ps1 ++ ps2 /\ last ps1 (a_sent a) = a_sent a' /\
     incl is ps1 /\ forall i, In i ps1 -> skip i (stat_at (a_st a) i) = false -> In i is }.

Lemma last_cons_ne {A} (x : A) l d d' : l <> [] -> last (x :: l) d = last l d'.
Proof.
  intros NE. destruct l as [|y l]; [congruence|]. clear NE. revert y x.
  induction l as [|z l IH]; intros y x; [reflexivity|]. specialize (IH z y). cbn [last] in *. destruct l; [reflexivity|exact IH].
Qed.
Lemma last_cons {A} (x : A) l d : last (x :: l) d = last l x.
Proof.
  revert x d. induction l as [|y l IH]; intros x d; [reflexivity|].
  change (last (x :: y :: l) d) with (last (y :: l) d). rewrite !IH. reflexivity.
Qed.

Lemma aloop_facts skip sf so clr lim : forall ps a, NoDup ps -> (forall i, In i ps -> 0 <= i < Zlen (a_st a)) -> 1 <= lim ->
  exists is, facts skip sf so clr lim ps a (aloop skip sf so clr lim ps a) is.
Proof.
  induction ps as [|i ps IH]; intros a ND RG LM.
  - exists []. cbn [aloop]. constructor.
    + rewrite app_nil_r. reflexivity.
    + intros x [].
    + constructor.
    + intros x [].
    + unfold cleared_if. destruct clr; [apply cleared_refl|reflexivity].
    + auto.
    + intros pre ms SH. exists pre. cbn [map]. rewrite app_nil_r. auto.
    + auto.
    + auto.
    + reflexivity.
    + auto.
    + intros _. exists [], []. split; [reflexivity|]. split; [reflexivity|]. split; intros x [].
  - apply NoDup_cons_iff in ND. destruct ND as [NI ND]. cbn [aloop].
    assert (RGi : 0 <= i < Zlen (a_st a)) by (apply RG; left; reflexivity).
    set (s := stat_at (a_st a) i) in *.
    destruct (skip i s) eqn:SK.
    + destruct (IH a ND ltac:(intros; apply RG; right; assumption) LM) as (is & [g1 g2 g3 g4 g5 g6 g7 g8 g9 g10 g11 g12]).
      exists is. constructor; auto.
      * intros x X. right. apply g2. exact X.
      * intros SF. destruct (g12 SF) as (ps1 & ps2 & E & LA & IC & AL).
        destruct ps1 as [|q ps1].
        { exists [], (i :: ps). split; [reflexivity|]. split; [exact LA|]. split; [exact IC|]. intros x []. }
        exists (i :: q :: ps1), ps2. split; [cbn [app]; f_equal; exact E|]. split.
        { rewrite last_cons_ne with (d' := a_sent a) by discriminate. exact LA. }
        split; [intros x X; right; apply IC; exact X|].
        intros x [<- | X] SX; [fold s in SX; congruence|]. apply AL; assumption.
    + destruct (Zlen (a_c a) + Zlen (field (a_comma a) s) <=? lim) eqn:FI.
      * set (a1 := AS (a_c a ++ field (a_comma a) s) true (clr_at clr i (a_st a)) i i (a_log a ++ [i])).
        assert (C1 : cleared_if clr (a_st a) (a_st a1) [i]).
        { unfold cleared_if, a1, clr_at. cbn [a_st]. destruct clr; [apply cleared_one; exact RGi|reflexivity]. }
        assert (LN : Zlen (a_st a1) = Zlen (a_st a)) by (eapply cleared_if_len; exact C1).
        assert (L0 : Zlen (a_c a) <= lim) by (pose proof (Zlen_nonneg (field (a_comma a) s)); lia).
        assert (L1 : Zlen (a_c a1) <= lim) by (unfold a1; cbn [a_c]; rewrite Zlen_app; lia).
        assert (OTHER : forall j, In j ps -> stat_at (a_st a1) j = stat_at (a_st a) j).
        { intros j J. unfold a1, clr_at. cbn [a_st]. destruct clr; [|reflexivity].
          rewrite stat_at_update by (auto; specialize (RG j (or_intror J)); lia).
          destruct (j =? i) eqn:JE; [|reflexivity]. exfalso. apply NI. replace i with j by lia. exact J. }
        assert (MEM : forall j, 0 <= j < Zlen (a_st a) -> stat_member (stat_at (a_st a1) j) = stat_member (stat_at (a_st a) j))
          by (intros j J; eapply cleared_if_member; eauto).
        assert (SH1 : forall pre ms, shape (a_c a) (a_comma a) pre ms ->
           exists pre', shape (a_c a1) true pre' (ms ++ [stat_member s]) /\ (ms <> [] -> pre' = pre) /\
             ((a_comma a = true -> ms <> []) -> pre = [] -> pre' = [])) by (intros pre ms SH; apply shape_add; exact SH).
        destruct so.
        { exists [i]. constructor.
          - reflexivity.
          - intros x [<- | []]. left. reflexivity.
          - constructor; [intros []|constructor].
          - intros x [<- | []]. exact SK.
          - exact C1.
          - discriminate.
          - intros pre ms SH. destruct (SH1 pre ms SH) as (pre' & A & B & C). exists pre'. cbn [map]. fold s.
            split; [exact A|]. split; [exact B|]. intros _ PE CM. split; [apply C; assumption|].
            intros _. destruct ms; discriminate.
          - intros _. exact L1.
          - intros X. exfalso. lia.
          - reflexivity.
          - right. exists i. auto.
          - intros SF. exists [i], ps. split; [reflexivity|]. split; [reflexivity|]. split; [intros x X; exact X|]. intros x X _. exact X. }
        destruct (IH a1 ND ltac:(rewrite LN; intros; apply RG; right; assumption) LM) as (is & [g1 g2 g3 g4 g5 g6 g7 g8 g9 g10 g11 g12]).
        exists (i :: is). constructor.
        { rewrite g1. unfold a1. cbn [a_log]. rewrite <- app_assoc. reflexivity. }
        { intros x [<- | X]; [left; reflexivity|right; apply g2; exact X]. }
        { constructor; [|exact g3]. intros X. apply NI. apply g2. exact X. }
        { intros x [<- | X]; [exact SK|]. rewrite <- (OTHER x (g2 x X)). apply g4. exact X. }
        { unfold cleared_if in *. destruct clr.
          - change (i :: is) with ([i] ++ is). eapply cleared_trans; eauto.
          - rewrite g5. exact C1. }
        { discriminate. }
        { intros pre ms SH. destruct (SH1 pre ms SH) as (pre1 & A & B & C). destruct (g7 pre1 _ A) as (pre2 & A2 & B2 & C2).
          exists pre2.
          assert (ML : (ms ++ [stat_member s]) ++ map (fun j => stat_member (stat_at (a_st a1) j)) is =
                       ms ++ map (fun j => stat_member (stat_at (a_st a) j)) (i :: is)).
          { rewrite <- app_assoc. f_equal. cbn [map app]. f_equal. apply map_ext_in. intros j J. apply MEM. apply RG. right. apply g2. exact J. }
          rewrite ML in A2, C2. split; [exact A2|].
          assert (NE : ms ++ [stat_member s] <> []) by (destruct ms; discriminate).
          split.
          - intros X. rewrite (B2 NE). apply B. exact X.
          - intros FA PE CM. apply C2; auto. intros j J. rewrite LN in J. rewrite MEM by exact J. apply FA. exact J. }
        { intros _. apply g8. exact L1. }
        { intros X. exfalso. lia. }
        { rewrite g10. unfold a1. cbn [a_sent]. rewrite last_cons. reflexivity. }
        { discriminate. }
        { intros SF. destruct (g12 SF) as (ps1 & ps2 & E & LA & IC & AL). exists (i :: ps1), ps2. split; [cbn [app]; f_equal; exact E|]. split.
          - rewrite last_cons. exact LA.
          - split; [intros x [<- | X]; [left; reflexivity|right; apply IC; exact X]|].
            intros x [<- | X] SX; [left; reflexivity|]. right. apply AL; [exact X|].
            rewrite OTHER; [exact SX|]. rewrite E. apply in_or_app. left. exact X. }
      * set (a1 := AS (a_c a) true (a_st a) i (a_sent a) (a_log a)).
        assert (SH1 : forall pre ms, shape (a_c a) (a_comma a) pre ms -> shape (a_c a1) true pre ms).
        { intros pre ms (A & B & C). split; [exact A|]. split; [exact B|discriminate]. }
        assert (NE1 : forall pre ms, shape (a_c a) (a_comma a) pre ms -> fit_alone lim (a_st a) -> pre = [] -> (a_comma a = true -> ms <> []) -> ms <> []).
        { intros pre ms (A & B & C) FA -> CM EM. subst ms. destruct (a_comma a) eqn:CO; [apply CM; reflexivity|].
          specialize (FA i RGi). cbn [app join] in A. rewrite A in FI. fold s in FA. rewrite field_member in FI. cbn [app] in FI.
          rewrite Zlen_cons in FI. change (Zlen (@nil Z)) with 0 in FI. lia. }
        destruct sf.
        { exists []. constructor.
          - unfold a1. cbn [a_log]. rewrite app_nil_r. reflexivity.
          - intros x [].
          - constructor.
          - intros x [].
          - unfold cleared_if. destruct clr; [apply cleared_refl|reflexivity].
          - auto.
          - intros pre ms SH. exists pre. cbn [map]. rewrite app_nil_r. split; [apply SH1; exact SH|]. split; [auto|].
            intros FA PE CM. split; [exact PE|]. intros _. eapply NE1; eauto.
          - auto.
          - auto.
          - reflexivity.
          - auto.
          - intros _. exists [], (i :: ps). split; [reflexivity|]. split; [reflexivity|]. split; intros x []. }
        destruct (IH a1 ND ltac:(intros; apply RG; right; assumption) LM) as (is & [g1 g2 g3 g4 g5 g6 g7 g8 g9 g10 g11 g12]).
        exists is. constructor; auto.
        { intros x X. right. apply g2. exact X. }
        { intros pre ms SH. destruct (g7 pre ms (SH1 pre ms SH)) as (pre2 & A2 & B2 & C2). exists pre2. split; [exact A2|]. split; [exact B2|].
          intros FA PE CM. apply C2; auto. intros _. eapply NE1; eauto. }
        { discriminate. }
Qed.
