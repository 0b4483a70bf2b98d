(** The bounded print buffer, and the loops of writeJSON over an ideal buffer. *)
From Verif Require Import Base JsonModel.

(** ** Buffer *)

(** The buffer of [bs] bytes (followed in memory by [suf]) holds the text [c], zero-terminated. *)
Definition holds (bs : Z) (suf : list Z) (b : bp) (c : list Z) : Prop :=
  exists mid, b_mem b = c ++ 0 :: mid ++ suf /\ Zlen c + 1 + Zlen mid = bs /\ b_cap b = bs - 1 /\ b_size b = Zlen c.

Lemma wr_at pre x t v : wr (pre ++ x :: t) (Zlen pre) v = Some (pre ++ v :: t).
Proof.
  unfold wr. pose proof (Zlen_nonneg pre). pose proof (Zlen_nonneg t).
  rewrite blit_some by (autorewrite with zlen; lia). f_equal.
  rewrite Zlen_cons. change (Zlen (@nil Z)) with 0.
  replace (Z.to_nat (Zlen pre)) with (length pre) by (unfold Zlen; lia).
  rewrite firstn_app, firstn_all, Nat.sub_diag. cbn [firstn]. rewrite app_nil_r. f_equal. cbn [app]. f_equal.
  replace (Z.to_nat (Zlen pre + (1 + 0))) with (length pre + 1)%nat by (unfold Zlen; lia).
  rewrite skipn_app. rewrite skipn_all2 by lia. replace (length pre + 1 - length pre)%nat with 1%nat by lia. reflexivity.
Qed.
Lemma wr_at1 pre y x t v : wr (pre ++ y :: x :: t) (Zlen pre + 1) v = Some (pre ++ y :: v :: t).
Proof.
  replace (pre ++ y :: x :: t) with ((pre ++ [y]) ++ x :: t) by (rewrite <- app_assoc; reflexivity).
  replace (Zlen pre + 1) with (Zlen (pre ++ [y])) by (autorewrite with zlen; lia).
  rewrite wr_at. rewrite <- app_assoc. reflexivity.
Qed.

Definition trunc (bs : Z) (l : list Z) : list Z := firstn (Z.to_nat (bs - 1)) l.

Lemma write_spec bs suf b c ch : holds bs suf b c -> 1 <= bs <= 255 ->
  exists b', bp_write ch b = Some b' /\ b_mark b' = b_mark b /\
    holds bs suf b' (if Zlen c <? bs - 1 then c ++ [ch] else c).
Proof.
  intros (mid & M & L & C & S) B. pose proof (Zlen_nonneg c). pose proof (Zlen_nonneg mid). unfold bp_write. rewrite C, S.
  destruct (Zlen c <? bs - 1) eqn:LT.
  - destruct mid as [|x mid]; [change (Zlen (@nil Z)) with 0 in L; lia|]. rewrite Zlen_cons in L.
    rewrite M, wr_at. cbn [bind]. rewrite u8_id by (unfold byte; lia). cbn [app].
    rewrite wr_at1. cbn [bind]. eexists. split; [reflexivity|]. split; [reflexivity|].
    exists mid. cbn [b_mem b_cap b_size]. rewrite <- app_assoc. cbn [app]. split; [reflexivity|].
    autorewrite with zlen. split; [lia|]. split; [reflexivity|lia].
  - eexists. split; [reflexivity|]. split; [reflexivity|]. exists mid. auto.
Qed.

Lemma trunc_all bs c : Zlen c <= bs - 1 -> trunc bs c = c.
Proof. intros H. unfold trunc. apply firstn_all2. unfold Zlen in H. lia. Qed.
Lemma trunc_full bs c l : Zlen c = bs - 1 -> trunc bs (c ++ l) = c.
Proof.
  intros H. unfold trunc. rewrite firstn_app. rewrite firstn_all2 by (unfold Zlen in H; lia).
  replace (Z.to_nat (bs - 1) - length c)%nat with 0%nat by (unfold Zlen in H; lia). cbn [firstn]. apply app_nil_r.
Qed.

Lemma puts_spec bs suf l : forall b c, holds bs suf b c -> 1 <= bs <= 255 ->
  exists b', bp_puts l b = Some b' /\ b_mark b' = b_mark b /\ holds bs suf b' (trunc bs (c ++ l)).
Proof.
  induction l as [|ch l IH]; intros b c H B; pose proof (Zlen_nonneg c).
  - exists b. split; [reflexivity|]. split; [reflexivity|]. rewrite app_nil_r. rewrite trunc_all; [exact H|].
    destruct H as (mid & _ & L & _). pose proof (Zlen_nonneg mid). lia.
  - cbn [bp_puts]. destruct (write_spec _ _ _ _ ch H B) as (b1 & -> & MK & H1). cbn [bind].
    destruct (IH b1 _ H1 B) as (b2 & -> & MK2 & H2). exists b2. split; [reflexivity|]. split; [congruence|].
    destruct (Zlen c <? bs - 1) eqn:LT.
    + rewrite <- app_assoc in H2. exact H2.
    + assert (LC : Zlen c = bs - 1). { destruct H as (mid & _ & L & _). pose proof (Zlen_nonneg mid). lia. }
      rewrite trunc_full in H2 by exact LC. rewrite trunc_full by exact LC. exact H2.
Qed.

Lemma rewind_spec bs suf b c d : holds bs suf b (c ++ d) -> b_mark b = Zlen c ->
  exists b', bp_rewind b = Some b' /\ b_mark b' = Zlen c /\ holds bs suf b' c.
Proof.
  intros (mid & M & L & C & S) MK. unfold bp_rewind. rewrite M, MK. rewrite Zlen_app in L. destruct d as [|x d].
  - rewrite app_nil_r. rewrite wr_at. cbn [bind]. eexists. split; [reflexivity|]. split; [reflexivity|].
    exists mid. change (Zlen (@nil Z)) with 0 in L. cbn [b_mem b_cap b_size]. repeat split; try reflexivity; try assumption; lia.
  - rewrite <- app_assoc. cbn [app]. rewrite wr_at. cbn [bind]. eexists. split; [reflexivity|]. split; [reflexivity|].
    exists (d ++ 0 :: mid). cbn [b_mem b_cap b_size]. rewrite Zlen_cons in L. rewrite <- app_assoc. cbn [app].
    split; [reflexivity|]. autorewrite with zlen. repeat split; try assumption; lia.
Qed.

(** A text at the mark. *)
Definition atm (bs : Z) (suf : list Z) (b : bp) (c : list Z) : Prop := holds bs suf b c /\ b_mark b = Zlen c.

Lemma holds_len bs suf b c : holds bs suf b c -> 0 <= Zlen c <= bs - 1.
Proof. intros (mid & _ & L & _). pose proof (Zlen_nonneg mid). pose proof (Zlen_nonneg c). lia. Qed.

Lemma attempt_spec bs suf b c f : atm bs suf b c -> 10 <= bs <= 255 ->
  exists b1, bp_puts f b = Some b1 /\
    (b_size b1 >? u8 (bs - 3)) = negb (Zlen c + Zlen f <=? bs - 3) /\
    (Zlen c + Zlen f <= bs - 3 -> atm bs suf (bp_setMark b1) (c ++ f)) /\
    (bs - 3 < Zlen c + Zlen f -> exists b2, bp_rewind b1 = Some b2 /\ atm bs suf b2 c).
Proof.
  intros [H MK] B. pose proof (holds_len _ _ _ _ H) as LC. pose proof (Zlen_nonneg f).
  destruct (puts_spec bs suf f b c H ltac:(lia)) as (b1 & E & MK1 & H1). exists b1. split; [exact E|].
  rewrite (u8_id (bs - 3)) by (unfold byte; lia).
  assert (SZ : b_size b1 = Z.min (bs - 1) (Zlen c + Zlen f)).
  { destruct H1 as (mid & _ & _ & _ & ->). unfold trunc. autorewrite with zlen. lia. }
  split; [lia|]. split.
  - intros FI. rewrite trunc_all in H1 by (rewrite Zlen_app; lia). split.
    + destruct H1 as (mid & M & L & C & S). exists mid. cbn [bp_setMark b_mem b_cap b_size]. auto.
    + cbn [bp_setMark b_mark]. rewrite SZ, Zlen_app. lia.
  - intros NF.
    assert (T : trunc bs (c ++ f) = c ++ firstn (Z.to_nat (bs - 1) - length c) f).
    { unfold trunc. rewrite firstn_app. f_equal. apply firstn_all2. unfold Zlen in *. lia. }
    rewrite T in H1. destruct (rewind_spec _ _ _ _ _ H1 ltac:(congruence)) as (b2 & E2 & MK2 & H2).
    exists b2. split; [exact E2|]. split; assumption.
Qed.

(** ** The order in which slots are visited *)

Fixpoint vis (N next : Z) (n : nat) : list Z :=
  match n with
  | O => []
  | S n => wrap N next :: vis N (wrap N next) n
  end.

Lemma wrap_range N x : 1 <= N <= 255 -> 0 <= wrap N x < N.
Proof.
  intros H. unfold wrap. pose proof (u8_byte (x + 1)) as B. unfold byte in B.
  destruct (u8 (x + 1) >=? N) eqn:E; lia.
Qed.
Lemma wrap_mod N x : 1 <= N <= 255 -> 0 <= x < N -> wrap N x = (x + 1) mod N.
Proof.
  intros H X. unfold wrap. rewrite u8_id by (unfold byte; lia). destruct (x + 1 >=? N) eqn:E.
  - replace (x + 1) with N by lia. symmetry. apply Z_mod_same_full.
  - rewrite Z.mod_small; lia.
Qed.
Lemma vis_in N n : forall x p, 1 <= N <= 255 -> 0 <= x < N -> In p (vis N x n) <-> exists k, 1 <= k <= Z.of_nat n /\ p = (x + k) mod N.
Proof.
  induction n as [|n IH]; intros x p H X; cbn [vis].
  - split; [intros []|]. intros (k & K & _). lia.
  - pose proof (wrap_range N x H) as W. cbn [In]. rewrite (IH (wrap N x) p H W). rewrite wrap_mod by assumption. split.
    + intros [<- | (k & K & ->)]; [exists 1; split; [lia|reflexivity]|]. exists (k + 1). split; [lia|].
      rewrite Zplus_mod_idemp_l. f_equal. lia.
    + intros (k & K & ->). destruct (Z.eq_dec k 1) as [-> |]; [left; reflexivity|]. right. exists (k - 1). split; [lia|].
      rewrite Zplus_mod_idemp_l. f_equal. lia.
Qed.
Lemma vis_range N n x p : 1 <= N <= 255 -> In p (vis N x n) -> 0 <= p < N.
Proof.
  revert x. induction n as [|n IH]; intros x H; cbn [vis In]; [tauto|]. intros [<- | I]; [apply wrap_range; exact H|eauto].
Qed.
Lemma vis_nodup N n : forall x, 1 <= N <= 255 -> Z.of_nat n <= N -> NoDup (vis N x n).
Proof.
  induction n as [|n IH]; intros x H L; cbn [vis]; constructor; [|apply IH; [exact H|lia]].
  rewrite vis_in by (auto using wrap_range). intros (k & K & E).
  pose proof (wrap_range N x H) as W. set (w := wrap N x) in *.
  assert (w = w mod N) by (symmetry; apply Z.mod_small; exact W).
  assert (0 <= w + k < 2 * N) by lia.
  destruct (Z_lt_le_dec (w + k) N).
  - rewrite (Z.mod_small (w + k)) in E by lia. lia.
  - replace ((w + k) mod N) with (w + k - N) in E by (apply (Z.mod_unique _ _ 1); lia). lia.
Qed.
(** A full round from anywhere visits every slot. *)
Lemma vis_all N x p : 1 <= N <= 255 -> byte x -> 0 <= p < N -> In p (vis N x (Z.to_nat N)).
Proof.
  intros H X P.
  replace (Z.to_nat N) with (S (Z.to_nat (N - 1))) by lia. cbn [vis].
  pose proof (wrap_range N x H) as W. set (w := wrap N x) in *. cbn [In].
  destruct (Z.eq_dec w p) as [-> |]; [auto|]. right. rewrite vis_in by assumption.
  destruct (Z_lt_le_dec w p).
  - exists (p - w). split; [lia|]. rewrite Z.mod_small; lia.
  - exists (p - w + N). split; [lia|]. replace (w + (p - w + N)) with (p + 1 * N) by ring.
    rewrite Z_mod_plus_full. rewrite Z.mod_small; lia.
Qed.

(** ** The loops over an ideal buffer *)

Record ast := AS { a_c : list Z; a_comma : bool; a_st : list stat; a_tried : Z; a_sent : Z; a_log : list Z }.
Definition st0 : stat := St [] 0 false false.
Definition stat_at (st : list stat) (i : Z) : stat := nth (Z.to_nat i) st st0.
Definition clr_at (clr : bool) (i : Z) (st : list stat) : list stat := if clr then update (Z.to_nat i) clear st else st.

Fixpoint aloop (skip : Z -> stat -> bool) (stopfail stopok clr : bool) (lim : Z) (ps : list Z) (a : ast) : ast :=
  match ps with
  | [] => a
  | i :: ps =>
      let s := stat_at (a_st a) i in
      if skip i s then aloop skip stopfail stopok clr lim ps a else
      let f := field (a_comma a) s in
      if Zlen (a_c a) + Zlen f <=? lim then
        let a := AS (a_c a ++ f) true (clr_at clr i (a_st a)) i i (a_log a ++ [i]) in
        if stopok then a else aloop skip stopfail stopok clr lim ps a
      else
        let a := AS (a_c a) true (a_st a) i (a_sent a) (a_log a) in
        if stopfail then a else aloop skip stopfail stopok clr lim ps a
  end.

Definition sim (bs : Z) (suf : list Z) (w : ws) (a : ast) : Prop :=
  atm bs suf (w_bp w) (a_c a) /\ w_comma w = a_comma a /\ w_st w = a_st a /\ w_tried w = a_tried a /\ w_sent w = a_sent a.

Lemma update_len i f st : length (update i f st) = length st.
Proof. revert i. induction st as [|s st IH]; intros [|i]; cbn; auto. Qed.
Lemma clr_at_len clr i st : length (clr_at clr i st) = length st.
Proof. unfold clr_at. destruct clr; [apply update_len|reflexivity]. Qed.

Lemma loop_sim bs suf skip sf so clr n : forall next w a, 10 <= bs <= 255 -> 1 <= Zlen (w_st w) <= 255 -> sim bs suf w a ->
  exists w', loop skip sf so clr (u8 (bs - 3)) n next w = Some w' /\
    sim bs suf w' (aloop skip sf so clr (bs - 3) (vis (Zlen (w_st w)) next n) a).
Proof.
  induction n as [|n IH]; intros next w a B LS SI.
  - exists w. split; [reflexivity|exact SI].
  - cbn [loop vis aloop]. destruct SI as (A & C & ST & T & S).
    set (N := Zlen (w_st w)) in *. pose proof (wrap_range N next LS) as W. set (p := wrap N next) in *.
    assert (NE : nth_error (w_st w) (Z.to_nat p) = Some (stat_at (a_st a) p)).
    { rewrite <- ST. unfold stat_at. apply nth_error_nth'. unfold N, Zlen in *. lia. }
    rewrite NE. set (s := stat_at (a_st a) p) in *.
    destruct (skip p s) eqn:SK.
    { destruct (IH p w a B LS ltac:(repeat split; try assumption; apply A)) as (w' & E & SI'). exists w'. split; [exact E|exact SI']. }
    rewrite C.
    destruct (attempt_spec bs suf (w_bp w) (a_c a) (field (a_comma a) s) A B) as (b1 & -> & SZ & OK & NO).
    cbn [bind]. rewrite SZ.
    destruct (Zlen (a_c a) + Zlen (field (a_comma a) s) <=? bs - 3) eqn:FI; cbn [negb].
    + specialize (OK ltac:(lia)).
      set (w1 := WS (bp_setMark b1) true (if clr then update (Z.to_nat p) clear (w_st w) else w_st w) p p).
      set (a1 := AS (a_c a ++ field (a_comma a) s) true (clr_at clr p (a_st a)) p p (a_log a ++ [p])).
      assert (S1 : sim bs suf w1 a1).
      { unfold sim, w1, a1; cbn [w_bp w_comma w_st w_tried w_sent a_c a_comma a_st a_tried a_sent].
        split; [exact OK|]. split; [reflexivity|]. unfold clr_at. rewrite ST. auto. }
      destruct so.
      * exists w1. split; [reflexivity|exact S1].
      * assert (LN : Zlen (w_st w1) = N).
        { unfold w1. cbn [w_st]. unfold N, Zlen. destruct clr; [rewrite update_len|]; reflexivity. }
        destruct (IH p w1 a1 B ltac:(lia) S1) as (w' & E & SI'). rewrite LN in SI'. exists w'. split; [exact E|exact SI'].
    + destruct (NO ltac:(lia)) as (b2 & -> & A2). cbn [bind].
      set (w1 := WS b2 true (w_st w) p (w_sent w)). set (a1 := AS (a_c a) true (a_st a) p (a_sent a) (a_log a)).
      assert (S1 : sim bs suf w1 a1).
      { unfold sim, w1, a1; cbn [w_bp w_comma w_st w_tried w_sent a_c a_comma a_st a_tried a_sent]. auto. }
      destruct sf.
      * exists w1. split; [reflexivity|exact S1].
      * destruct (IH p w1 a1 B LS S1) as (w' & E & SI'). exists w'. split; [exact E|exact SI'].
Qed.
