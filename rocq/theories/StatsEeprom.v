(** The EEPROM-backed store of hourly statistics, with power failures. *)
From Verif Require Import Base EepromModel EepromProofs StatsModel.

(** ** Specification: the statistics area as a by-hour store. *)
Definition view (m : Z -> Z) : Store := fun set hh => m (256 + 24 * set + hh).
Definition valid (set hh : Z) : Prop := 0 <= set < 14 /\ 0 <= hh < 24.

Theorem stat_slots_disjoint : forall set hh set' hh', valid set hh -> valid set' hh' ->
  256 <= stat_addr set hh < 592 /\ (stat_addr set hh = stat_addr set' hh' -> set = set' /\ hh = hh').
Proof. unfold valid, stat_addr, STATS_START. intros. lia. Qed.

Lemma does_get set hh s : 0 <= set -> 0 <= hh -> does (ee_getStat set hh) s [] (sget (view (mem s)) set hh).
Proof.
  intros Hs Hh. unfold ee_getStat, sget, STATS_SETS, UNSET_BYTE. destruct (14 <=? set) eqn:E1; cbn [orb]; [apply does_ret|].
  destruct (23 <? hh) eqn:E2.
  - replace (24 <=? hh) with true by lia. apply does_ret.
  - replace (24 <=? hh) with false by lia. unfold view. replace (256 + 24 * set + hh) with (stat_addr set hh)
      by (unfold stat_addr, STATS_START; lia). apply does_read.
Qed.
(** Reading returns exactly the stored value (255 for an invalid set or hour) and
    changes nothing. *)
Theorem ee_get_reads : forall set hh s f, 0 <= set -> 0 <= hh ->
  exists s', ee_getStat set hh s f = (s', Some (sget (view (mem s)) set hh, f)) /\ (forall q, mem s' q = mem s q).
Proof.
  intros set hh s f Hs Hh. destruct (does_get set hh s Hs Hh f) as [(s' & k & _ & Hlt & _)|(s' & f' & E & Hf & Hm)].
  - simpl in Hlt. lia.
  - exists s'. simpl in Hf. assert (f' = f) as -> by lia. split; [exact E|exact Hm].
Qed.

(** Writing, however it ends (power failure or not), leaves every other cell of
    the EEPROM alone, and the slot holds the old or the new value; when it
    completes, the new one, so the store behaves as the abstract one. *)
Theorem ee_set_writes_one : forall set hh v s f, 0 <= set -> 0 <= hh ->
  let s' := fst (ee_setStat set hh v s f) in
  (forall q, ~ (valid set hh /\ q = stat_addr set hh) -> mem s' q = mem s q) /\
  (valid set hh -> mem s' (stat_addr set hh) = mem s (stat_addr set hh) \/ mem s' (stat_addr set hh) = v) /\
  (snd (ee_setStat set hh v s f) <> None -> forall set' hh', 0 <= set' -> 0 <= hh' ->
     sget (view (mem s')) set' hh' = sget (sset (view (mem s)) set hh v) set' hh').
Proof.
  intros set hh v s f Hs Hh s'. subst s'. unfold ee_setStat.
  assert (NO : ~ valid set hh -> sset (view (mem s)) set hh v = view (mem s)).
  { intros HN. unfold sset, STATS_SETS. replace ((14 <=? set) || (24 <=? hh)) with true by (unfold valid in HN; lia). reflexivity. }
  unfold STATS_SETS. destruct (14 <=? set) eqn:E1; [|destruct (23 <? hh) eqn:E2].
  1,2: assert (HN : ~ valid set hh) by (unfold valid; lia); cbn [ret fst snd];
       split; [reflexivity|]; split; [tauto|]; intros _ set' hh' _ _; rewrite NO by exact HN; reflexivity.
  assert (HV : valid set hh) by (unfold valid; lia).
  assert (HD : does (run _ <- smart_update (stat_addr set hh) v; ret tt) s [(stat_addr set hh, v)] tt).
  { change [(stat_addr set hh, v)] with ([(stat_addr set hh, v)] ++ []).
    eapply does_bind; [apply does_smart_update|]. intros. apply does_ret. }
  destruct (HD f) as [(s1 & k & E & _ & Hk & Hm)|(s1 & f' & E & _ & Hm)]; rewrite E; cbn [fst snd].
  - split; [|split; [|congruence]].
    + intros q Hq. rewrite Hm. destruct k as [|k]; [reflexivity|]. cbn [firstn]. rewrite firstn_nil. cbn. unfold upd.
      replace (q =? stat_addr set hh) with false; [reflexivity|]. symmetry. apply Z.eqb_neq. intros ->. tauto.
    + intros _. rewrite Hm. destruct k as [|k]; [left; reflexivity|right]. cbn [firstn]. rewrite firstn_nil. cbn. unfold upd.
      rewrite Z.eqb_refl. reflexivity.
  - split; [|split].
    + intros q Hq. rewrite Hm. cbn. unfold upd.
      replace (q =? stat_addr set hh) with false; [reflexivity|]. symmetry. apply Z.eqb_neq. intros ->. tauto.
    + intros _. rewrite Hm. cbn. unfold upd. rewrite Z.eqb_refl. auto.
    + intros _ set' hh' Hs' Hh'. unfold sget, sset, STATS_SETS. rewrite E1. replace (24 <=? hh) with false by lia. cbn [orb].
      destruct ((14 <=? set') || (24 <=? hh')) eqn:E3; [reflexivity|]. unfold view. rewrite Hm. cbn [applyw fold_left fst snd]. unfold upd, stat_addr, STATS_START.
      destruct ((set' =? set) && (hh' =? hh)) eqn:E4.
      * replace (256 + 24 * set' + hh' =? 256 + set * 24 + hh) with true by lia. reflexivity.
      * replace (256 + 24 * set' + hh' =? 256 + set * 24 + hh) with false by lia. reflexivity.
Qed.

(** ** Erasing all statistics *)
Fixpoint dirty (m : Z -> Z) (p : Z) (n : nat) : Z :=
  match n with O => 0 | S n' => (if m p =? 255 then 0 else 1) + dirty m (p + 1) n' end.
Lemma dirty_range m n : forall p, 0 <= dirty m p n <= Z.of_nat n.
Proof. induction n; intros p; cbn [dirty]; [lia|]. specialize (IHn (p + 1)). destruct (m p =? 255); lia. Qed.
Lemma dirty_ext m m' n : forall p, (forall q, p <= q < p + Z.of_nat n -> m q = m' q) -> dirty m p n = dirty m' p n.
Proof. induction n; intros p H; cbn [dirty]; [reflexivity|]. rewrite H by lia. rewrite (IHn (p + 1)); [reflexivity|]. intros; apply H; lia. Qed.
Lemma dirty_split m a b : forall p, dirty m p (a + b) = dirty m p a + dirty m (p + Z.of_nat a) b.
Proof.
  induction a; intros p; [cbn [Nat.add dirty]; rewrite Z.add_0_r; reflexivity|].
  cbn [Nat.add dirty]. rewrite IHa. replace (p + 1 + Z.of_nat a) with (p + Z.of_nat (S a)) by lia. lia.
Qed.
Lemma dirty_zero m n : forall p, dirty m p n = 0 <-> forall q, p <= q < p + Z.of_nat n -> m q = 255.
Proof.
  induction n; intros p; cbn [dirty]; [split; [intros; lia|reflexivity]|].
  pose proof (dirty_range m n (p + 1)). specialize (IHn (p + 1)). split.
  - intros H1 q Hq. destruct (m p =? 255) eqn:E; [|lia]. destruct (Z.eq_dec q p) as [->|]; [lia|]. apply IHn; lia.
  - intros H1. rewrite (proj2 IHn) by (intros; apply H1; lia). rewrite H1 by lia. reflexivity.
Qed.

(** How many cells the loop visits with limit [L] (a limit of 0 means 65536). *)
Fixpoint visits (m : Z -> Z) (p : Z) (n : nat) (L : Z) : nat :=
  match n with
  | O => O
  | S n' => if m p =? 255 then S (visits m (p + 1) n' L)
            else if L =? 1 then 1%nat else S (visits m (p + 1) n' (L - 1))
  end.
Lemma visits_ext m m' n : forall p L, (forall q, p <= q < p + Z.of_nat n -> m q = m' q) -> visits m p n L = visits m' p n L.
Proof.
  induction n; intros p L H; cbn [visits]; [reflexivity|]. rewrite H by lia.
  rewrite !(IHn (p + 1)); [reflexivity| |]; intros; apply H; lia.
Qed.
Lemma visits_spec m n : forall p L, 1 <= L -> (visits m p n L <= n)%nat /\
  (if dirty m p n <? L then visits m p n L = n else dirty m p (visits m p n L) = L).
Proof.
  induction n; intros p L HL; cbn [visits dirty]; [replace (0 <? L) with true by lia; auto|].
  destruct (m p =? 255) eqn:E.
  - destruct (IHn (p + 1) L HL) as [A B]. split; [lia|]. rewrite Z.add_0_l.
    destruct (dirty m (p + 1) n <? L); [lia|]. cbn [dirty]. rewrite E. lia.
  - destruct (L =? 1) eqn:E1.
    + split; [lia|]. pose proof (dirty_range m n (p + 1)). replace (1 + dirty m (p + 1) n <? L) with false by lia.
      cbn [dirty]. rewrite E. lia.
    + destruct (IHn (p + 1) (L - 1) ltac:(lia)) as [A B]. split; [lia|].
      replace (1 + dirty m (p + 1) n <? L) with (dirty m (p + 1) n <? L - 1) by lia.
      destruct (dirty m (p + 1) n <? L - 1); [lia|]. cbn [dirty]. rewrite E. lia.
Qed.
Lemma does_zap n : forall p L s, 1 <= L <= 65536 ->
  does (zap_loop p n (u16 L)) s (at_addr p (repeat 255 (visits (mem s) p n L))) (dirty (mem s) p n <? L).
Proof.
  induction n as [|n IH]; intros p L s HL.
  - cbn [dirty zap_loop visits repeat at_addr]. replace (0 <? L) with true by lia. apply does_ret.
  - assert (DS : forall s', meq (mem s') (applyw [(p, 255)] (mem s)) -> forall q, p + 1 <= q < p + 1 + Z.of_nat n -> mem s' q = mem s q).
    { intros s' Hm q Hq. rewrite Hm. cbn. unfold upd. replace (q =? p) with false by lia. reflexivity. }
    cbn [dirty visits zap_loop]. destruct (mem s p =? 255) eqn:E; [|destruct (L =? 1) eqn:E1].
    + rewrite Z.add_0_l. cbn [repeat at_addr].
      change (?a :: ?b) with ([a] ++ b) at 1.
      eapply does_bind; [apply does_smart_erase|]. intros s' Hm.
      replace (negb (255 =? mem s p)) with false by lia. cbv iota beta.
      specialize (IH (p + 1) L s' HL). rewrite (visits_ext _ (mem s)) in IH by (apply DS; exact Hm).
      rewrite (dirty_ext _ (mem s)) in IH by (apply DS; exact Hm). exact IH.
    + cbn [repeat at_addr]. change [(p, 255)] with ([(p, 255)] ++ []).
      eapply does_bind; [apply does_smart_erase|]. intros s' Hm.
      replace (negb (255 =? mem s p)) with true by lia. cbv iota beta zeta.
      replace (u16 (u16 L - 1) =? 0) with true by (replace L with 1 by lia; reflexivity).
      pose proof (dirty_range (mem s) n (p + 1)). replace (1 + dirty (mem s) (p + 1) n <? L) with false by lia.
      apply does_ret.
    + cbn [repeat at_addr]. change (?a :: ?b) with ([a] ++ b) at 1.
      eapply does_bind; [apply does_smart_erase|]. intros s' Hm.
      replace (negb (255 =? mem s p)) with true by lia. cbv iota beta zeta.
      assert (EL : u16 (u16 L - 1) = u16 (L - 1)).
      { unfold u16. rewrite Zminus_mod_idemp_l. reflexivity. }
      assert (NZ : u16 (L - 1) = L - 1) by (unfold u16; apply Z.mod_small; lia).
      rewrite EL. replace (u16 (L - 1) =? 0) with false by (rewrite NZ; lia).
      specialize (IH (p + 1) (L - 1) s' ltac:(lia)). rewrite (visits_ext _ (mem s)) in IH by (apply DS; exact Hm).
      rewrite (dirty_ext _ (mem s)) in IH by (apply DS; exact Hm).
      replace (1 + dirty (mem s) (p + 1) n <? L) with (dirty (mem s) (p + 1) n <? L - 1) by lia. exact IH.
Qed.

(** Cells of the statistics area not yet erased. *)
Definition stats_left (m : Z -> Z) : Z := dirty m 256 360.
(** The real limit: 0 stands for 65536. *)
Definition limit_of (lim : Z) : Z := if lim =? 0 then 65536 else lim.

(** Erasing whatever the power does only touches the statistics area, never the
    keys, settings, associations or counters outside 256..615, and each of its
    cells is either as before or erased. *)
Theorem zap_touches_only_stats : forall lim s f, 0 <= lim < 65536 ->
  let s' := fst (zapStats lim s f) in
  (forall q, q < 256 \/ 616 <= q -> mem s' q = mem s q) /\
  (forall q, mem s' q = mem s q \/ mem s' q = 255).
Proof.
  intros lim s f Hl s'. subst s'. unfold zapStats, STATS_START.
  assert (HL : 1 <= limit_of lim <= 65536) by (unfold limit_of; destruct (lim =? 0) eqn:E; lia).
  assert (EL : u16 (limit_of lim) = lim).
  { unfold limit_of. destruct (lim =? 0) eqn:E; [assert (lim = 0) as -> by lia; reflexivity|]. unfold u16. apply Z.mod_small; lia. }
  pose proof (does_zap 360 256 (limit_of lim) s HL f) as HD. rewrite EL in HD.
  destruct (visits_spec (mem s) 360 256 (limit_of lim) ltac:(lia)) as [HV _].
  set (v := visits _ _ _ _) in *. set (r := _ <? _) in HD. clearbody v r.
  assert (G : forall j q, (j <= v)%nat ->
     let x := applyw (at_addr 256 (repeat 255 j)) (mem s) q in (q < 256 \/ 616 <= q -> x = mem s q) /\ (x = mem s q \/ x = 255)).
  { intros j q Hj x. subst x. rewrite applyw_at. unfold Zlen. rewrite repeat_length.
    destruct ((256 <=? q) && (q <? 256 + Z.of_nat j)) eqn:E; [|auto].
    split; [lia|]. right. unfold znth. rewrite nth_indep with (d' := 255) by (rewrite repeat_length; lia). apply nth_repeat. }
  destruct HD as [(s1 & k & E & _ & Hk & Hm)|(s1 & f' & E & _ & Hm)]; rewrite E; cbn [fst].
  - rewrite at_addr_len, repeat_length in Hk. rewrite firstn_at_addr in Hm.
    replace (firstn k (repeat 255 v)) with (repeat 255 k) in Hm.
    + split; intros q; rewrite (Hm q); apply G; lia.
    + clear - Hk. revert v Hk. induction k; intros v Hk; [reflexivity|]. destruct v; [lia|]. cbn. rewrite <- IHk by lia. reflexivity.
  - split; intros q; rewrite (Hm q); apply G; lia.
Qed.

(** When it runs to completion: the answer is 'all done' exactly when fewer than
    [limit_of lim] cells had to be erased, in which case the whole area is erased;
    otherwise exactly that many cells have been erased. *)
Theorem zap_exact : forall lim s f, 0 <= lim < 65536 -> (360 <= f)%nat ->
  exists s' f', zapStats lim s f = (s', Some (stats_left (mem s) <? limit_of lim, f')) /\
  (stats_left (mem s) < limit_of lim -> forall q, 256 <= q < 616 -> mem s' q = 255) /\
  (limit_of lim <= stats_left (mem s) -> stats_left (mem s') = stats_left (mem s) - limit_of lim).
Proof.
  intros lim s f Hl Hf. unfold zapStats, STATS_START.
  assert (HL : 1 <= limit_of lim <= 65536) by (unfold limit_of; destruct (lim =? 0) eqn:E; lia).
  assert (EL : u16 (limit_of lim) = lim).
  { unfold limit_of. destruct (lim =? 0) eqn:E; [assert (lim = 0) as -> by lia; reflexivity|]. unfold u16. apply Z.mod_small; lia. }
  pose proof (does_zap 360 256 (limit_of lim) s HL) as HD. rewrite EL in HD.
  destruct (visits_spec (mem s) 360 256 (limit_of lim) ltac:(lia)) as [HV HS].
  set (v := visits _ _ _ _) in *.
  destruct (does_complete _ _ _ _ HD f) as (s' & f' & E & Hm).
  { rewrite at_addr_len, repeat_length. lia. }
  exists s', f'. split; [exact E|].
  assert (IN : forall q, 256 <= q < 256 + Z.of_nat v -> mem s' q = 255).
  { intros q Hq. rewrite Hm, applyw_at. unfold Zlen. rewrite repeat_length.
    replace ((256 <=? q) && (q <? 256 + Z.of_nat v)) with true by lia.
    unfold znth. rewrite nth_indep with (d' := 255) by (rewrite repeat_length; lia). apply nth_repeat. }
  assert (OUT : forall q, 256 + Z.of_nat v <= q -> mem s' q = mem s q).
  { intros q Hq. rewrite Hm, applyw_at. unfold Zlen. rewrite repeat_length.
    replace ((256 <=? q) && (q <? 256 + Z.of_nat v)) with false by lia. reflexivity. }
  clearbody v. unfold stats_left in *. split.
  - intros HT q Hq. replace (dirty (mem s) 256 360 <? limit_of lim) with true in HS by lia. subst v. apply IN. lia.
  - intros HT. replace (dirty (mem s) 256 360 <? limit_of lim) with false in HS by lia.
    replace 360%nat with (v + (360 - v))%nat by lia. rewrite !dirty_split.
    rewrite (proj2 (dirty_zero (mem s') v 256)) by exact IN.
    rewrite (dirty_ext (mem s') (mem s)) by (intros; apply OUT; lia). lia.
Qed.
(** So repeated bounded calls finish: after any [n] incomplete calls [n*lim] cells
    have been erased, hence at most 360/lim of them are incomplete. *)
Fixpoint again (g : EE -> EE) (n : nat) (s : EE) : EE :=
  match n with O => s | S n' => again g n' (g s) end.
Definition zap_times (f n : nat) (lim : Z) (s : EE) : EE := again (fun s => fst (zapStats lim s f)) n s.
Lemma zap_step f lim s : 1 <= lim < 65536 -> (360 <= f)%nat ->
  stats_left (mem (fst (zapStats lim s f))) <= Z.max 0 (stats_left (mem s) - lim).
Proof.
  intros Hl Hf. assert (L : limit_of lim = lim) by (unfold limit_of; destruct (lim =? 0) eqn:E; lia).
  destruct (zap_exact lim s f ltac:(lia) Hf) as (s' & f' & E & A & B). rewrite L in A, B.
  rewrite E. cbn [fst]. clear E. 
  assert (Z0 : (forall q, 256 <= q < 616 -> mem s' q = 255) -> stats_left (mem s') = 0)
    by (intros H; unfold stats_left; apply dirty_zero; exact H).
  destruct (Z_lt_ge_dec (stats_left (mem s)) lim) as [H|H].
  - rewrite (Z0 (A H)). lia.
  - rewrite (B ltac:(lia)). lia.
Qed.
Lemma again_down g (k : EE -> Z) l : 0 <= l -> (forall s, k (g s) <= Z.max 0 (k s - l)) ->
  forall n s, k (again g n s) <= Z.max 0 (k s - Z.of_nat n * l) \/ n = O.
Proof.
  intros Hl HG. induction n as [|n IH]; intros s; [right; reflexivity|]. left. cbn [again].
  destruct (IH (g s)) as [H| ->].
  - specialize (HG s). nia.
  - cbn [again]. specialize (HG s). lia.
Qed.
Theorem zap_repeated : forall f n lim s, 1 <= lim < 65536 -> (360 <= f)%nat -> (1 <= n)%nat ->
  stats_left (mem (zap_times f n lim s)) <= Z.max 0 (stats_left (mem s) - Z.of_nat n * lim).
Proof.
  intros f n lim s Hl Hf Hn. 
  pose proof (again_down (fun s => fst (zapStats lim s f)) (fun s => stats_left (mem s)) lim ltac:(lia)
     (fun s => zap_step f lim s Hl Hf) n s) as P.
  destruct P as [P|P]; [exact P|lia].
Qed.
Theorem zap_terminates : forall f n lim s, 1 <= lim < 65536 -> (360 <= f)%nat -> (360 <= n)%nat ->
  forall q, 256 <= q < 616 -> mem (zap_times f n lim s) q = 255.
Proof.
  intros f n lim s Hl Hf Hn. apply (dirty_zero _ 360 256).
  pose proof (zap_repeated f n lim s Hl Hf ltac:(lia)) as R. pose proof (dirty_range (mem s) 360 256).
  pose proof (dirty_range (mem (zap_times f n lim s)) 360 256). unfold stats_left in R. nia.
Qed.
Example zap_ex :
  let s := mkEE (fun q => if (q =? 300) || (q =? 400) || (q =? 112) then 7 else 255) [] in
  stats_left (mem s) = 2 /\
  match zapStats 1 s 1000%nat with (s', Some (r, _)) => r = false /\ mem s' 300 = 255 /\ mem s' 400 = 7 /\ mem s' 112 = 7 | _ => False end /\
  match zapStats 3 s 1000%nat with (s', Some (r, _)) => r = true /\ mem s' 300 = 255 /\ mem s' 400 = 255 /\ mem s' 112 = 7 | _ => False end /\
  match zapStats 2 s 1000%nat with (s', Some (r, _)) => r = false /\ stats_left (mem s') = 0 | _ => False end.
Proof. vm_compute. auto 12. Qed.
Example ee_stat_ex :
  let s := mkEE (fun _ => 255) [] in
  let s1 := fst (ee_setStat 3 23 42 s 10%nat) in
  match ee_getStat 3 23 s1 0%nat with (_, Some (v, _)) => v = 42 | _ => False end /\
  match ee_getStat 14 0 s1 0%nat with (_, Some (v, _)) => v = 255 | _ => False end /\ valid 3 23 /\
  mem s1 (stat_addr 4 0) = 255.
Proof. vm_compute. repeat split; auto; discriminate. Qed.
