(** C68: what the motor does in normal operation. *)
From Verif Require Import Base MotorModel MotorCal MotorProps MotorStep MotorTop MotorMore.

Lemma drives_time t tr : drives (Time t :: tr) = drives tr.
Proof. reflexivity. Qed.

Lemma normal_binary_drives g prop e s s' tr : cfg_ok g -> normal_binary g prop e s = Some (s', tr) ->
  drives tr = [] \/ (exists h, drives tr = [(m_tgt s >=? 50, h)] /\ (if m_tgt s >=? 50 then 100 else 0) <> m_cur s).
Proof.
  intros G. unfold normal_binary.
  destruct ((if m_tgt s >=? 50 then 100 else 0) =? m_cur s) eqn:AT; [intros E; apply some_pair_inj in E; destruct E as [_ <-]; auto|].
  destruct (low e && _); [intros E; apply some_pair_inj in E; destruct E as [_ <-]; auto|].
  destruct (e_pulses e) as [|[p t] ps]; [discriminate|]. unfold runTowardsEndStop. intros E. right. exists (p_hit p).
  split; [|lia].
  destruct (p_hit p); cbn [negb] in E.
  - apply some_pair_inj in E. destruct E as [_ <-]. apply drives_one; exact G.
  - destruct (recompute _ _) as [s3|]; [cbn [bind] in E|discriminate]. apply some_pair_inj in E.
    destruct E as [_ <-]. apply drives_one; exact G.
Qed.

(** C68.  In normal operation a poll gives the motor at most one pulse.  It opens only if the target
    is above the reported position or is at least 50%, and closes only if the target is below the
    reported position or below 50%; and if the reported position is the target, or is already the end
    called for by a target of at most 5% or at least 95%, or lies within the calibrated precision of
    an intermediate target (30..70%) of a calibrated driver, the motor is not run at all. *)
Theorem motor_moves g prop os s tr e s' tr' : reachable g prop os s tr ->
  m_state s = Normal -> poll g prop e s = Some (s', tr') ->
  (drives tr' = [] \/ exists o h, drives tr' = [(o, h)] /\
     (if o then m_cur s < m_tgt s \/ 50 <= m_tgt s else m_tgt s < m_cur s \/ m_tgt s < 50)) /\
  (m_cur s = m_tgt s \/ (m_tgt s <= 5 /\ m_cur s = 0) \/ (95 <= m_tgt s /\ m_cur s = 100) -> drives tr' = []) /\
  (prop = true -> m_recal s = false -> cannotRunProportional (m_cp s) = false -> 30 <= m_tgt s <= 70 ->
     Z.abs (m_tgt s - m_cur s) <= c_prec (m_cp s) -> drives tr' = [] /\ m_cur s' = m_cur s).
Proof.
  intros R ST. destruct (reachable_inv _ _ _ _ _ R) as [I _]. destruct R as (G & _).
  destruct I as [c1 c2 c3 c4 c5 c6 c7 c8 c9 c10 c11 c12 c13 c14].
  unfold poll. destruct (poll_late g e).
  { intros E; apply some_pair_inj in E; destruct E as [<- <-]. cbn. auto. }
  unfold poll_body. rewrite ST.
  destruct (m_cur s =? m_tgt s) eqn:CT.
  { cbn [bind]. intros E; apply some_pair_inj in E; destruct E as [<- <-]. cbn. auto. }
  assert (BIN : forall s1 t1, normal_binary g prop e s = Some (s1, t1) ->
     (drives t1 = [] \/ exists o h, drives t1 = [(o, h)] /\
        (if o then m_cur s < m_tgt s \/ 50 <= m_tgt s else m_tgt s < m_cur s \/ m_tgt s < 50)) /\
     (m_cur s = m_tgt s \/ (m_tgt s <= 5 /\ m_cur s = 0) \/ (95 <= m_tgt s /\ m_cur s = 100) -> drives t1 = [])).
  { intros s1 t1 E. destruct (normal_binary_drives _ _ _ _ _ _ G E) as [D | (h & D & N)]; rewrite D.
    - auto.
    - split; [right; exists (m_tgt s >=? 50), h; split; [reflexivity|]; destruct (m_tgt s >=? 50) eqn:?; lia|].
      intros X. exfalso. destruct (m_tgt s >=? 50) eqn:?; lia. }
  destruct prop.
  2:{ destruct (normal_binary g false e s) as [[s1 t1]|] eqn:E1; [|discriminate]. cbn [bind]. intros E.
      apply some_pair_inj in E. destruct E as [<- <-]. rewrite drives_time. destruct (BIN _ _ eq_refl) as [A B].
      split; [exact A|]. split; [exact B|]. discriminate. }
  destruct (normal_prop g e s) as [r|] eqn:NP; [cbn [bind]|discriminate].
  destruct r as [[s1 t1] | u].
  - cbn [bind]. intros E. apply some_pair_inj in E. destruct E as [<- <-]. rewrite drives_time.
    unfold normal_prop in NP.
    destruct (m_recal s && negb (shouldDefer e)) eqn:RC.
    { apply some_inj in NP. assert (X : s1 = set_state s Calibrating /\ t1 = []) by (split; congruence).
      destruct X as [-> ->]. cbn. auto. }
    destruct (inNonProp s) eqn:NPR; [discriminate|].
    unfold inNonProp in NPR. apply orb_false_elim in NPR. destruct NPR as [RF CR].
    destruct c11 as (_ & PB & K). destruct (K CR) as (P & _).
    rewrite (u8_id (2 * _)) in NP by (unfold byte; lia).
    set (eps := c_prec (m_cp s)) in *. set (weps := Z.max 11 (2 * eps)) in *.
    rewrite (u8_id (100 - weps)) in NP by (unfold byte; lia).
    rewrite (u8_id (100 - weps + eps)) in NP by (unfold byte; lia).
    rewrite (u8_id (weps - eps)) in NP by (unfold byte; lia).
    destruct ((m_tgt s >=? 100 - weps + eps) || (m_tgt s <=? weps - eps)) eqn:EX; [discriminate|].
    destruct (((m_tgt s >=? 100 - weps) && _) || _) eqn:EN; [discriminate|].
    destruct (((m_tgt s >=? m_cur s) && _) || _) eqn:NEAR.
    { apply some_inj in NP. assert (X : s1 = set_hits s 0 /\ t1 = []) by (split; congruence).
      destruct X as [-> ->]. cbn. auto. }
    destruct (propMove g (m_tgt s >? m_cur s) e s) as [r2|] eqn:PM; [cbn [bind] in NP|discriminate].
    assert (r2 = (s1, t1)) by congruence. subst r2. clear NP.
    unfold propMove in PM. destruct (e_pulses e) as [|[p t] ps]; [discriminate|].
    unfold runTowardsEndStop in PM. destruct (recompute _ _) as [s3|] eqn:RE; [cbn [bind] in PM|discriminate].
    assert (D : drives t1 = [(m_tgt s >? m_cur s, p_hit p)]).
    { destruct (p_hit p); apply some_pair_inj in PM; destruct PM as [_ <-]; apply drives_one; exact G. }
    rewrite D. split; [right; eexists _, _; split; [reflexivity|]; destruct (m_tgt s >? m_cur s) eqn:?; lia|].
    split; [intros X; exfalso; lia|]. intros _ _ _ T A. exfalso. lia.
  - destruct (normal_binary g true e s) as [[s1 t1]|] eqn:E1; [|discriminate]. cbn [bind]. intros E.
    apply some_pair_inj in E. destruct E as [<- <-]. rewrite drives_time. destruct (BIN _ _ eq_refl) as [A B].
    split; [exact A|]. split; [exact B|]. intros _ RF CR T AB. exfalso.
    unfold normal_prop in NP. rewrite RF in NP. cbn [andb] in NP.
    unfold inNonProp in NP. rewrite RF, CR in NP. cbn [orb] in NP.
    destruct c11 as (_ & PB & K). destruct (K CR) as (P & _).
    rewrite (u8_id (2 * _)) in NP by (unfold byte; lia).
    set (eps := c_prec (m_cp s)) in *. set (weps := Z.max 11 (2 * eps)) in *.
    rewrite (u8_id (100 - weps)) in NP by (unfold byte; lia).
    rewrite (u8_id (100 - weps + eps)) in NP by (unfold byte; lia).
    rewrite (u8_id (weps - eps)) in NP by (unfold byte; lia).
    replace ((m_tgt s >=? 100 - weps + eps) || (m_tgt s <=? weps - eps)) with false in NP by lia.
    destruct (((m_tgt s >=? 100 - weps) && _) || _) eqn:EN; [lia|].
    destruct (((m_tgt s >=? m_cur s) && _) || _); [discriminate|].
    destruct (propMove _ _ _ _); discriminate.
Qed.

(** C44/C68 (liveness of the end-stop-only driver).  In normal operation with a good supply, if the
    motor reports the end stop at every pulse then after four polls made in time the reported
    position is the end the target calls for. *)
Definition hit_poll (g : cfg) (e : env) : Prop :=
  e_time e < g_limit g /\ low e = false /\ exists c o t ps, e_pulses e = (P c o true, t) :: ps.
Theorem motor_binary_arrives g os s tr es s' tr' : reachable g false os s tr -> m_state s = Normal ->
  Forall (hit_poll g) es -> 4 <= Zlen es -> run g false (map OPoll es) s = Some (s', tr') ->
  m_cur s' = (if 50 <=? m_tgt s then 100 else 0) /\ m_state s' = Normal.
Proof.
  intros R ST F L RU. destruct (reachable_inv _ _ _ _ _ R) as [I _]. destruct R as (G & _).
  destruct I as [c1 c2 c3 c4 c5 c6 c7 c8 c9 c10 c11 c12 c13 c14].
  assert (GEN : forall es want s s' tr', want = (if 50 <=? m_tgt s then 100 else 0) ->
     Forall (hit_poll g) es -> m_state s = Normal -> 0 <= m_tgt s <= 100 -> 0 <= m_hits s < 4 -> m_cur s = 0 \/ m_cur s = 100 ->
     m_cur s = want \/ 4 <= m_hits s + Zlen es -> run g false (map OPoll es) s = Some (s', tr') ->
     m_cur s' = want /\ m_state s' = Normal).
  { clear - g. induction es as [|e es IH]; intros want s s' tr' W F ST T H C D; cbn [map run].
    - intros E; apply some_pair_inj in E; destruct E as [<- _]. change (Zlen (@nil env)) with 0 in D. split; [lia|exact ST].
    - apply Forall_cons_iff in F. destruct F as [(TI & LO & c & o & t & ps & EP) F].
      cbn [step]. unfold poll. replace (poll_late g e) with false by (unfold poll_late; lia).
      unfold poll_body. rewrite ST.
      destruct (m_cur s =? m_tgt s) eqn:CT.
      { cbn [bind]. destruct (run g false (map OPoll es) (set_hits s 0)) as [[s2 t2]|] eqn:ER; [|discriminate].
        cbn [bind]. intros E; apply some_pair_inj in E; destruct E as [<- _].
        apply (IH want (set_hits s 0) s2 t2); auto; try (cbn; lia); left; cbn [m_cur set_hits]; rewrite W; destruct (50 <=? m_tgt s) eqn:?; lia. }
      unfold normal_binary. rewrite LO. cbn [andb]. rewrite EP. cbn [runTowardsEndStop tick p_hit negb].
      replace (m_tgt s >=? 50) with (50 <=? m_tgt s) by lia. rewrite <- W.
      destruct (want =? m_cur s) eqn:WC.
      { cbn [bind]. destruct (run g false (map OPoll es) (set_hits s 0)) as [[s2 t2]|] eqn:ER; [|discriminate].
        cbn [bind]. intros E; apply some_pair_inj in E; destruct E as [<- _].
        apply (IH want (set_hits s 0) s2 t2); auto; try (cbn; lia); left; cbn; lia. }
      change (m_hits (set_hits s (u8 (m_hits s + 1)))) with (u8 (m_hits s + 1)).
      rewrite (u8_id (m_hits s + 1)) by (unfold byte; lia). unfold maxHits. cbn [bind].
      rewrite Zlen_cons in D.
      destruct (m_hits s + 1 >=? 4) eqn:H4.
      + match goal with |- context[run g false (map OPoll es) ?x] => set (s1 := x) end.
        destruct (run g false (map OPoll es) s1) as [[s2 t2]|] eqn:ER; [|discriminate].
        cbn [bind]. intros E; apply some_pair_inj in E; destruct E as [<- _].
        apply (IH want s1 s2 t2); auto; unfold s1; cbn; try lia; rewrite ?W; destruct (50 <=? m_tgt s); auto.
      + match goal with |- context[run g false (map OPoll es) ?x] => set (s1 := x) end.
        destruct (run g false (map OPoll es) s1) as [[s2 t2]|] eqn:ER; [|discriminate].
        cbn [bind]. intros E; apply some_pair_inj in E; destruct E as [<- _].
        apply (IH want s1 s2 t2); auto; unfold s1; cbn; lia. }
  apply (GEN es _ s s' tr'); auto; rewrite ?ST in *; try lia.
Qed.

Example arrives_met : exists os s tr es s' tr', reachable gx false os s tr /\ m_state s = Normal /\
  Forall (hit_poll gx) es /\ 4 <= Zlen es /\ run gx false (map OPoll es) s = Some (s', tr') /\ m_cur s = 100 /\ m_cur s' = 0.
Proof.
  exists binary_ops.
  destruct (run gx false binary_ops (power_up 0 0)) as [r|] eqn:R; [|vm_compute in R; discriminate].
  pose proof (reach_by gx false binary_ops r gx_ok ltac:(vm_compute; reflexivity) R) as RE.
  destruct r as [s tr]. cbn [fst snd] in RE. exists s, tr, (repeat (E 0 false false false (P 0 0 false) [hitp 0 0]) 4).
  vm_compute in R. apply some_pair_inj in R. destruct R as [<- <-].
  eexists _, _. split; [exact RE|]. split; [reflexivity|]. split.
  { cbn [repeat]. repeat (constructor; [split; [cbn; lia|]; split; [reflexivity|]; eexists _, _, _, _; reflexivity|]). constructor. }
  split; [vm_compute; discriminate|]. split; [reflexivity|]. split; reflexivity.
Qed.
