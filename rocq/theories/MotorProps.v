(** C44, C65-C67: the motor driver over all histories. *)
From Verif Require Import Base MotorModel MotorCal.

(** ** Specification *)

(** Full-length motor pulses of a trace: direction (true = opening) and whether an end stop was
    reported. *)
Definition drives (tr : list act) : list (bool * bool) :=
  flat_map (fun a => match a with Run o n h => if 0 <? n then [(o, h)] else [] | _ => [] end) tr.
(** The last [n] pulses were all in direction [o] and reported the end stop. *)
Definition ends_hits (o : bool) (n : Z) (d : list (bool * bool)) : Prop :=
  exists d0, d = d0 ++ repeat (o, true) (Z.to_nat n).
(** The last [n] pulses all reported an end stop (either one). *)
Definition ends_any (n : Z) (d : list (bool * bool)) : Prop :=
  exists d0 d1, d = d0 ++ d1 /\ Zlen d1 = n /\ Forall (fun x => snd x = true) d1.

(** Whether the motor is left powered after a trace. *)
Definition motor_on (tr : list act) : bool :=
  fold_left (fun on a => match a with Run _ _ _ => true | Off => false | Time _ => on end) tr false.

(** Timing monitor for one poll: every full pulse follows a reading of the sub-cycle clock made since
    the previous pulse, below the limit for the first reading of the poll and early enough to fit a
    whole pulse below the limit for the later ones; short wiggle pulses (length 0) are exempt from
    the second requirement. *)
Fixpoint timely (g : cfg) (first : bool) (last : option Z) (tr : list act) : Prop :=
  match tr with
  | [] => True
  | Time t :: tr => timely g false (Some (if first then t else t + g_dr g - 1)) tr
  | Off :: tr => timely g first last tr
  | Run o n h :: tr =>
      (n = 0 \/ exists t, last = Some t /\ t < g_limit g) /\ n <= g_dr g /\
      timely g first (if n =? 0 then last else None) tr
  end.

(** The documented state diagram. *)
Definition edge (prop : bool) (a b : dstate) : Prop :=
  a = b \/
  match a, b with
  | Init, InitWaiting | InitWaiting, PinWithdrawing => True
  | PinWithdrawing, (PinWithdrawn | Error) => True
  | PinWithdrawn, Calibrating => True
  | Calibrating, Normal => True
  | Calibrating, Error | Normal, Calibrating => prop = true
  | _, _ => False
  end.

(** Assumptions on configuration and environment. *)
Definition cfg_ok (g : cfg) : Prop := 0 < g_dr g <= g_limit g /\ g_limit g <= 255.
Definition pulse_ok (p : pulse) : Prop := 0 <= p_close p /\ 0 <= p_open p.
Definition env_ok (e : env) : Prop := pulse_ok (e_wiggle e) /\ Forall (fun x => pulse_ok (fst x)) (e_pulses e).
Definition op_ok (o : op) : Prop :=
  match o with OPoll e => env_ok e | OTarget v => byte v | OFitted => True end.

(** ** Invariants *)

Definition cp_good (dr : Z) (c : calp) : Prop :=
  cal_range c /\ 1 <= c_prec c <= 100 /\
  (cannotRunProportional c = false ->
     c_prec c <= 15 /\ 8 <= c_sotc c <= dr /\ 8 <= c_scto c <= dr /\
     100 * dr < (c_prec c + 1) * c_tfotc c /\ 100 * dr < (c_prec c + 1) * c_tfcto c /\
     c_sotc c * c_tfcto c < (c_scto c + 1) * c_tfotc c /\ c_scto c * c_tfotc c < (c_sotc c + 1) * c_tfcto c).

Record inv (g : cfg) (prop : bool) (s : mst) : Prop := Inv {
  i_cur : 0 <= m_cur s <= 100;
  i_tgt : 0 <= m_tgt s <= 100;
  i_tfo : u16r (m_tfo s); i_rev : u16r (m_rev s);
  i_toc : u16r (m_toc s); i_tco : u16r (m_tco s);
  i_waited : 0 <= m_waited s <= 15;
  i_wall : 0 <= m_wall s <= 120;
  i_calib : 0 <= m_calib s <= 4;
  i_hits : 0 <= m_hits s <= (match m_state s with Calibrating => if m_calib s =? 4 then 5 else 4 | _ => 3 end);
  i_cp : cp_good (g_dr g) (m_cp s);
  i_bin : prop = false -> m_cur s = 0 \/ m_cur s = 100;
  i_recal : m_state s = Calibrating \/ m_state s = Normal \/ m_recal s = true;
  i_nodec : m_state s <> Decalcinating }.

(** What the pulses done so far ([d]) must look like. *)
Record ghost (prop : bool) (s : mst) (d : list (bool * bool)) : Prop := Gh {
  g_pin : m_state s = PinWithdrawing -> ends_hits true (m_hits s) d;
  g_cal : m_state s = Calibrating -> 1 <= m_calib s -> ends_hits (negb (m_calib s =? 2)) (m_hits s) d;
  g_cal4 : m_state s = Calibrating -> m_calib s = 4 -> m_hits s = 5;
  g_norm : m_state s = Normal -> ends_any (m_hits s) d;
  g_fresh : prop = true -> m_recal s = false -> m_cur s = 0 \/ m_cur s = 100 -> ends_any 1 d;
  g_stage : (m_state s = Init \/ m_state s = InitWaiting) -> m_hits s = 0 }.

(** ** Small lemmas *)
Lemma drives_app a b : drives (a ++ b) = drives a ++ drives b.
Proof. apply flat_map_app. Qed.
Lemma ends_hits_0 o d : ends_hits o 0 d.
Proof. exists d. cbn. rewrite app_nil_r. reflexivity. Qed.
Lemma ends_any_0 d : ends_any 0 d.
Proof. exists d, []. rewrite app_nil_r. auto. Qed.
Lemma ends_hits_S o n d : 0 <= n -> ends_hits o n d -> ends_hits o (n + 1) (d ++ [(o, true)]).
Proof.
  intros N (d0 & ->). exists d0. rewrite <- app_assoc. f_equal.
  replace (Z.to_nat (n + 1)) with (S (Z.to_nat n)) by lia. rewrite <- repeat_cons. reflexivity.
Qed.
Lemma ends_any_S o n d : ends_any n d -> ends_any (n + 1) (d ++ [(o, true)]).
Proof.
  intros (d0 & d1 & -> & L & F). exists d0, (d1 ++ [(o, true)]). rewrite <- app_assoc.
  split; [reflexivity|]. split; [rewrite Zlen_app, L; reflexivity|].
  apply Forall_app. split; [exact F|]. constructor; auto.
Qed.
Lemma ends_hits_any o n d : 0 <= n -> ends_hits o n d -> ends_any n d.
Proof.
  intros N (d0 & ->). exists d0, (repeat (o, true) (Z.to_nat n)). split; [reflexivity|].
  split; [rewrite Zlen_repeat; lia|]. apply Forall_forall. intros x H. apply repeat_spec in H. subst. reflexivity.
Qed.
Lemma ends_any_le n m d : 0 <= m <= n -> ends_any n d -> ends_any m d.
Proof.
  intros H (d0 & d1 & -> & L & F).
  assert (exists l1 l2, d1 = l1 ++ l2 /\ Zlen l2 = m) as (l1 & l2 & -> & L2).
  { exists (firstn (Z.to_nat (n - m)) d1), (skipn (Z.to_nat (n - m)) d1).
    rewrite firstn_skipn. split; [reflexivity|]. rewrite Zlen_skipn, L. lia. }
  exists (d0 ++ l1), l2. rewrite <- app_assoc. split; [reflexivity|]. split; [exact L2|].
  apply Forall_app in F. apply F.
Qed.

Lemma sat_add_u16 a n : u16r a -> 0 <= n -> u16r (sat_add a n).
Proof. unfold u16r, sat_add. lia. Qed.

Lemma tick_eq prop p s : exists a b, tick prop p s = set_ticks s a b /\
  (pulse_ok p -> u16r (m_tfo s) -> u16r (m_rev s) -> u16r a /\ u16r b).
Proof.
  unfold tick. destruct prop.
  - eexists _, _. split; [reflexivity|]. intros [P1 P2] T R. split; apply sat_add_u16; assumption.
  - exists (m_tfo s), (m_rev s). split; [destruct s; reflexivity|]. auto.
Qed.

(** ** The pulse loop *)
Lemma pulses_spec g prop o need : cfg_ok g -> 1 <= need <= 5 -> forall ps s s' conf tr,
  Forall (fun x => pulse_ok (fst x)) ps -> 0 <= m_hits s < need -> u16r (m_tfo s) -> u16r (m_rev s) ->
  pulses g prop o need ps s = Some (s', conf, tr) ->
  exists a b h, s' = set_hits (set_ticks s a b) h /\ u16r a /\ u16r b /\
    (if conf then h = need else 0 <= h < need) /\
    motor_on tr = false /\
    (forall last, (exists t, last = Some t /\ t < g_limit g) -> timely g false last tr) /\
    (forall d, ends_hits o (m_hits s) d -> ends_hits o h (d ++ drives tr)) /\
    (forall x, In x (drives tr) -> fst x = o).
Proof.
  intros G N. induction ps as [|[p t] ps IH]; intros s s' conf tr F H T R E; [discriminate|].
  apply Forall_cons_iff in F. destruct F as [FP F]. cbn [fst] in FP.
  cbn [pulses] in E. unfold runTowardsEndStop in E.
  destruct (tick_eq prop p s) as (a & b & TE & TU). destruct (TU FP T R) as [UA UB]. rewrite TE in E.
  change (m_hits (set_ticks s a b)) with (m_hits s) in E.
  rewrite (u8_id (m_hits s + 1)) in E by (unfold byte; lia).
  assert (LD : limitDR g = g_limit g - g_dr g).
  { unfold limitDR. apply u8_id. unfold byte, cfg_ok in *. lia. }
  assert (DR : drives [Run o (g_dr g) (p_hit p); Off] = [(o, p_hit p)]).
  { unfold drives. cbn [flat_map]. replace (0 <? g_dr g) with true by (unfold cfg_ok in G; lia). reflexivity. }
  destruct (negb (p_hit p) || negb (m_hits s + 1 >=? need)) eqn:C.
  - set (h1 := if p_hit p then m_hits s + 1 else 0) in E.
    assert (H1 : 0 <= h1 < need) by (unfold h1; destruct (p_hit p); cbn [negb orb] in C; lia).
    assert (D1 : forall d, ends_hits o (m_hits s) d -> ends_hits o h1 (d ++ [(o, p_hit p)])).
    { intros d HD. unfold h1. destruct (p_hit p).
      - apply ends_hits_S; [lia|exact HD].
      - apply ends_hits_0. }
    destruct (t <=? limitDR g) eqn:TL.
    + destruct (pulses g prop o need ps (set_hits (set_ticks s a b) h1)) as [[[s2 c2] tr2]|] eqn:E2; [|discriminate].
      cbn [bind] in E. apply some_pair_inj in E. destruct E as [E <-]. apply pair_inj in E. destruct E as [<- <-].
      destruct (IH (set_hits (set_ticks s a b) h1) s2 c2 tr2 F H1 UA UB E2) as (a2 & b2 & h2 & -> & UA2 & UB2 & HC & MO & TI & GD & DI).
      exists a2, b2, h2. split; [reflexivity|]. split; [exact UA2|]. split; [exact UB2|]. split; [exact HC|]. split.
      { unfold motor_on in *. cbn [app fold_left]. exact MO. }
      split.
      { intros last HL. cbn [app timely]. split; [right; exact HL|]. split; [lia|].
        apply TI. eexists. split; [reflexivity|]. lia. }
      split.
      { intros d HD. rewrite !drives_app, DR. change (drives [Time t]) with (@nil (bool * bool)). cbn [app].
        replace (d ++ (o, p_hit p) :: drives tr2) with ((d ++ [(o, p_hit p)]) ++ drives tr2)
          by (rewrite <- app_assoc; reflexivity).
        apply GD. apply D1. exact HD. }
      { intros x HX. rewrite drives_app, DR in HX. apply in_app_or in HX. destruct HX as [[<- |[]] | HX]; [reflexivity|].
        apply DI. rewrite drives_app in HX. apply in_app_or in HX. destruct HX as [[] | HX]. exact HX. }
    + apply some_pair_inj in E. destruct E as [E <-]. apply pair_inj in E. destruct E as [<- <-].
      exists a, b, h1. split; [reflexivity|]. split; [exact UA|]. split; [exact UB|]. split; [exact H1|]. split; [reflexivity|].
      split.
      { intros last HL. cbn [app timely]. split; [right; exact HL|]. split; [lia|]. exact I. }
      split.
      { intros d HD. rewrite drives_app, DR. change (drives [Time t]) with (@nil (bool * bool)). rewrite app_nil_r. auto. }
      { intros x HX. rewrite drives_app, DR in HX. apply in_app_or in HX. destruct HX as [[<- |[]] | []]. reflexivity. }
  - apply some_pair_inj in E. destruct E as [E <-]. apply pair_inj in E. destruct E as [<- <-].
    assert (PH : p_hit p = true) by (destruct (p_hit p); [reflexivity|discriminate]).
    exists a, b, (m_hits s + 1). split; [reflexivity|]. split; [exact UA|]. split; [exact UB|].
    split; [rewrite PH in C; cbn in C; lia|]. split; [reflexivity|]. split.
    { intros last HL. cbn [timely]. split; [right; exact HL|]. split; [lia|]. exact I. }
    split.
    { intros d HD. rewrite DR, PH. apply ends_hits_S; [lia|exact HD]. }
    { intros x HX. rewrite DR in HX. destruct HX as [<- |[]]. reflexivity. }
Qed.

(** A poll returns as soon as the environment covers it. *)
Lemma pulses_returns g prop o need ps : forall s,
  Exists (fun x => limitDR g < snd x) ps -> exists r, pulses g prop o need ps s = Some r.
Proof.
  induction ps as [|[p t] ps IH]; intros s H; [inversion H|].
  cbn [pulses]. unfold runTowardsEndStop.
  destruct (negb (p_hit p) || negb (u8 (m_hits (tick prop p s) + 1) >=? need)).
  - destruct (t <=? limitDR g) eqn:T.
    + apply Exists_cons in H. destruct H as [H | H]; [cbn in H; lia|].
      destruct (IH (set_hits (tick prop p s) (if p_hit p then u8 (m_hits (tick prop p s) + 1) else 0)) H) as [[[s' c] tr] ->].
      cbn [bind]. eauto.
    + eauto.
  - eauto.
Qed.

(** ** One poll *)

(** Everything established about one step, from a state satisfying the invariants. *)
Record ok_step (g : cfg) (prop : bool) (s : mst) (s' : mst) (tr : list act) : Prop := OkS {
  o_inv : inv g prop s';
  o_edge : edge prop (m_state s) (m_state s');
  o_tgt : m_tgt s' = m_tgt s;
  o_off : motor_on tr = false;
  o_time : forall last, (exists t, last = Some t /\ t < g_limit g) -> timely g false last tr;
  o_ghost : forall d, ghost prop s d -> ghost prop s' (d ++ drives tr);
  o_end : forall d, ghost prop s d -> m_cur s' <> m_cur s -> m_cur s' = 0 \/ m_cur s' = 100 ->
     exists d3, ends_any 3 d3 /\ d ++ drives tr = d3 ++ [(m_cur s' =? 100, true)] }.

Ltac inv_tac := constructor; cbn; unfold u16r in *; try lia; try assumption; auto; try discriminate.

Lemma wiggle_ok g prop p s (st : dstate) : cfg_ok g -> pulse_ok p -> inv g prop s ->
  (st = InitWaiting \/ st = PinWithdrawing \/ st = Calibrating) -> m_recal s = true ->
  edge prop (m_state s) st ->
  ok_step g prop s (set_state (fst (wiggle prop p s)) st) (snd (wiggle prop p s)).
Proof.
  intros G P I ST RC ED. unfold wiggle. cbn [fst snd].
  destruct (tick_eq prop p s) as (a & b & -> & TU). destruct I.
  destruct (TU P i_tfo0 i_rev0) as [UA UB].
  constructor.
  - inv_tac; destruct ST as [-> | [-> | ->]]; cbn; lia || discriminate.
  - exact ED.
  - reflexivity.
  - reflexivity.
  - intros last _. cbn. repeat split; auto; unfold cfg_ok in G; lia.
  - intros d GH. change (drives _) with (@nil (bool * bool)). rewrite app_nil_r. destruct GH. constructor; cbn; auto.
    + intros _. apply ends_hits_0.
    + intros; lia.
    + intros; lia.
    + intros _. apply ends_any_0.
  - intros d GH CH. cbn in CH. lia.
Qed.

Lemma noop_ghost prop s s' d : ghost prop s d ->
  m_state s' = m_state s -> (m_hits s' = m_hits s \/ m_hits s' = 0 /\ (m_state s = Calibrating -> m_calib s <> 4)) ->
  m_calib s' = m_calib s -> m_cur s' = m_cur s -> m_recal s' = m_recal s -> ghost prop s' d.
Proof.
  intros [A B B4 C D S] ES EH EC EU ER. constructor.
  - rewrite ES. intros X. destruct EH as [-> | [-> _]]; [auto|apply ends_hits_0].
  - rewrite ES, EC. intros X Y. destruct EH as [-> | [-> _]]; [auto|apply ends_hits_0].
  - rewrite ES, EC. intros X Y. destruct EH as [-> | [_ N]]; [auto|]. exfalso. exact (N X Y).
  - rewrite ES. intros X. destruct EH as [-> | [-> _]]; [auto|apply ends_any_0].
  - rewrite EU, ER. auto.
  - rewrite ES. intros X. destruct EH as [-> | [-> _]]; auto.
Qed.

(** Transitions without motor activity. *)
Lemma quiet_ok g prop s s' : inv g prop s' -> edge prop (m_state s) (m_state s') -> m_tgt s' = m_tgt s ->
  m_cur s' = m_cur s -> (forall d, ghost prop s d -> ghost prop s' d) -> ok_step g prop s s' [].
Proof.
  intros I E T C G. constructor; auto.
  - intros; exact Logic.I.
  - intros d H. rewrite app_nil_r. auto.
  - intros d _ X. congruence.
Qed.

Lemma recompute_ok g prop s : inv g prop s ->
  exists s', recompute prop s = Some s' /\
    m_state s' = m_state s /\ m_waited s' = m_waited s /\ m_wall s' = m_wall s /\ m_hits s' = m_hits s /\
    m_calib s' = m_calib s /\ m_toc s' = m_toc s /\ m_tco s' = m_tco s /\ m_tgt s' = m_tgt s /\
    m_cp s' = m_cp s /\ m_recal s' = m_recal s /\ u16r (m_tfo s') /\ u16r (m_rev s') /\
    ((prop && negb (m_recal s) = false /\ m_cur s' = m_cur s) \/
     (prop && negb (m_recal s) = true /\ 1 <= m_cur s' <= 99)).
Proof.
  intros I. destruct I. unfold recompute. destruct (prop && negb (m_recal s)) eqn:E.
  - destruct i_cp0 as (CR & _).
    destruct (motor_position _ _ _ CR i_tfo0 i_rev0) as (r & pc & -> & N & R & B & _). cbn [bind].
    eexists. split; [reflexivity|]. cbn. repeat (split; [reflexivity|]). split; [exact N|]. split; [exact R|].
    right. split; [reflexivity|]. destruct (pc <? 1) eqn:?; [lia|]. destruct (pc >? 99) eqn:?; lia.
  - exists s. split; [reflexivity|]. repeat (split; [reflexivity|]). split; [assumption|]. split; [assumption|]. left. auto.
Qed.
