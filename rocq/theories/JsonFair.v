(** C69: rotation — no statistic of normal priority starves. *)
From Verif Require Import Base JsonModel JsonBuf JsonSpec JsonWrite JsonMain JsonThm JsonMap.

(** ** Specification *)

(** The message a call leaves in the buffer. *)
Definition message (x : rot * list Z * Z) : list Z := let '(_, buf, n) := x in firstn (Z.to_nat n) buf.

(** Run a history and collect the messages of the successful writes. *)
Fixpoint run_log (sys : option (Z * Z)) (os : list op) (r : rot) : option (rot * list (list Z)) :=
  match os with
  | [] => Some (r, [])
  | OWrite mx sp buf bs :: os =>
      do x <- writeJSON sys mx sp buf bs r ;
      do (r2, log) <- run_log sys os (fst (fst x)) ;
      Some (r2, if snd x =? 0 then log else message x :: log)
  | o :: os => do r <- step sys o r ; run_log sys os r
  end.

(** The message includes the statistic named k. *)
Definition includes (k : list Z) (msg : list Z) : Prop :=
  exists ms1 ms2 v, -32768 <= v < 32768 /\ msg = json_object (ms1 ++ member k (dec v) :: ms2).

(** While time passes: new values for statistics already there, and messages into buffers with room
    for the leading members and any one statistic. *)
Definition lead_len (sys : option (Z * Z)) (r : rot) : Z := Zlen (json_object (lead_members sys r)).
Definition busy_op (sys : option (Z * Z)) (r : rot) (o : op) : Prop :=
  match o with
  | OPut (Some k) v _ => In k (map s_key (r_stats r)) /\ -32768 <= v < 32768
  | OWrite _ _ buf bs => byte bs /\ bs <= Zlen buf /\ 10 <= bs /\
       forall k, In k (map s_key (r_stats r)) -> lead_len sys r + 1 + (Zlen k + 9) + 2 <= bs
  | _ => False
  end.
Definition writes (os : list op) : Z := Zlen (filter (fun o => match o with OWrite _ _ _ _ => true | _ => false end) os).

(** ** Proof *)

(** Steps until the rotation reaches a slot. *)
Definition dist (N last i : Z) : Z := if last <? N then (i - last - 1) mod N else i.

Lemma vis_split N n : forall x ps1 ps2, 1 <= N <= 255 -> vis N x n = ps1 ++ ps2 -> ps1 <> [] ->
  ps2 = vis N (last ps1 x) (length ps2).
Proof.
  induction n as [|n IH]; intros x ps1 ps2 H E NE; cbn [vis] in E.
  - destruct ps1; [congruence|discriminate].
  - destruct ps1 as [|p ps1]; [congruence|]. cbn [app] in E. injection E as E1 E2. rewrite last_cons. destruct ps1 as [|q ps1].
    + cbn [app last] in *. rewrite <- E2. subst p.
      assert (length (vis N (wrap N x) n) = n) by (clear; generalize (wrap N x); induction n as [|n IH]; intros; cbn; auto).
      congruence.
    + rewrite <- E1. apply IH; [exact H|exact E2|discriminate].
Qed.
Lemma vis_len N n : forall x, length (vis N x n) = n.
Proof. induction n as [|n IH]; intros; cbn; auto. Qed.
Lemma last_in {A} (l : list A) d : l <> [] -> In (last l d) l.
Proof. intros H. destruct (exists_last H) as (l' & y & ->). rewrite last_last. apply in_or_app. right. left. reflexivity. Qed.

Lemma dist_range N x i : 1 <= N <= 255 -> 0 <= i < N -> 0 <= dist N x i < N.
Proof. intros H I. unfold dist. destruct (x <? N); [apply Z.mod_pos_bound; lia|lia]. Qed.
(** Position in the round. *)
Lemma dist_vis N n : forall x i, 1 <= N <= 255 -> byte x -> 0 <= i < N -> (In i (vis N x n) <-> dist N x i < Z.of_nat n).
Proof.
  intros x i H X I. destruct (Z_lt_le_dec x N) as [L | L].
  - unfold byte in X. rewrite vis_in by lia. unfold dist. replace (x <? N) with true by lia. split.
    + intros (k & K & ->). destruct (Z_lt_le_dec k N) as [KN | KN].
      * replace (((x + k) mod N - x - 1) mod N) with (k - 1); [lia|].
        rewrite <- (Z.mod_small (k - 1) N) at 1 by lia. replace ((x + k) mod N - x - 1) with ((x + k) mod N - (x + 1)) by ring.
        rewrite Zminus_mod_idemp_l. f_equal. ring.
      * pose proof (Z.mod_pos_bound ((x + k) mod N - x - 1) N ltac:(lia)). lia.
    + intros D. exists ((i - x - 1) mod N + 1). pose proof (Z.mod_pos_bound (i - x - 1) N ltac:(lia)). split; [lia|].
      replace (x + ((i - x - 1) mod N + 1)) with ((x + 1) + (i - x - 1) mod N) by ring. rewrite Zplus_mod_idemp_r.
      replace (x + 1 + (i - x - 1)) with i by ring. symmetry. apply Z.mod_small. lia.
  - destruct n as [|n]; [cbn; split; [intros []|]; unfold dist; replace (x <? N) with false by lia; lia|].
    cbn [vis]. assert (W : wrap N x = 0).
    { unfold wrap. unfold byte in X. destruct (Z.eq_dec x 255) as [-> |]; [change (u8 (255 + 1)) with 0; replace (0 >=? N) with false by lia; reflexivity|].
      rewrite u8_id by (unfold byte; lia). replace (x + 1 >=? N) with true by lia. reflexivity. }
    rewrite W. cbn [In]. rewrite vis_in by lia. unfold dist. replace (x <? N) with false by lia. split.
    + intros [<- | (k & K & ->)]; [lia|]. cbn [Z.add]. pose proof (Z.mod_le k N ltac:(lia) ltac:(lia)). lia.
    + intros D. destruct (Z.eq_dec i 0); [auto|]. right. exists i. split; [lia|]. rewrite Z.add_0_l. symmetry. apply Z.mod_small. lia.
Qed.
Lemma dist_step N x ps1 ps2 i : 1 <= N <= 255 -> byte x -> 0 <= i < N -> vis N x (Z.to_nat N) = ps1 ++ ps2 -> ~ In i ps1 ->
  dist N (last ps1 x) i = dist N x i - Z.of_nat (length ps1).
Proof.
  intros H X I E NI. destruct ps1 as [|p ps1']; [cbn; lia|]. remember (p :: ps1') as ps1 eqn:P1.
  assert (NE : ps1 <> []) by (subst; discriminate).
  pose proof (vis_split _ _ _ _ _ H E NE) as V2.
  assert (LI : 0 <= last ps1 x < N). { eapply vis_range; [exact H|]. rewrite E. apply in_or_app. left. apply last_in. exact NE. }
  (* compare positions by counting: i is in a prefix of length m of the first list iff in a prefix of length m - len ps1 of the second *)
  assert (PRE : forall m, (In i (vis N x (length ps1 + m)) <-> In i (vis N (last ps1 x) m))).
  { assert (VA : forall a b y, vis N y (a + b) = vis N y a ++ vis N (last (vis N y a) y) b).
    { induction a as [|a IHa]; intros b y; [reflexivity|]. cbn [Nat.add vis app]. f_equal. rewrite IHa. f_equal. rewrite last_cons. reflexivity. }
    assert (P1V : vis N x (length ps1) = ps1).
    { assert (LE : (length ps1 <= Z.to_nat N)%nat) by (rewrite <- (vis_len N (Z.to_nat N) x), E, app_length; lia).
      replace (Z.to_nat N) with (length ps1 + (Z.to_nat N - length ps1))%nat in E by lia. rewrite VA in E.
      assert (G : forall (a b c d : list Z), length a = length c -> a ++ b = c ++ d -> a = c).
      { clear. induction a as [|z a IH]; intros b [|y c] d L Q; try discriminate; [reflexivity|]. cbn [app] in Q. injection Q as -> Q. f_equal. eapply IH; [|exact Q]. cbn in L. lia. }
      eapply G; [|exact E]. apply vis_len. }
    intros m. rewrite VA, P1V, in_app_iff. tauto. }
  pose proof (dist_range N x i H I) as D1. pose proof (dist_range N (last ps1 x) i H I) as D2.
  assert (ND1 : ~ (dist N x i < Z.of_nat (length ps1))).
  { rewrite <- dist_vis by assumption. specialize (PRE 0%nat). rewrite Nat.add_0_r in PRE. rewrite PRE. cbn. tauto. }
  assert (LB : byte (last ps1 x)) by (unfold byte; lia).
  assert (K : forall m, dist N x i < Z.of_nat (length ps1 + m) <-> dist N (last ps1 x) i < Z.of_nat m).
  { intros m. rewrite <- !dist_vis by assumption. apply PRE. }
  pose proof (K (Z.to_nat (dist N (last ps1 x) i + 1))) as K1. pose proof (K (Z.to_nat (dist N (last ps1 x) i))) as K2.
  lia.
Qed.

(** Slots of the rotation as the writer left it. *)
Definition shape_of (r : rot) := (map (fun s => (s_key s, s_low s)) (r_stats r), r_id r, r_en r).

Lemma lead_len_shape sys r r' : r_id r = r_id r' -> r_en r = r_en r' -> 0 <= r_cnt r < 8 -> 0 <= r_cnt r' < 8 -> lead_len sys r = lead_len sys r'.
Proof.
  intros A B C D. unfold lead_len, lead_members. rewrite A, B. rewrite !dec_small by lia.
  destruct (has_id (r_id r')), (r_en r'); cbn [app]; unfold json_object, member, quoted; cbn [join app]; repeat (rewrite ?Zlen_app, ?Zlen_cons); reflexivity.
Qed.

Definition wait (N : Z) (r : rot) (i : Z) : Z := 4 * dist N (r_last r) i + (- r_cnt r) mod 4.

Lemma write_step sys mx sp buf bs r i : ok r -> busy_op sys r (OWrite mx sp buf bs) -> 0 <= i < Zlen (r_stats r) ->
  s_low (stat_at (r_stats r) i) = false ->
  exists r' buf' n, writeJSON sys mx sp buf bs r = Some (r', buf', n) /\ n <> 0 /\ ok r' /\ shape_of r' = shape_of r /\
    (includes (s_key (stat_at (r_stats r) i)) (firstn (Z.to_nat n) buf') \/ wait (Zlen (r_stats r)) r' i < wait (Zlen (r_stats r)) r i).
Proof.
  intros OK (BB & LB & B10 & ROOM) I LOW.
  destruct (write_general sys mx sp buf bs r OK BB LB) as (r' & buf' & n & E & L & S & RF & WR).
  exists r', buf', n. split; [exact E|].
  assert (JL : lead_len sys r = 2 + Zlen (join (lead_members sys r))).
  { unfold lead_len, json_object. rewrite Zlen_cons, Zlen_app, Zlen_cons. change (Zlen (@nil Z)) with 0. lia. }
  pose proof (ok_vals _ OK) as VALS. rewrite Forall_forall in VALS.
  assert (FIT : forall j, 0 <= j < Zlen (r_stats r) -> ~ nofit (bs - 3) (123 :: join (lead_members sys r)) (stat_at (r_stats r) j)).
  { intros j J. pose proof (stat_at_in _ _ J) as IN. specialize (ROOM _ (in_map s_key _ _ IN)). unfold nofit. rewrite Zlen_cons.
    pose proof (stat_member_len _ (VALS _ IN)). lia. }
  assert (R1 : 1 + Zlen (join (lead_members sys r)) <= bs - 3).
  { pose proof (stat_at_in _ _ I) as IN. specialize (ROOM _ (in_map s_key _ _ IN)). pose proof (Zlen_nonneg (s_key (stat_at (r_stats r) i))). lia. }
  destruct (WR B10 R1) as (i1 & i2 & i3 & pre & W). cbv zeta in W. clear WR RF.
  destruct W as (W1 & W2 & W3 & W4 & W5 & W6 & W7 & W8 & W9 & W10 & W11 & W12 & W13 & W14). clear W14.
  assert (FA : fit_alone (bs - 3) (r_stats r)).
  { intros j J. specialize (FIT j J). unfold nofit in FIT. rewrite Zlen_cons in FIT. pose proof (Zlen_nonneg (join (lead_members sys r))). lia. }
  rewrite (W12 (or_intror FA)) in W2. cbn [app] in W2.
  split; [lia|].
  destruct (write_keeps sys mx sp buf bs r OK BB LB) as (r3 & b3 & n3 & E3 & OK' & KEEP & _).
  rewrite E in E3. apply some_inj in E3. apply pair_inj in E3. destruct E3 as [E3 _]. apply pair_inj in E3. destruct E3 as [<- _].
  split; [exact OK'|]. split.
  { unfold shape_of. rewrite W9, W10. do 2 f_equal. apply (f_equal (map (fun x => (fst (fst x), snd x)))) in KEEP. rewrite !map_map in KEEP. exact KEEP. }
  assert (SENT : In i (i1 ++ i2) -> includes (s_key (stat_at (r_stats r) i)) (firstn (Z.to_nat n) buf')).
  { intros IN. assert (IN' : In i (i1 ++ i2 ++ i3)) by (rewrite app_assoc; apply in_or_app; left; exact IN).
    apply in_split in IN'. destruct IN' as (l1 & l2 & EI).
    exists (lead_members sys r ++ sent_members r l1), (sent_members r l2), (s_val (stat_at (r_stats r) i)).
    split; [apply VALS; apply stat_at_in; exact I|]. rewrite W2, EI. unfold json_object, sent_members. rewrite map_app. cbn [map].
    rewrite <- app_assoc. reflexivity. }
  assert (NE : r_stats r <> []). { intros X. rewrite X in I. change (Zlen (@nil stat)) with 0 in I. lia. }
  destruct (W13 NE) as (a2 & a3 & LS & RS & LC & P). clear W13.
  set (N := Zlen (r_stats r)) in *. pose proof (ok_cap _ OK) as [C1 C2]. fold N in C1. assert (NB : 1 <= N <= 255) by lia.
  pose proof (ok_last _ OK) as LA.
  destruct (p_prefix _ _ _ _ _ _ _ _ _ _ _ P) as (ps1 & ps2 & EP & LP & IC & AL).
  assert (RD : round r = vis N (r_last r) (Z.to_nat N)) by (unfold round; fold N; f_equal; unfold N, Zlen; lia).
  rewrite RD in EP.
  destruct (in_dec Z.eq_dec i ps1) as [IN | NI].
  { left. apply SENT. destruct (AL i IN) as [H | [(_ & H & _) | (_ & _ & H)]]; [exact H|congruence|]. exfalso. exact (FIT i I H). }
  right. pose proof (dist_step N (r_last r) ps1 ps2 i NB LA I EP NI) as DS. rewrite LP, <- LS in DS.
  unfold wait. rewrite DS, W7. pose proof (ok_cnt _ OK) as CN.
  assert (MOD : (- ((r_cnt r + 1) mod 8)) mod 4 = (- (r_cnt r + 1)) mod 4) by (clear; Z.div_mod_to_equations; lia).
  rewrite MOD. destruct (Z.eq_dec (r_cnt r mod 4) 0) as [Z0 | Z0].
  - assert (PS1 : (1 <= length ps1)%nat).
    { assert (FI : is_first r = false).
      { unfold is_first. change 3 with (Z.ones 2). rewrite Z.land_ones by lia. change (2 ^ 2) with 4. rewrite Z0. reflexivity. }
      destruct (vis N (r_last r) (Z.to_nat N)) as [|p ps] eqn:EV.
      { exfalso. assert (length (vis N (r_last r) (Z.to_nat N)) = Z.to_nat N) by apply vis_len. rewrite EV in H. cbn in H. lia. }

      destruct (p_adv _ _ _ _ _ _ _ _ _ _ _ P p ps RD FI) as (q & EQ).
      { apply FIT. apply (vis_range N (Z.to_nat N) (r_last r)); [exact NB|]. rewrite EV. left. reflexivity. }
      specialize (IC p). rewrite EQ in IC. specialize (IC (or_introl eq_refl)). destruct ps1; [destruct IC|cbn; lia]. }
    clear - PS1 Z0 CN. Z.div_mod_to_equations. lia.
  - clear - Z0 CN. Z.div_mod_to_equations. lia.
Qed.

Lemma put_step sys r k v low : ok r -> busy_op sys r (OPut (Some k) v low) ->
  let r' := fst (put (Some k) v low r) in
  ok r' /\ shape_of r' = shape_of r /\ r_last r' = r_last r /\ r_cnt r' = r_cnt r.
Proof.
  intros OK [IN V]. cbv zeta. pose proof OK as [K _ _ _ _ _ _].
  assert (PK : plain k). { rewrite Forall_forall in K. apply in_map_iff in IN. destruct IN as (s & <- & IN). apply K. exact IN. }
  assert (BK : Forall byte k). { unfold plain in PK. eapply Forall_impl; [|exact PK]. intros c C. unfold byte. cbn beta in C. lia. }
  pose proof (json_put (Some k) v low r OK V BK) as P. destruct (put (Some k) v low r) as [r' b] eqn:E. cbn [fst].
  split; [apply P|].
  unfold put in E. assert (VK : validKey (Some k) = true) by (apply json_valid_key; assumption). rewrite VK in E. cbn [negb] in E.
  destruct (findByKey k (r_stats r)) as [i|] eqn:F; [|apply find_none in F; contradiction].
  destruct (find_some _ _ _ F) as (l & s & l' & ST & LI & SK & NI). subst i. apply pair_inj in E. destruct E as [<- _].
  unfold shape_of. cbn [r_stats set_stats r_id r_en r_last r_cnt]. split; [|auto]. do 2 f_equal.
  rewrite ST, update_split, !map_app. cbn [map]. do 2 f_equal. destruct (s_val s =? v); reflexivity.
Qed.

Lemma shape_stat r r' i : shape_of r' = shape_of r -> Zlen (r_stats r') = Zlen (r_stats r) /\
  s_key (stat_at (r_stats r') i) = s_key (stat_at (r_stats r) i) /\ s_low (stat_at (r_stats r') i) = s_low (stat_at (r_stats r) i) /\
  map s_key (r_stats r') = map s_key (r_stats r) /\ r_id r' = r_id r /\ r_en r' = r_en r.
Proof.
  unfold shape_of. intros E. apply pair_inj in E. destruct E as [E EN]. apply pair_inj in E. destruct E as [E ID].
  assert (LN : length (r_stats r') = length (r_stats r)) by (apply (f_equal (@length _)) in E; rewrite !map_length in E; exact E).
  assert (X : (s_key (stat_at (r_stats r') i), s_low (stat_at (r_stats r') i)) = (s_key (stat_at (r_stats r) i), s_low (stat_at (r_stats r) i))).
  { unfold stat_at. set (f := fun s => (s_key s, s_low s)) in *.
    change (f (nth (Z.to_nat i) (r_stats r') st0) = f (nth (Z.to_nat i) (r_stats r) st0)).
    rewrite <- !(map_nth f). rewrite E. reflexivity. }
  apply pair_inj in X. destruct X as [X1 X2]. split; [unfold Zlen; lia|]. split; [exact X1|]. split; [exact X2|]. split; [|auto].
  apply (f_equal (map fst)) in E. rewrite !map_map in E. exact E.
Qed.

Lemma busy_shape sys r r' o : ok r -> ok r' -> shape_of r' = shape_of r -> busy_op sys r o -> busy_op sys r' o.
Proof.
  intros OK OK' SH H. destruct (shape_stat r r' 0 SH) as (_ & _ & _ & MK & ID & EN).
  destruct o; cbn [busy_op] in *; try exact H; rewrite ?MK; [exact H|].
  destruct H as (A & B & C & D). split; [exact A|]. split; [exact B|]. split; [exact C|]. intros k K.
  rewrite (lead_len_shape sys r' r) by (auto; apply ok_cnt; assumption). apply D. exact K.
Qed.

(** C69 *)
Theorem json_rotation_fair_partial sys os r i :
  ok r -> Forall (busy_op sys r) os ->
  0 <= i < Zlen (r_stats r) -> s_low (stat_at (r_stats r) i) = false ->
  4 * Zlen (r_stats r) <= writes os ->
  exists r' log, run_log sys os r = Some (r', log) /\ Zlen log = writes os /\
    exists msg, In msg log /\ includes (s_key (stat_at (r_stats r) i)) msg.
Proof.
  intros OK BO I LOW WR.
  assert (N1 : 1 <= Zlen (r_stats r) <= 255) by (destruct (ok_cap _ OK); lia).
  assert (G : forall os r, ok r -> Forall (busy_op sys r) os -> 0 <= i < Zlen (r_stats r) -> s_low (stat_at (r_stats r) i) = false ->
    exists r' log, run_log sys os r = Some (r', log) /\ Zlen log = writes os /\
      ((exists msg, In msg log /\ includes (s_key (stat_at (r_stats r) i)) msg) \/ 0 <= wait (Zlen (r_stats r)) r' i <= wait (Zlen (r_stats r)) r i - writes os)).
  { clear os r OK BO I LOW WR N1. induction os as [|o os IH]; intros r OK BO I LOW.
    - exists r, []. split; [reflexivity|]. split; [reflexivity|]. right. unfold writes. cbn [filter]. change (Zlen (@nil op)) with 0.
      assert (N1 : 1 <= Zlen (r_stats r) <= 255) by (destruct (ok_cap _ OK); lia).
      unfold wait. pose proof (dist_range _ (r_last r) i N1 I). pose proof (Z.mod_pos_bound (- r_cnt r) 4 ltac:(lia)). lia.
    - inversion BO as [|? ? HO HOS]; subst. 
      assert (NEXT : forall r1, ok r1 -> shape_of r1 = shape_of r -> exists r' log, run_log sys os r1 = Some (r', log) /\ Zlen log = writes os /\
        ((exists msg, In msg log /\ includes (s_key (stat_at (r_stats r) i)) msg) \/ 0 <= wait (Zlen (r_stats r)) r' i <= wait (Zlen (r_stats r)) r1 i - writes os)).
      { intros r1 OK1 SH1. destruct (shape_stat r r1 i SH1) as (A & B & C & _).
        destruct (IH r1 OK1) as (r' & log & RL & LL & X).
        { eapply Forall_impl; [|exact HOS]. intros o' H. eapply busy_shape; [exact OK|exact OK1|exact SH1|exact H]. }
        { lia. }
        { congruence. }
        rewrite A, B in X. exists r', log. auto. }
      destruct o as [k v low | k low | k | k | e | mx sp buf bs]; try (destruct HO; fail).
      + destruct k as [k|]; [|destruct HO]. destruct (put_step sys r k v low OK HO) as (OK1 & SH1 & LA1 & CN1).
        cbn [run_log step bind]. destruct (NEXT _ OK1 SH1) as (r' & log & RL & LL & X). exists r', log. split; [exact RL|].
        split; [exact LL|]. destruct X as [X | X]; [left; exact X|right].
        assert (WW : wait (Zlen (r_stats r)) (fst (put (Some k) v low r)) i = wait (Zlen (r_stats r)) r i) by (unfold wait; rewrite LA1, CN1; reflexivity).
        rewrite WW in X. exact X.
      + destruct (write_step sys mx sp buf bs r i OK HO I LOW) as (r1 & b1 & n1 & E & NZ & OK1 & SH1 & X1).
        cbn [run_log]. rewrite E. cbn [bind fst snd]. destruct (NEXT _ OK1 SH1) as (r' & log & RL & LL & X). rewrite RL. cbn [bind].
        replace (n1 =? 0) with false by lia. cbn [message]. exists r', (firstn (Z.to_nat n1) b1 :: log). split; [reflexivity|].
        unfold writes in *. cbn [filter]. rewrite !Zlen_cons. split; [lia|].
        destruct X1 as [X1 | X1]; [left; eexists; split; [left; reflexivity|exact X1]|].
        destruct X as [(msg & M1 & M2) | X]; [left; exists msg; split; [right; exact M1|exact M2]|right]. lia. }
  destruct (G os r OK BO I LOW) as (r' & log & RL & LL & X). exists r', log. split; [exact RL|]. split; [exact LL|].
  destruct X as [X | X]; [exact X|]. exfalso.
  assert (WW : wait (Zlen (r_stats r)) r i = 4 * dist (Zlen (r_stats r)) (r_last r) i + (- r_cnt r) mod 4) by reflexivity. rewrite WW in X.
  pose proof (dist_range _ (r_last r) i N1 I). pose proof (Z.mod_pos_bound (- r_cnt r) 4 ltac:(lia)). lia.
Qed.

(** On three of four messages, if a statistic other than the first one put has changed, the first
    statistic in the message is one that changed. *)
Theorem json_changed_goes_first sys mx sp buf bs r j : ok r -> busy_op sys r (OWrite mx sp buf bs) ->
  r_cnt r mod 4 <> 0 -> 1 <= j < Zlen (r_stats r) -> s_chg (stat_at (r_stats r) j) = true ->
  exists r' buf' n i rest, writeJSON sys mx sp buf bs r = Some (r', buf', n) /\
    0 <= i < Zlen (r_stats r) /\ s_chg (stat_at (r_stats r) i) = true /\
    firstn (Z.to_nat n) buf' = json_object (lead_members sys r ++ stat_member (stat_at (r_stats r) i) :: rest).
Proof.
  intros OK (BB & LB & B10 & ROOM) CN J CH.
  destruct (write_general sys mx sp buf bs r OK BB LB) as (r' & buf' & n & E & L & SK & RF & WR).
  assert (JL : lead_len sys r = 2 + Zlen (join (lead_members sys r))).
  { unfold lead_len, json_object. rewrite Zlen_cons, Zlen_app, Zlen_cons. change (Zlen (@nil Z)) with 0. lia. }
  pose proof (ok_vals _ OK) as VALS. rewrite Forall_forall in VALS.
  assert (FIT : forall j, 0 <= j < Zlen (r_stats r) -> ~ nofit (bs - 3) (123 :: join (lead_members sys r)) (stat_at (r_stats r) j)).
  { intros q Q. pose proof (stat_at_in _ _ Q) as IN. specialize (ROOM _ (in_map s_key _ _ IN)). unfold nofit. rewrite Zlen_cons.
    pose proof (stat_member_len _ (VALS _ IN)). lia. }
  assert (R1 : 1 + Zlen (join (lead_members sys r)) <= bs - 3).
  { pose proof (stat_at_in (r_stats r) j ltac:(lia)) as IN. specialize (ROOM _ (in_map s_key _ _ IN)). pose proof (Zlen_nonneg (s_key (stat_at (r_stats r) j))). lia. }
  destruct (WR B10 R1) as (i1 & i2 & i3 & pre & W). cbv zeta in W. clear WR RF.
  destruct W as (W1 & W2 & W3 & W4 & W5 & W6 & W7 & W8 & W9 & W10 & W11 & W12 & W13 & W14). clear W14.
  assert (FA : fit_alone (bs - 3) (r_stats r)).
  { intros q Q. specialize (FIT q Q). unfold nofit in FIT. rewrite Zlen_cons in FIT. pose proof (Zlen_nonneg (join (lead_members sys r))). lia. }
  rewrite (W12 (or_intror FA)) in W2. cbn [app] in W2.
  assert (NE : r_stats r <> []). { intros X. rewrite X in J. change (Zlen (@nil stat)) with 0 in J. lia. }
  destruct (W13 NE) as (a2 & a3 & LS & RS & LC & P).
  assert (FI : is_first r = true).
  { unfold is_first. apply andb_true_iff. split.
    - change 3 with (Z.ones 2). rewrite Z.land_ones by lia. change (2 ^ 2) with 4. lia.
    - unfold anychg. apply existsb_exists. exists (stat_at (r_stats r) j). split; [|exact CH].
      unfold stat_at. unfold Zlen in J. replace (length (r_stats r) - (length (r_stats r) - 1))%nat with 1%nat by lia.
      destruct (r_stats r) as [|s st]; [congruence|]. cbn [skipn]. replace (Z.to_nat j) with (S (Z.to_nat (j - 1))) by lia. cbn [nth].
      apply nth_In. cbn [length] in J. lia. }
  destruct i1 as [|i i1'] eqn:I1.
  - exfalso. apply (FIT j ltac:(lia)). eapply p_nourgent; eauto. lia.
  - exists r', buf', n, i, (sent_members r (i1' ++ i2 ++ i3)). split; [exact E|].
    assert (I0 : 0 <= i < Zlen (r_stats r)) by (apply W5; left; reflexivity).
    split; [exact I0|]. split; [eapply p_urgent; [exact P|left; reflexivity]|].
    rewrite W2. reflexivity.
Qed.
