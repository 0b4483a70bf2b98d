(** C187: from the dial's wiper to the target temperature, over any history of
    readings and queries: SensorTemperaturePot.h read() (TempModel.pot_read),
    TempControl.h 276-307 (the cached TempControlTempPot) and
    ModelledRadValve's computeTargetTemp, composed. *)
From Verif Require Import Base EepromModel OccModel TempModel TempProps DialProps.

(** The dial is read (raw ADC value, direction corrected), or the warm target
    is asked for. *)
Inductive DialEvent := DRead (raw : Z) | DQuery.
Definition dial_event_ok (e : DialEvent) : Prop :=
  match e with DRead r => 0 <= r < 1024 | DQuery => True end.

(** Sensor and cache after a history, and the answers to the queries. *)
Fixpoint dial_run (p : VCP) (lo hi : Z) (s : Pot) (c : PotCache) (es : list DialEvent)
  : option (Pot * PotCache * list Z) :=
  match es with
  | [] => Some (s, c, [])
  | DRead r :: es => dial_run p lo hi (fst (pot_read lo hi s r)) c es
  | DQuery :: es =>
    do q <- pot_getWARMTargetC p lo hi c (pot_value s) ;
    do rest <- dial_run p lo hi s (fst q) es ;
    Some (fst rest, snd q :: snd rest)
  end.

(** Last raw reading of a history. *)
Fixpoint last_read (es : list DialEvent) : option Z :=
  match es with
  | [] => None
  | e :: es => match last_read es with
               | Some r => Some r
               | None => match e with DRead r => Some r | DQuery => None end
               end
  end.

(** The cache is empty, or holds what its position selects. *)
Definition cache_ok (p : VCP) (lo hi : Z) (c : PotCache) : Prop :=
  snd c = 0 \/ (byte (fst c) /\ computeWARMTargetC p (fst c) lo hi = Some (snd c)).

Lemma pot_read_ok lo hi s r : pot_ok s -> 0 <= r < 1024 -> pot_ok (fst (pot_read lo hi s r)).
Proof. intros H Hr. destruct (C55_callbacks_partial lo hi s r H Hr) as (_ & A & _). exact A. Qed.
Lemma pot_read_raw lo hi s r : pot_raw (fst (pot_read lo hi s r)) = r.
Proof. unfold pot_read. cbv zeta. destruct (_ || _); reflexivity. Qed.

Lemma query_ok p lo hi s c : radiator p -> byte lo -> byte hi -> pot_ok s -> cache_ok p lo hi c ->
  exists c' w, pot_getWARMTargetC p lo hi c (pot_value s) = Some (c', w) /\
    computeWARMTargetC p (pot_value s) lo hi = Some w /\ cache_ok p lo hi c' /\
    scale_min p <= w <= scale_max p.
Proof.
  intros Hp Hl Hh [_ Hv] Hc. destruct (C38_dial p lo hi Hp Hl Hh) as (f & Hf & Hr & _).
  unfold pot_getWARMTargetC.
  destruct (negb (fst c =? pot_value s) || (0 =? snd c)) eqn:E.
  - rewrite (Hf _ Hv). cbn [bind]. eexists _, _. split; [reflexivity|]. split; [reflexivity|].
    split; [right; cbn [fst snd]; auto|apply Hr; exact Hv].
  - assert (E1 : fst c = pot_value s) by lia. assert (E2 : snd c <> 0) by lia.
    destruct Hc as [Hc | [_ Hc]]; [contradiction|]. rewrite E1 in Hc.
    exists c, (snd c). split; [reflexivity|]. split; [exact Hc|]. split; [right; rewrite E1; auto|].
    rewrite (Hf _ Hv) in Hc. apply some_inj in Hc. rewrite <- Hc. apply Hr; exact Hv.
Qed.

Lemma dial_run_ok p lo hi : radiator p -> byte lo -> byte hi -> forall es s c,
  Forall dial_event_ok es -> pot_ok s -> cache_ok p lo hi c ->
  exists s' c' ws, dial_run p lo hi s c es = Some (s', c', ws) /\
    pot_ok s' /\ cache_ok p lo hi c' /\
    Forall (fun w => scale_min p <= w <= scale_max p) ws /\
    (pot_raw s' = match last_read es with Some r => r | None => pot_raw s end) /\
    (last_read es = None -> s' = s).
Proof.
  intros Hp Hl Hh. induction es as [|e es IH]; intros s c F Hs Hc.
  - exists s, c, []. cbn. auto 10.
  - apply Forall_cons_iff in F. destruct F as [He F]. destruct e as [r|]; cbn [dial_run last_read].
    + pose proof (pot_read_ok lo hi s r Hs He) as Hs1. pose proof (pot_read_raw lo hi s r) as Er.
      destruct (IH _ c F Hs1 Hc) as (s' & c' & ws & E & A & B & C & D & G).
      exists s', c', ws. split; [exact E|]. split; [exact A|]. split; [exact B|]. split; [exact C|].
      rewrite Er in D. destruct (last_read es) as [x|]; split; try exact D; discriminate.
    + destruct (query_ok p lo hi s c Hp Hl Hh Hs Hc) as (c1 & w & Eq & _ & Hc1 & Hw).
      rewrite Eq. cbn [bind fst snd].
      destruct (IH s c1 F Hs Hc1) as (s' & c' & ws & E & A & B & C & D & G).
      rewrite E. cbn [bind fst snd]. exists s', c', (w :: ws). split; [reflexivity|].
      split; [exact A|]. split; [exact B|]. split; [constructor; assumption|].
      destruct (last_read es) as [x|]; split; auto.
Qed.

Lemma dial_run_app p lo hi es2 : forall es1 s c s1 c1 ws1,
  dial_run p lo hi s c es1 = Some (s1, c1, ws1) ->
  dial_run p lo hi s c (es1 ++ es2) =
    do r <- dial_run p lo hi s1 c1 es2 ; Some (fst r, ws1 ++ snd r).
Proof.
  induction es1 as [|e es1 IH]; intros s c s1 c1 ws1 E; cbn [app dial_run] in *.
  - apply some_inj in E. inversion E; subst. destruct (dial_run p lo hi s1 c1 es2) as [[a b]|]; reflexivity.
  - destruct e as [r|]; [apply IH; exact E|].
    destruct (pot_getWARMTargetC p lo hi c (pot_value s)) as [q|]; [|discriminate]. cbn [bind] in *.
    destruct (dial_run p lo hi s (fst q) es1) as [[sc w]|] eqn:E1; [|discriminate]. cbn [bind fst snd] in *.
    apply some_inj in E. inversion E; subst. rewrite (IH _ _ _ _ _ E1).
    destruct (dial_run p lo hi s1 c1 es2) as [[a b]|]; reflexivity.
Qed.

(** However the dial is turned and however often the target is asked for, from
    power-up on, and whatever the end stops: no query fails, each gives a warm
    target within the scale, and with it every target temperature then computed,
    in any mode and circumstances, is between the supported limits. *)
Theorem dial_targets_safe : forall p lo hi es, radiator p -> byte lo -> byte hi ->
  Forall dial_event_ok es ->
  exists s c ws, dial_run p lo hi Pot0 PotCache0 es = Some (s, c, ws) /\
    Forall (fun w => scale_min p <= w <= scale_max p /\
       forall rh e, e_tc e = tc_pot p w rh ->
         MIN_TARGET_C <= computeTargetTemp p e <= MAX_TARGET_C) ws.
Proof.
  intros p lo hi es Hp Hl Hh F.
  destruct (dial_run_ok p lo hi Hp Hl Hh es Pot0 PotCache0 F) as (s & c & ws & E & _ & _ & W & _).
  - split; [left; reflexivity|cbn; red; lia].
  - left. reflexivity.
  - exists s, c, ws. split; [exact E|]. apply Forall_impl with (2 := W). intros w Hw.
    split; [exact Hw|]. intros rh e He.
    assert (Hsh : shipped p) by (destruct Hp; unfold shipped; auto).
    pose proof (C31_dial_control p w rh Hsh Hw) as K. rewrite <- He in K.
    destruct (C31_in_range p e Hsh K) as [A B]. lia.
Qed.

(** And the dial is obeyed: at the first reading, or one at least a step of the
    reduced scale (4 raw counts) from the reading before it, whatever happened
    earlier and was cached, the next query gives what the new position selects:
    the bottom of the scale at or below the low end stop, the top at or above
    the high one, never less for a higher position. *)
Theorem dial_obeyed : forall p lo hi, radiator p -> byte lo -> byte hi ->
  exists f : Z -> Z,
    (forall v, byte v -> v <= lo -> f v = scale_min p) /\
    (forall v, byte v -> lo < v -> hi <= v -> f v = scale_max p) /\
    (forall v v', byte v -> byte v' -> v <= v' -> f v <= f v') /\
    forall es r, Forall dial_event_ok es -> 0 <= r < 1024 ->
      match last_read es with None => True | Some r0 => 4 <= Z.abs (r - r0) end ->
      exists s c ws, dial_run p lo hi Pot0 PotCache0 (es ++ [DRead r; DQuery]) = Some (s, c, ws ++ [f (r / 4)]).
Proof.
  intros p lo hi Hp Hl Hh. destruct (C38_dial p lo hi Hp Hl Hh) as (f & Hf & _ & Hlo & Hhi & Hm).
  exists f. split; [exact Hlo|]. split; [exact Hhi|]. split; [exact Hm|].
  intros es r F Hr Hd.
  assert (P0 : pot_ok Pot0) by (split; [left; reflexivity|cbn; red; lia]).
  destruct (dial_run_ok p lo hi Hp Hl Hh es Pot0 PotCache0 F P0) as (s & c & ws & E & Hs & Hc & _ & Hraw & Hnone).
  { left. reflexivity. }
  assert (Hv : pot_value (fst (pot_read lo hi s r)) = r / 4).
  { destruct (last_read es) as [r0|] eqn:El.
    - destruct (C55_big_move_tracked lo hi s r Hs Hr) as [A _]; [| |exact A].
      + intros K. subst s. cbn in Hraw.
        assert (Hb : 0 <= r0 < 1024).
        { clear - F El. revert r0 El. induction es as [|e es IH]; intros r0 El; [discriminate|].
          apply Forall_cons_iff in F. destruct F as [He F]. cbn [last_read] in El.
          destruct (last_read es) as [x|]; [apply (IH F); exact El|].
          destruct e as [x|]; [|discriminate]. apply some_inj in El. subst x. exact He. }
        lia.
      + rewrite Hraw. exact Hd.
    - rewrite (Hnone eq_refl). rewrite (C55_first_reading lo hi r Hr). reflexivity. }
  pose proof (pot_read_ok lo hi s r Hs Hr) as Hs1.
  destruct (query_ok p lo hi _ c Hp Hl Hh Hs1 Hc) as (c1 & w & Eq & Ew & _).
  exists (fst (pot_read lo hi s r)), c1, ws.
  rewrite (dial_run_app p lo hi _ es _ _ _ _ _ E). cbn [dial_run]. rewrite Eq. cbn [bind fst snd].
  rewrite Hv in Ew. rewrite (Hf (r / 4)) in Ew by (red; Z.div_mod_to_equations; lia).
  apply some_inj in Ew. rewrite Ew. reflexivity.
Qed.

(** Default parameters, end stops 8 and 247: before any reading 16 C; to the
    middle: 19; a creep of 3 counts: still 19; to the top: 22; to the bottom: 16. *)
Example dial_case :
  match dial_run DEFAULT_Params 8 247 Pot0 PotCache0
    [DQuery; DRead 512; DQuery; DRead 515; DQuery; DRead 1023; DQuery; DRead 0; DQuery] with
  | Some (_, ws) => ws = [16; 19; 19; 22; 16]
  | None => False
  end.
Proof. vm_compute. reflexivity. Qed.

Print Assumptions dial_targets_safe.
Print Assumptions dial_obeyed.
