(** CLI: what a command may change in non-volatile memory, whatever the line and whenever the
    power fails (C106), and that no command reveals the secret key (C115). *)
From Coq Require String.
Import String.StringSyntax.
From Verif Require Import Base EepromModel EepromProofs EepromProps RtcModel StatsModel CliModel CliProps CliCmds.

(** One command of the CLI with everything but the line it depends on: [junk] the uninitialised
    local array, [rnds] the random bytes, [kc] the keys-cleared callback, [ms] the time left. *)
Inductive Cmd :=
| CmdA (junk : list Z) | CmdD | CmdG | CmdI (rnds : list Z) | CmdIS (junk rnds : list Z)
| CmdK (kc : option (M bool)) | CmdT | CmdX | CmdZ (ms : Z).
(** Run on a clock and a line; [None] instead of a result: still drawing random bytes. *)
Definition exec (c : Cmd) (ck : Clock) (line : str) : M (Clock * option Res) :=
  match c with
  | CmdA junk => run r <- cmd_assoc junk line; ret (ck, Some r)
  | CmdD => run r <- cmd_dump (getHoursLT ck) line; ret (ck, Some r)
  | CmdG => run r <- cmd_param line; ret (ck, Some r)
  | CmdI rnds => run r <- cmd_id rnds line; ret (ck, r)
  | CmdIS junk rnds => run r <- cmd_id_set junk rnds line; ret (ck, r)
  | CmdK kc => run r <- cmd_key kc line; ret (ck, Some r)
  | CmdT => run x <- cmd_time ck line; ret (fst x, Some (snd x))
  | CmdX => run r <- cmd_priv line; ret (ck, Some r)
  | CmdZ ms => run r <- cmd_zap ms line; ret (ck, Some r)
  end.

(** ** C106 *)
Definition touches {A} (R : Z -> Prop) (p : M A) : Prop :=
  forall s f q, ~ R q -> mem (fst (p s f)) q = mem s q.

Lemma t_ret {A} R (a : A) : touches R (ret a). Proof. intros s f q _. reflexivity. Qed.
Lemma t_read R p : touches R (ee_read p). Proof. intros s f q _. reflexivity. Qed.
Lemma t_op (R : Z -> Prop) k p v : R p -> touches R (ee_op k p v).
Proof.
  intros HR s f q HQ. unfold ee_op. destruct f; [reflexivity|]. cbn [fst mem].
  apply upd_there. intros ->. contradiction.
Qed.
Lemma t_bind {A B} R (p : M A) (k : A -> M B) : touches R p -> (forall a, touches R (k a)) -> touches R (mbind p k).
Proof.
  intros HP HK s f q HQ. unfold mbind. pose proof (HP s f q HQ) as H. destruct (p s f) as [s1 [[a f1]|]]; cbn [fst] in *.
  - rewrite (HK a s1 f1 q HQ). exact H.
  - exact H.
Qed.
Lemma t_erase (R : Z -> Prop) p : R p -> touches R (smart_erase p).
Proof. intros HR. apply t_bind; [apply t_read|]. intros a. destruct (negb _); [apply t_bind; [apply t_op; exact HR|intros; apply t_ret]|apply t_ret]. Qed.
Lemma t_clear (R : Z -> Prop) p m : R p -> touches R (smart_clear_bits p m).
Proof. intros HR. apply t_bind; [apply t_read|]. intros a. cbv zeta. destruct (negb _); [apply t_bind; [apply t_op; exact HR|intros; apply t_ret]|apply t_ret]. Qed.
Lemma t_update (R : Z -> Prop) p v : R p -> touches R (smart_update p v).
Proof.
  intros HR. unfold smart_update. destruct (255 =? v); [apply t_erase; exact HR|]. apply t_bind; [apply t_read|]. intros old.
  destruct (v =? old); [apply t_ret|]. destruct (v =? Z.land v old); [apply t_clear; exact HR|].
  apply t_bind; [apply t_op; exact HR|intros; apply t_ret].
Qed.
Lemma t_update_bytes (R : Z -> Prop) : forall l p, (forall q, p <= q < p + Zlen l -> R q) -> touches R (update_bytes p l).
Proof.
  induction l as [|b l IH]; intros p HR; cbn [update_bytes]; [apply t_ret|]. rewrite Zlen_cons in HR. pose proof (Zlen_nonneg l).
  apply t_bind; [apply t_update; apply HR; lia|]. intros _. apply IH. intros q Hq. apply HR. lia.
Qed.
Lemma t_erase_bytes (R : Z -> Prop) : forall n p, (forall q, p <= q < p + Z.of_nat n -> R q) -> touches R (erase_bytes p n).
Proof.
  induction n as [|n IH]; intros p HR; cbn [erase_bytes]; [apply t_ret|].
  apply t_bind; [apply t_erase; apply HR; lia|]. intros _. apply IH. intros q Hq. apply HR. lia.
Qed.
Lemma t_read_block R : forall n p, touches R (read_block p n).
Proof.
  induction n as [|n IH]; intros p; cbn [read_block]; [apply t_ret|]. apply t_bind; [apply t_read|]. intros b.
  apply t_bind; [apply IH|intros; apply t_ret].
Qed.
Lemma t_check R : forall l p, touches R (check_bytes p l).
Proof.
  induction l as [|b l IH]; intros p; cbn [check_bytes]; [apply t_ret|]. apply t_bind; [apply t_read|]. intros v.
  apply t_bind; [apply IH|intros; apply t_ret].
Qed.
Lemma t_count R : forall n i, touches R (count_rows i n).
Proof. induction n as [|n IH]; intros i; cbn [count_rows]; [apply t_ret|]. apply t_bind; [apply t_read|]. intros b. destruct (255 =? b); [apply t_ret|apply IH]. Qed.
Lemma t_getassoc R i : touches R (getNodeAssociation i).
Proof.
  unfold getNodeAssociation. apply t_bind; [apply t_count|]. intros c. destruct (i >=? c); [apply t_ret|].
  apply t_bind; [apply t_read_block|intros; apply t_ret].
Qed.
Lemma t_list R : forall n i, touches R (list_assocs i n).
Proof.
  induction n as [|n IH]; intros i; cbn [list_assocs]; [apply t_ret|]. apply t_bind; [apply t_getassoc|]. intros o. cbv zeta.
  apply t_bind; [apply IH|intros; apply t_ret].
Qed.
Lemma t_match R pre : forall n i, touches R (match_rows pre i n).
Proof.
  induction n as [|n IH]; intros i; cbn [match_rows]; [apply t_ret|]. apply t_bind.
  - unfold table_get. destruct (i >=? ASSOC_MAX); [apply t_ret|apply t_read_block].
  - intros t. destruct (255 =? znth t 0); [apply t_ret|]. destruct (_ || _); [apply t_ret|apply IH].
Qed.
Lemma t_next R i p n : touches R (getNextMatchingNodeID i p n).
Proof.
  unfold getNextMatchingNodeID. destruct (i >=? ASSOC_MAX); [apply t_ret|]. destruct (n >? 8); [apply t_ret|].
  destruct p; [apply t_match|]. destruct (negb _); [apply t_ret|apply t_match].
Qed.
Lemma t_clear_rows (R : Z -> Prop) : forall n i, (forall j, i <= j < i + Z.of_nat n -> R (row_addr j)) -> touches R (clear_rows i n).
Proof.
  induction n as [|n IH]; intros i HR; cbn [clear_rows]; [apply t_ret|]. apply t_bind; [apply t_erase; apply HR; lia|].
  intros _. apply IH. intros j Hj. apply HR. lia.
Qed.
Lemma t_add_rows (R : Z -> Prop) id : Zlen id = 8 -> forall n i,
  (forall j q, i <= j < i + Z.of_nat n -> row_addr j <= q < row_addr j + 32 -> R q) -> touches R (add_rows id i n).
Proof.
  intros HI. induction n as [|n IH]; intros i HR; cbn [add_rows]; [apply t_ret|]. apply t_bind; [apply t_read|]. intros b.
  destruct (b =? 255).
  - apply t_bind; [apply t_update_bytes; intros q Hq; apply (HR i); lia|]. intros _.
    apply t_bind; [apply t_erase_bytes; intros q Hq; apply (HR i); lia|]. intros _. apply t_ret.
  - apply IH. intros j q Hj Hq. apply (HR j); lia.
Qed.
Lemma t_zap (R : Z -> Prop) : forall n p lim, (forall q, p <= q < p + Z.of_nat n -> R q) -> touches R (zap_loop p n lim).
Proof.
  induction n as [|n IH]; intros p lim HR; cbn [zap_loop]; [apply t_ret|]. apply t_bind; [apply t_erase; apply HR; lia|].
  intros e. assert (forall l, touches R (zap_loop (p + 1) n l)) by (intros l; apply IH; intros q Hq; apply HR; lia).
  destruct e; [|auto]. cbv zeta. destruct (_ =? 0); [apply t_ret|auto].
Qed.
Lemma t_ensure (R : Z -> Prop) force : forall n i rnds, (forall q, 20 + i <= q < 20 + i + Z.of_nat n -> R q) ->
  touches R (ensure_loop force i n rnds).
Proof.
  induction n as [|n IH]; intros i rnds HR; cbn [ensure_loop]; [apply t_ret|]. unfold ID_START.
  apply t_bind; [apply t_read|]. intros v. apply t_bind.
  - destruct (force || _); [|apply t_ret]. destruct (draw rnds) as [[new q]|]; [|apply t_ret].
    apply t_bind; [apply t_update; apply HR; lia|intros; apply t_ret].
  - intros [q|]; [|apply t_ret]. apply t_bind; [apply t_read|]. intros v2. destruct (negb _); [apply t_ret|].
    apply IH. intros a Ha. apply HR. lia.
Qed.
Lemma t_dump R set now : forall n hh, touches R (dump_hours set now hh n).
Proof.
  induction n as [|n IH]; intros hh; cbn [dump_hours]; [apply t_ret|]. apply t_bind.
  - unfold ee_getStat. destruct (STATS_SETS <=? set); [apply t_ret|]. destruct (23 <? hh); [apply t_ret|apply t_read].
  - intros v. apply t_bind; [apply IH|intros; apply t_ret].
Qed.
Lemma t_rtc (R : Z -> Prop) c h m : R 8 -> R 9 -> R 10 -> touches R (setHoursMinutesLT c h m).
Proof.
  intros H8 H9 H10. unfold setHoursMinutesLT. destruct (_ || _); [apply t_ret|]. cbv zeta. destruct (negb _); [|apply t_ret].
  apply t_bind; [|intros; apply t_ret]. unfold persistRTC. cbv zeta. apply t_bind; [apply t_read|]. intros v.
  destruct (negb _); [|apply t_ret]. apply t_bind.
  - destruct (negb _); [apply t_op; exact H10|]. apply t_bind; [apply t_clear; exact H10|intros; apply t_ret].
  - intros _. apply t_bind.
    + unfold ee_read_word. apply t_bind; [apply t_read|]. intros a. apply t_bind; [apply t_read|intros; apply t_ret].
    + intros d. destruct (negb _); [|apply t_ret]. unfold ee_write_word. apply t_bind; [apply t_op; exact H8|]. intros _. apply t_op. exact H9.
Qed.

Lemma parse_id_len : forall n tok rest id i l, parse_id n tok rest id i = Some l -> 0 <= i -> i + Z.of_nat n <= Zlen id -> Zlen l = Zlen id.
Proof.
  induction n as [|n IH]; intros tok rest id i l H Hi HL; cbn [parse_id] in H; [apply some_inj in H; subst; reflexivity|].
  destruct tok as [t|].
  - cbv zeta in H. destruct (_ || _); [discriminate|]. destruct (strtok rest) as [tok' rest'].
    set (id' := firstn _ _ ++ _) in H.
    assert (HE : Zlen id' = Zlen id).
    { unfold id', Zlen in *. rewrite !app_length, firstn_length, skipn_length. cbn [length]. lia. }
    rewrite <- HE. apply (IH _ _ _ _ _ H); lia.
  - destruct (strtok rest) as [tok' rest']. apply (IH _ _ _ _ _ H); lia.
Qed.
Lemma parse_key_len : forall n rest l, parse_key n rest = Some l -> Zlen l = Z.of_nat n.
Proof.
  induction n as [|n IH]; intros rest l H; cbn [parse_key] in H; [apply some_inj in H; subst; reflexivity|].
  destruct (strtok rest) as [tok rest']. cbv zeta in H. destruct (_ =? _); [discriminate|].
  destruct (parse_key n rest') as [l'|] eqn:E; [|discriminate]. apply some_inj in H. subst l. rewrite Zlen_cons, (IH _ _ E). lia.
Qed.

(** The addresses a command may write: the association table, nothing, the generic parameters
    (one byte too many, see C108), the node ID, the key (and what the callback may), the saved
    time, the privacy level, the statistics. *)
Definition region (c : Cmd) (Rk : Z -> Prop) (q : Z) : Prop :=
  match c with
  | CmdA _ => 768 <= q < 1024
  | CmdD => False
  | CmdG => 32 <= q < 65
  | CmdI _ => 20 <= q < 28
  | CmdIS _ _ => 20 <= q < 28
  | CmdK _ => 112 <= q < 128 \/ Rk q
  | CmdT => 8 <= q < 11
  | CmdX => q = 28
  | CmdZ _ => 256 <= q < 616
  end.
(** The uninitialised array has eight elements; the callback keeps to [Rk]. *)
Definition cmd_ok (c : Cmd) (Rk : Z -> Prop) : Prop :=
  match c with
  | CmdA junk => Zlen junk = 8
  | CmdIS junk _ => Zlen junk = 8
  | CmdK (Some kc) => touches Rk kc
  | _ => True
  end.

Lemma t_mono {A} (R R' : Z -> Prop) (p : M A) : touches R p -> (forall q, R q -> R' q) -> touches R' p.
Proof. intros H HR s f q HQ. apply H. intros HX. apply HQ, HR, HX. Qed.
Lemma t_cmd_id (R : Z -> Prop) rnds line : (forall q, 20 <= q < 28 -> R q) -> touches R (cmd_id rnds line).
Proof.
  intros HR. unfold cmd_id. apply t_bind.
  - destruct (_ && _); [|apply t_ret]. apply t_ensure. intros q Hq. apply HR. lia.
  - intros [b|]; [|apply t_ret]. apply t_bind; [apply t_read_block|intros; apply t_ret].
Qed.

(** For every command, every line, every EEPROM content and every moment at which the power
    may fail: nothing outside the command's own region changes. *)
Theorem cli_footprint : forall c Rk ck line s f q, cmd_ok c Rk -> ~ region c Rk q ->
  mem (fst (exec c ck line s f)) q = mem s q.
Proof.
  intros c Rk ck line s f q HC HQ.
  cut (touches (region c Rk) (exec c ck line)); [intros H; apply H; exact HQ|]. clear s f q HQ.
  destruct c as [junk| | |rnds|junk rnds|kc| | |ms]; cbn [exec]; (apply t_bind; [|intros; apply t_ret]).
  - cbn [cmd_ok] in HC. unfold cmd_assoc. cbv zeta. destruct (if Zlen line >=? 3 then _ else _) as [[t|] last]; [|apply t_ret].
    destruct (63 =? znth t 0).
    { apply t_bind; [apply t_count|]. intros nn. apply t_bind; [apply t_list|]. intros ls.
      destruct (strtok last) as [[t2|] r]; [|apply t_ret]. destruct (-1 =? _); [apply t_ret|].
      apply t_bind; [apply t_next|intros; apply t_ret]. }
    destruct (42 =? znth t 0).
    { apply t_bind; [|intros; apply t_ret]. apply t_clear_rows. intros j Hj. cbn [region]. unfold row_addr, ASSOC_START, ASSOC_SIZE. lia. }
    destruct (Zlen line >=? 25); [|apply t_ret]. destruct (parse_id 8 _ _ _ _) as [id|] eqn:EP; [|apply t_ret].
    apply parse_id_len in EP; [|lia|lia]. apply t_bind.
    + apply t_add_rows; [lia|]. intros j q Hj Hq. cbn [region]. unfold row_addr, ASSOC_START, ASSOC_SIZE in Hq. lia.
    + intros i. destruct (i >=? 0); apply t_ret.
  - unfold cmd_dump. destruct (if Zlen line >=? 3 then _ else _) as [[t|] last]; [|apply t_ret]. cbv zeta.
    apply t_bind; [apply t_dump|intros; apply t_ret].
  - unfold cmd_param. destruct (if Zlen line >=? 3 then _ else _) as [[t|] last]; [|apply t_ret]. cbv zeta.
    unfold RAW_LEN, RAW_START. destruct (u8 (atoi t) >? 32) eqn:E; [apply t_ret|]. pose proof (u8_byte (atoi t)) as HB. red in HB.
    destruct (strtok last) as [[t2|] r]; [|apply t_bind; [apply t_read|intros; apply t_ret]].
    destruct (_ || _); [apply t_ret|]. apply t_bind; [|intros; apply t_ret]. apply t_update. cbn [region]. lia.
  - apply t_cmd_id. intros q Hq. exact Hq.
  - cbn [cmd_ok] in HC. unfold cmd_id_set. destruct (if Zlen line >=? 25 then _ else _) as [[t|] last]; [|apply t_cmd_id; intros q Hq; exact Hq].
    destruct (parse_id 8 _ _ _ _) as [id|] eqn:EP; [|apply t_ret]. apply parse_id_len in EP; [|lia|lia].
    apply t_bind; [|intros; apply t_ret]. apply t_update_bytes. intros q Hq. cbn [region]. unfold ID_START in Hq. lia.
  - unfold cmd_key. cbv zeta. destruct (if Zlen line >=? 5 then _ else _) as [[t|] last]; [|apply t_ret].
    destruct (66 =? _); [|apply t_ret]. destruct (strtok last) as [[t2|] r]; [|apply t_ret].
    destruct (znth t2 0 =? 42).
    + apply t_bind; [apply t_bind; [|intros; apply t_ret]|].
      * apply t_erase_bytes. intros q Hq. cbn [region]. unfold KEY_START, KEY_LEN in Hq. lia.
      * intros _. apply t_bind; [|intros; apply t_ret]. destruct kc as [kc|]; [|apply t_ret].
        apply (t_mono Rk); [exact HC|]. intros q Hq. right. exact Hq.
    + destruct (Zlen line >=? 35); [|apply t_ret]. destruct (parse_key 15 r) as [ks|] eqn:EP; [|apply t_ret].
      apply parse_key_len in EP. apply t_bind; [|intros; apply t_ret]. cbn [setKey].
      apply t_bind; [|intros; apply t_check]. apply t_update_bytes. intros q Hq. rewrite Zlen_cons, EP in Hq. cbn [region]. unfold KEY_START in Hq. lia.
  - unfold cmd_time. destruct (if Zlen line >=? 5 then _ else _) as [[t|] last]; [|apply t_ret].
    destruct (strtok last) as [[t2|] r]; [|apply t_ret]. apply t_bind; [apply t_rtc; cbn [region]; lia|]. intros [c' ok]. apply t_ret.
  - unfold cmd_priv. destruct (if Zlen line >=? 3 then _ else _) as [[t|] last]; [|apply t_ret].
    apply t_bind; [apply t_update; reflexivity|intros; apply t_ret].
  - unfold cmd_zap. apply t_bind; [|intros; apply t_ret]. apply t_zap. intros q Hq. cbn [region]. unfold STATS_START in Hq. lia.
Qed.

(** A whole session: commands in order, each output recorded; [None]: the power failed. *)
Fixpoint session (cs : list (Cmd * str)) (ck : Clock) : M (Clock * list (option Res)) :=
  match cs with
  | [] => ret (ck, [])
  | (c, line) :: r =>
      run x <- exec c ck line;
      run y <- session r (fst x);
      ret (fst y, snd x :: snd y)
  end.
(** The same for a session: an address outside the regions of all its commands never changes. *)
Theorem cli_footprint_session : forall cs Rk ck s f q, Forall (fun cl => cmd_ok (fst cl) Rk) cs ->
  (forall c line, In (c, line) cs -> ~ region c Rk q) ->
  mem (fst (session cs ck s f)) q = mem s q.
Proof.
  induction cs as [|[c line] cs IH]; intros Rk ck s f q HC HQ; cbn [session]; [reflexivity|].
  inversion HC as [|? ? H1 H2]; subst. cbn [fst] in H1.
  pose proof (cli_footprint c Rk ck line s f q H1 (HQ c line (or_introl eq_refl))) as HF.
  unfold mbind. destruct (exec c ck line s f) as [s1 [[x f1]|]]; cbn [fst] in *; [|exact HF].
  specialize (IH Rk (fst x) s1 f1 q H2 ltac:(intros; eapply HQ; right; eassumption)).
  destruct (session cs (fst x) s1 f1) as [s2 [[y f2]|]]; cbn [fst ret] in *; congruence.
Qed.
(** E.g. no session of these commands ever touches the boot counter's or the transmit
    counter's bytes (64 < q < 112), whatever is typed, unless the callback does. *)
Example cli_footprint_example : forall cs ck s f q, Forall (fun cl => cmd_ok (fst cl) (fun _ => False)) cs -> 64 < q < 112 ->
  mem (fst (session cs ck s f)) q = mem s q.
Proof.
  intros cs ck s f q HC Hq. apply (cli_footprint_session cs (fun _ => False)); [exact HC|].
  intros c line _. destruct c; cbn [region]; lia.
Qed.

(** ** C115: confidentiality of the key *)
Definition agree (s1 s2 : EE) : Prop := forall q, ~ (112 <= q < 128) -> mem s1 q = mem s2 q.
Definition secret {A} (p : M A) : Prop := forall s1 s2 f1 f2, agree s1 s2 ->
  match p s1 f1, p s2 f2 with
  | (s1', Some (a1, _)), (s2', Some (a2, _)) => a1 = a2 /\ agree s1' s2'
  | _, _ => True
  end.
Lemma n_ret {A} (a : A) : secret (ret a). Proof. intros s1 s2 f1 f2 H. unfold ret. auto. Qed.
Lemma n_read p : ~ (112 <= p < 128) -> secret (ee_read p).
Proof. intros HP s1 s2 f1 f2 H. unfold ee_read. split; [apply H; exact HP|exact H]. Qed.
Lemma n_bind {A B} (p : M A) (k : A -> M B) : secret p -> (forall a, secret (k a)) -> secret (mbind p k).
Proof.
  intros HP HK s1 s2 f1 f2 H. unfold mbind. pose proof (HP s1 s2 f1 f2 H) as HA.
  destruct (p s1 f1) as [t1 [[a1 g1]|]]; [|exact I]. destruct (p s2 f2) as [t2 [[a2 g2]|]].
  - destruct HA as [<- HA]. apply HK. exact HA.
  - destruct (k a1 t1 g1) as [? [[? ?]|]]; exact I.
Qed.
Lemma n_op k p v : ~ (112 <= p < 128) -> secret (ee_op k p v).
Proof.
  intros HP s1 s2 f1 f2 H. unfold ee_op. destruct f1 as [|f1]; [exact I|]. destruct f2 as [|f2]; [exact I|]. split; [reflexivity|].
  intros q Hq. cbn [mem]. unfold upd. rewrite (H p HP), (H q Hq). reflexivity.
Qed.
(** A program writing only the key and always answering the same. *)
Lemma n_key {A} (p : M A) a : touches (fun q => 112 <= q < 128) p ->
  (forall s f, match snd (p s f) with Some (b, _) => b = a | None => True end) -> secret p.
Proof.
  intros HT HA s1 s2 f1 f2 H. pose proof (HT s1 f1) as T1. pose proof (HT s2 f2) as T2.
  pose proof (HA s1 f1) as A1. pose proof (HA s2 f2) as A2.
  destruct (p s1 f1) as [t1 [[a1 g1]|]]; [|exact I]. destruct (p s2 f2) as [t2 [[a2 g2]|]]; [|exact I]. cbn [fst snd] in *.
  split; [congruence|]. intros q Hq. rewrite T1, T2 by exact Hq. apply H. exact Hq.
Qed.
Lemma n_erase p : ~ (112 <= p < 128) -> secret (smart_erase p).
Proof. intros HP. apply n_bind; [apply n_read; exact HP|]. intros a. destruct (negb _); [apply n_bind; [apply n_op; exact HP|intros; apply n_ret]|apply n_ret]. Qed.
Lemma n_clear p m : ~ (112 <= p < 128) -> secret (smart_clear_bits p m).
Proof. intros HP. apply n_bind; [apply n_read; exact HP|]. intros a. cbv zeta. destruct (negb _); [apply n_bind; [apply n_op; exact HP|intros; apply n_ret]|apply n_ret]. Qed.
Lemma n_update p v : ~ (112 <= p < 128) -> secret (smart_update p v).
Proof.
  intros HP. unfold smart_update. destruct (255 =? v); [apply n_erase; exact HP|]. apply n_bind; [apply n_read; exact HP|]. intros old.
  destruct (v =? old); [apply n_ret|]. destruct (v =? Z.land v old); [apply n_clear; exact HP|].
  apply n_bind; [apply n_op; exact HP|intros; apply n_ret].
Qed.
Lemma n_update_bytes : forall l p, p + Zlen l <= 112 \/ 128 <= p -> secret (update_bytes p l).
Proof.
  induction l as [|b l IH]; intros p HP; cbn [update_bytes]; [apply n_ret|]. rewrite Zlen_cons in HP. pose proof (Zlen_nonneg l).
  apply n_bind; [apply n_update; lia|]. intros _. apply IH. lia.
Qed.
Lemma n_erase_bytes : forall n p, p + Z.of_nat n <= 112 \/ 128 <= p -> secret (erase_bytes p n).
Proof.
  induction n as [|n IH]; intros p HP; cbn [erase_bytes]; [apply n_ret|].
  apply n_bind; [apply n_erase; lia|]. intros _. apply IH. lia.
Qed.
Lemma n_read_block : forall n p, p + Z.of_nat n <= 112 \/ 128 <= p -> secret (read_block p n).
Proof.
  induction n as [|n IH]; intros p HP; cbn [read_block]; [apply n_ret|]. apply n_bind; [apply n_read; lia|]. intros b.
  apply n_bind; [apply IH; lia|intros; apply n_ret].
Qed.
Lemma row_away i : 0 <= i -> 128 <= row_addr i. Proof. unfold row_addr, ASSOC_START, ASSOC_SIZE. lia. Qed.
Lemma n_count : forall n i, 0 <= i -> secret (count_rows i n).
Proof. induction n as [|n IH]; intros i Hi; cbn [count_rows]; [apply n_ret|]. apply n_bind; [apply n_read; pose proof (row_away i Hi); lia|]. intros b. destruct (255 =? b); [apply n_ret|apply IH; lia]. Qed.
Lemma n_getassoc i : 0 <= i -> secret (getNodeAssociation i).
Proof.
  intros Hi. unfold getNodeAssociation. apply n_bind; [apply n_count; lia|]. intros c. destruct (i >=? c); [apply n_ret|].
  apply n_bind; [apply n_read_block; right; apply row_away; exact Hi|intros; apply n_ret].
Qed.
Lemma n_list : forall n i, 0 <= i -> secret (list_assocs i n).
Proof.
  induction n as [|n IH]; intros i Hi; cbn [list_assocs]; [apply n_ret|]. apply n_bind; [apply n_getassoc; exact Hi|]. intros o. cbv zeta.
  apply n_bind; [apply IH; lia|intros; apply n_ret].
Qed.
Lemma n_match pre : forall n i, 0 <= i -> secret (match_rows pre i n).
Proof.
  induction n as [|n IH]; intros i Hi; cbn [match_rows]; [apply n_ret|]. apply n_bind.
  - unfold table_get. destruct (i >=? ASSOC_MAX); [apply n_ret|apply n_read_block; right; apply row_away; exact Hi].
  - intros t. destruct (255 =? znth t 0); [apply n_ret|]. destruct (_ || _); [apply n_ret|apply IH; lia].
Qed.
Lemma n_next i p n : 0 <= i -> secret (getNextMatchingNodeID i p n).
Proof.
  intros Hi. unfold getNextMatchingNodeID. destruct (i >=? ASSOC_MAX); [apply n_ret|]. destruct (n >? 8); [apply n_ret|].
  destruct p; [apply n_match; exact Hi|]. destruct (negb _); [apply n_ret|apply n_match; exact Hi].
Qed.
Lemma n_clear_rows : forall n i, 0 <= i -> secret (clear_rows i n).
Proof.
  induction n as [|n IH]; intros i Hi; cbn [clear_rows]; [apply n_ret|]. apply n_bind; [apply n_erase; pose proof (row_away i Hi); lia|].
  intros _. apply IH. lia.
Qed.
Lemma n_add_rows id : forall n i, 0 <= i -> secret (add_rows id i n).
Proof.
  induction n as [|n IH]; intros i Hi; cbn [add_rows]; [apply n_ret|]. pose proof (row_away i Hi). apply n_bind; [apply n_read; lia|]. intros b.
  destruct (b =? 255); [|apply IH; lia].
  apply n_bind; [apply n_update_bytes; lia|]. intros _. apply n_bind; [apply n_erase_bytes; lia|]. intros _. apply n_ret.
Qed.
Lemma n_zap : forall n p lim, 128 <= p -> secret (zap_loop p n lim).
Proof.
  induction n as [|n IH]; intros p lim HP; cbn [zap_loop]; [apply n_ret|]. apply n_bind; [apply n_erase; lia|].
  intros e. destruct e; [|apply IH; lia]. cbv zeta. destruct (_ =? 0); [apply n_ret|apply IH; lia].
Qed.
Lemma n_ensure force : forall n i rnds, 0 <= i -> i + Z.of_nat n <= 8 -> secret (ensure_loop force i n rnds).
Proof.
  induction n as [|n IH]; intros i rnds Hi HL; cbn [ensure_loop]; [apply n_ret|]. unfold ID_START.
  apply n_bind; [apply n_read; lia|]. intros v. apply n_bind.
  - destruct (force || _); [|apply n_ret]. destruct (draw rnds) as [[new q]|]; [|apply n_ret].
    apply n_bind; [apply n_update; lia|intros; apply n_ret].
  - intros [q|]; [|apply n_ret]. apply n_bind; [apply n_read; lia|]. intros v2. destruct (negb _); [apply n_ret|]. apply IH; lia.
Qed.
Lemma n_dump set now : 0 <= set -> forall n hh, 0 <= hh -> secret (dump_hours set now hh n).
Proof.
  intros Hs. induction n as [|n IH]; intros hh Hh; cbn [dump_hours]; [apply n_ret|]. apply n_bind.
  - unfold ee_getStat. destruct (STATS_SETS <=? set); [apply n_ret|]. destruct (23 <? hh); [apply n_ret|].
    apply n_read. unfold stat_addr, STATS_START. lia.
  - intros v. apply n_bind; [apply IH; lia|intros; apply n_ret].
Qed.
Lemma n_rtc c h m : secret (setHoursMinutesLT c h m).
Proof.
  unfold setHoursMinutesLT. destruct (_ || _); [apply n_ret|]. cbv zeta. destruct (negb _); [|apply n_ret].
  apply n_bind; [|intros; apply n_ret]. unfold persistRTC, RTC_HHMM, RTC_DAY. cbv zeta. apply n_bind; [apply n_read; lia|]. intros v.
  destruct (negb _); [|apply n_ret]. apply n_bind.
  - destruct (negb _); [apply n_op; lia|]. apply n_bind; [apply n_clear; lia|intros; apply n_ret].
  - intros _. apply n_bind.
    + unfold ee_read_word. apply n_bind; [apply n_read; lia|]. intros a. apply n_bind; [apply n_read; lia|intros; apply n_ret].
    + intros d. destruct (negb _); [|apply n_ret]. unfold ee_write_word. apply n_bind; [apply n_op; lia|]. intros _. apply n_op. lia.
Qed.
Lemma n_cmd_id rnds line : secret (cmd_id rnds line).
Proof.
  unfold cmd_id. apply n_bind.
  - destruct (_ && _); [|apply n_ret]. apply n_ensure; lia.
  - intros [b|]; [|apply n_ret]. apply n_bind; [apply n_read_block; unfold ID_START; lia|intros; apply n_ret].
Qed.
Lemma n_set_key k : (match k with Some l => Zlen l = 16 | None => True end) -> secret (setKey k).
Proof.
  intros HL. apply (n_key _ true).
  - destruct k as [k|]; cbn [setKey].
    + apply t_bind; [|intros; apply t_check]. apply t_update_bytes. unfold KEY_START. intros q Hq. lia.
    + apply t_bind; [|intros; apply t_ret]. apply t_erase_bytes. unfold KEY_START, KEY_LEN. intros q Hq. lia.
  - intros s f.
    assert (HD : exists ws, does (setKey k) s ws true).
    { destruct k as [k|].
      - exists (at_addr KEY_START k ++ []). unfold setKey.
        eapply does_bind; [apply does_update_bytes|]. intros s' Hs'. cbv beta.
        pose proof (does_check_bytes k KEY_START s') as HC.
        replace (list_eqb k (block (mem s') KEY_START (length k))) with true in HC; [exact HC|].
        symmetry. apply list_eqb_eq. rewrite (block_meq _ _ Hs'). symmetry. apply block_applyw_at.
      - eexists. unfold setKey. eapply does_bind; [apply does_erase_bytes|]. intros s' _. apply does_ret. }
    destruct HD as [ws HD]. destruct (HD f) as [(s' & j & -> & _) | (s' & f' & -> & _)]; exact I || reflexivity.
Qed.
(** Two devices differing only in the secret key answer every command alike and still differ
    only in the key afterwards -- provided that the callback is itself discreet.  (Whether the
    power fails during the command is not compared: how long writing takes may differ.) *)
Definition discreet (c : Cmd) : Prop :=
  match c with CmdK (Some kc) => secret kc | CmdIS junk _ => Zlen junk = 8 | _ => True end.
Theorem cli_key_secret : forall c ck line s1 s2 f1 f2, discreet c ->
  (forall q, q < 112 \/ 128 <= q -> mem s1 q = mem s2 q) ->
  forall s1' s2' r1 r2 g1 g2,
  exec c ck line s1 f1 = (s1', Some (r1, g1)) -> exec c ck line s2 f2 = (s2', Some (r2, g2)) ->
  r1 = r2 /\ (forall q, q < 112 \/ 128 <= q -> mem s1' q = mem s2' q).
Proof.
  intros c ck line s1 s2 f1 f2 HC HA s1' s2' r1 r2 g1 g2 E1 E2.
  assert (HN : secret (exec c ck line)).
  2:{ specialize (HN s1 s2 f1 f2 ltac:(intros q Hq; apply HA; lia)). rewrite E1, E2 in HN. destruct HN as [H1 H2].
      split; [exact H1|]. intros q Hq. apply H2. lia. }
  clear - HC. destruct c as [junk| | |rnds|junk rnds|kc| | |ms]; cbn [exec]; (apply n_bind; [|intros; apply n_ret]).
  - unfold cmd_assoc. cbv zeta. destruct (if Zlen line >=? 3 then _ else _) as [[t|] last]; [|apply n_ret].
    destruct (63 =? znth t 0).
    { apply n_bind; [apply n_count; lia|]. intros nn. apply n_bind; [apply n_list; lia|]. intros ls.
      destruct (strtok last) as [[t2|] r]; [|apply n_ret]. destruct (-1 =? _); [apply n_ret|].
      apply n_bind; [apply n_next; lia|intros; apply n_ret]. }
    destruct (42 =? znth t 0).
    { apply n_bind; [|intros; apply n_ret]. apply n_clear_rows. lia. }
    destruct (Zlen line >=? 25); [|apply n_ret]. destruct (parse_id 8 _ _ _ _) as [id|] eqn:EP; [|apply n_ret].
    apply n_bind; [apply n_add_rows; lia|]. intros i. destruct (i >=? 0); apply n_ret.
  - unfold cmd_dump. destruct (if Zlen line >=? 3 then _ else _) as [[t|] last]; [|apply n_ret]. cbv zeta.
    apply n_bind; [apply n_dump; [apply u8_byte|lia]|intros; apply n_ret].
  - unfold cmd_param. destruct (if Zlen line >=? 3 then _ else _) as [[t|] last]; [|apply n_ret]. cbv zeta.
    unfold RAW_LEN, RAW_START. destruct (u8 (atoi t) >? 32) eqn:E; [apply n_ret|]. pose proof (u8_byte (atoi t)) as HB. red in HB.
    destruct (strtok last) as [[t2|] r]; [|apply n_bind; [apply n_read; lia|intros; apply n_ret]].
    destruct (_ || _); [apply n_ret|]. apply n_bind; [|intros; apply n_ret]. apply n_update. lia.
  - apply n_cmd_id.
  - unfold cmd_id_set. destruct (if Zlen line >=? 25 then _ else _) as [[t|] last]; [|apply n_cmd_id].
    destruct (parse_id 8 _ _ _ _) as [id|] eqn:EP; [|apply n_ret].
    cbn [discreet] in HC. apply parse_id_len in EP; [|lia|lia].
    apply n_bind; [|intros; apply n_ret]. apply n_update_bytes. unfold ID_START. lia.
  - unfold cmd_key. cbv zeta. destruct (if Zlen line >=? 5 then _ else _) as [[t|] last]; [|apply n_ret].
    destruct (66 =? _); [|apply n_ret]. destruct (strtok last) as [[t2|] r]; [|apply n_ret].
    destruct (znth t2 0 =? 42).
    + apply n_bind; [apply n_set_key; exact I|]. intros _. apply n_bind; [|intros; apply n_ret].
      destruct kc as [kc|]; [exact HC|apply n_ret].
    + destruct (Zlen line >=? 35); [|apply n_ret]. destruct (parse_key 15 r) as [ks|] eqn:EP; [|apply n_ret].
      apply parse_key_len in EP. apply n_bind; [|intros; apply n_ret]. apply n_set_key. rewrite Zlen_cons. lia.
  - unfold cmd_time. destruct (if Zlen line >=? 5 then _ else _) as [[t|] last]; [|apply n_ret].
    destruct (strtok last) as [[t2|] r]; [|apply n_ret]. apply n_bind; [apply n_rtc|]. intros [c' ok]. apply n_ret.
  - unfold cmd_priv. destruct (if Zlen line >=? 3 then _ else _) as [[t|] last]; [|apply n_ret].
    apply n_bind; [apply n_update; unfold TX_ENABLE; lia|intros; apply n_ret].
  - unfold cmd_zap. apply n_bind; [|intros; apply n_ret]. apply n_zap. unfold STATS_START. lia.
Qed.
(** Hence for whole sessions: all outputs are the same. *)
Theorem cli_key_secret_session : forall cs ck s1 s2 f1 f2, Forall (fun cl => discreet (fst cl)) cs ->
  (forall q, q < 112 \/ 128 <= q -> mem s1 q = mem s2 q) ->
  forall s1' s2' r1 r2 g1 g2,
  session cs ck s1 f1 = (s1', Some (r1, g1)) -> session cs ck s2 f2 = (s2', Some (r2, g2)) ->
  r1 = r2 /\ (forall q, q < 112 \/ 128 <= q -> mem s1' q = mem s2' q).
Proof.
  induction cs as [|[c line] cs IH]; intros ck s1 s2 f1 f2 HC HA s1' s2' r1 r2 g1 g2 E1 E2; cbn [session] in E1, E2.
  - unfold ret in E1, E2. apply pair_inj in E1, E2. destruct E1 as [<- E1], E2 as [<- E2].
    apply some_inj, pair_inj in E1, E2. destruct E1 as [<- _], E2 as [<- _]. split; [reflexivity|exact HA].
  - inversion HC as [|? ? H1 H2]; subst. cbn [fst] in H1. unfold mbind in E1, E2.
    destruct (exec c ck line s1 f1) as [t1 [[x1 h1]|]] eqn:X1; [|discriminate].
    destruct (exec c ck line s2 f2) as [t2 [[x2 h2]|]] eqn:X2; [|discriminate].
    destruct (cli_key_secret c ck line s1 s2 f1 f2 H1 HA _ _ _ _ _ _ X1 X2) as [<- HA2].
    destruct (session cs (fst x1) t1 h1) as [u1 [[y1 k1]|]] eqn:Y1; [|discriminate].
    destruct (session cs (fst x1) t2 h2) as [u2 [[y2 k2]|]] eqn:Y2; [|discriminate].
    destruct (IH _ _ _ _ _ H2 HA2 _ _ _ _ _ _ Y1 Y2) as [<- HA3].
    unfold ret in E1, E2. apply pair_inj in E1, E2. destruct E1 as [<- E1], E2 as [<- E2].
    apply some_inj, pair_inj in E1, E2. destruct E1 as [<- _], E2 as [<- _]. split; [reflexivity|exact HA3].
Qed.
(** Non-vacuity: two devices with different keys; "A ?", "G 0 7", "K B *", "D 0" all complete. *)
Example cli_key_secret_example :
  let s1 := mkEE (fun q => if (112 <=? q) && (q <? 128) then 7 else 255) [] in
  let s2 := mkEE (fun q => 255) [] in
  let cs := [(CmdA (repeat 0 8), [65; 32; 63]); (CmdG, [71; 32; 48; 32; 55]); (CmdK None, [75; 32; 66; 32; 42]); (CmdD, [68; 32; 48])] in
  let c0 := mkClock 0 0 0 in
  Forall (fun cl => discreet (fst cl)) cs /\
  match snd (session cs c0 s1 100%nat), snd (session cs c0 s2 100%nat) with
  | Some ((_, o1), g1), Some ((_, o2), g2) => o1 = o2 /\ length o1 = 4%nat /\ g1 = 83%nat /\ g2 = 99%nat
  | _, _ => False
  end.
Proof. cbv zeta. split; [repeat constructor|]. vm_compute. repeat split. Qed.
