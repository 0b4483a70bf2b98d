(** Reading a command line and parsing its arguments: C104, C105. *)
From Verif Require Import Base CliModel.

(** ** Specification of what the user has typed *)
Definition printable (c : Z) : bool := (32 <=? c) && (c <=? 126).
(** Characters that may start a command: '+', '?' and the letters. *)
Definition starter (c : Z) : bool :=
  (c =? 43) || (c =? 63) || ((65 <=? c) && (c <=? 90)) || ((97 <=? c) && (c <=? 122)).
Fixpoint from_starter (l : str) : str :=
  match l with [] => [] | c :: r => if starter c then l else from_starter r end.
Definition upper (c : Z) : Z := if (97 <=? c) && (c <=? 122) then c - 32 else c.
(** The command line meant by received characters [cs]: unprintable ones and everything
    before the first possible command letter are noise; the command letter counts as upper case. *)
Definition typed (cs : str) : str :=
  match from_starter (filter printable cs) with [] => [] | c :: r => upper c :: r end.
(** The characters among the polls, and the clock readings. *)
Definition chars (ps : list Poll) : str := flat_map (fun p => match p with PRx c => [c] | PIdle _ => [] end) ps.
Definition eol (c : Z) : Prop := c = 13 \/ c = 10.
Definition in_time (maxSCT : Z) (ps : list Poll) : Prop := forall t, In (PIdle t) ps -> t < maxSCT.

Lemma from_starter_snoc l c : from_starter (l ++ [c]) =
  match from_starter l with [] => if starter c then [c] else [] | x => x ++ [c] end.
Proof.
  induction l as [|a l IH]; cbn [app from_starter]; [destruct (starter c); reflexivity|].
  destruct (starter a); [reflexivity|exact IH].
Qed.
Lemma filter_snoc {A} (f : A -> bool) l c : filter f (l ++ [c]) = filter f l ++ (if f c then [c] else []).
Proof. rewrite filter_app. cbn. destruct (f c); reflexivity. Qed.
Lemma typed_snoc cs c : typed (cs ++ [c]) =
  if printable c then match typed cs with [] => if starter c then [upper c] else [] | x => x ++ [c] end
  else typed cs.
Proof.
  unfold typed. rewrite filter_snoc. destruct (printable c); [|rewrite app_nil_r; reflexivity].
  rewrite from_starter_snoc. destruct (from_starter (filter printable cs)) as [|a r]; [|reflexivity].
  destruct (starter c); reflexivity.
Qed.
Lemma chars_app a b : chars (a ++ b) = chars a ++ chars b.
Proof. apply flat_map_app. Qed.

(** The first character of a typed line. *)
Lemma typed_head cs : match typed cs with [] => True | c :: _ => c = 43 \/ c = 63 \/ 65 <= c <= 90 end.
Proof.
  unfold typed. assert (H : match from_starter (filter printable cs) with [] => True | c :: _ => starter c = true end).
  { induction (filter printable cs) as [|a l IH]; cbn [from_starter]; [exact I|].
    destruct (starter a) eqn:E; [exact E|exact IH]. }
  destruct (from_starter _) as [|c r]; [exact I|]. unfold starter, upper in *.
  destruct ((97 <=? c) && (c <=? 122)) eqn:E; lia.
Qed.
Lemma typed_printable cs : Forall (fun c => 32 <= c <= 126) (typed cs).
Proof.
  assert (H : Forall (fun c => 32 <= c <= 126) (from_starter (filter printable cs))).
  { assert (H : Forall (fun c => 32 <= c <= 126) (filter printable cs)).
    { apply Forall_forall. intros c Hc. apply filter_In in Hc. destruct Hc as [_ Hc]. unfold printable in Hc. lia. }
    induction H as [|c l Hc Hl IH]; cbn [from_starter]; [constructor|].
    destruct (starter c); [constructor; auto|exact IH]. }
  unfold typed. destruct (from_starter _) as [|c r]; [constructor|].
  inversion H; subst. constructor; [|assumption]. unfold upper. destruct ((97 <=? c) && (c <=? 122)) eqn:E; lia.
Qed.
Lemma typed_len cs : Zlen (typed cs) <= Zlen cs.
Proof.
  induction cs as [|c cs IH] using rev_ind; [cbn; lia|].
  rewrite typed_snoc, Zlen_app. change (Zlen [c]) with 1.
  destruct (printable c); [|lia]. destruct (typed cs) as [|a r] eqn:E.
  - pose proof (Zlen_nonneg cs). destruct (starter c); [change (Zlen [upper c]) with 1; lia|rewrite Zlen_nil; lia].
  - rewrite Zlen_app. change (Zlen [c]) with 1. lia.
Qed.

(** The buffer with [l] at its start. *)
Definition over (l b : list Z) : list Z := l ++ skipn (length l) b.
Lemma over_len l b : Zlen l <= Zlen b -> Zlen (over l b) = Zlen b.
Proof. intros H. unfold over. rewrite Zlen_app. unfold Zlen in *. rewrite skipn_length. lia. Qed.
Lemma skipn2 {A} (l : list A) : forall n m, skipn m (skipn n l) = skipn (n + m) l.
Proof. induction l; intros n m; [rewrite !skipn_nil; reflexivity|]. destruct n; [reflexivity|]. apply IHl. Qed.
Lemma over_blit l b x : Zlen l < Zlen b -> blit (over l b) (Zlen l) [x] = Some (over (l ++ [x]) b).
Proof.
  intros H. rewrite blit_some.
  - f_equal. unfold over. change (Zlen [x]) with 1.
    replace (Z.to_nat (Zlen l)) with (length l) by (unfold Zlen; lia).
    replace (Z.to_nat (Zlen l + 1)) with (length l + 1)%nat by (unfold Zlen; lia).
    rewrite firstn_app, Nat.sub_diag, firstn_O, app_nil_r, firstn_all, skipn_app, (skipn_all2 l) by lia.
    cbn [app]. rewrite skipn2, app_length, <- app_assoc. cbn [length app].
    do 3 f_equal. lia.
  - apply Zlen_nonneg.
  - rewrite over_len by lia. change (Zlen [x]) with 1. lia.
Qed.

(** The outcome when the loop stops with [l] in the buffer. *)
Definition delivered (l b : list Z) : ReadOut :=
  match l with [] => ODone 0 b | _ => ODone (Zlen l) (over (l ++ [0]) b) end.
Lemma read_done_ok cs b : Zlen (typed cs) < Zlen b ->
  read_done (Zlen (typed cs)) (over (typed cs) b) = delivered (typed cs) b.
Proof.
  intros H. unfold read_done, delivered. pose proof (typed_head cs) as HH.
  destruct (typed cs) as [|c l] eqn:E.
  - rewrite Zlen_nil. cbn. reflexivity.
  - pose proof (Zlen_nonneg l). rewrite Zlen_cons in *. replace (1 + Zlen l >? 0) with true by lia.
    rewrite rd_some by (rewrite over_len; rewrite ?Zlen_cons; lia).
    change (znth (over (c :: l) b) 0) with c. replace (negb ((c >? 32) && (c <=? 122))) with false by lia.
    rewrite <- Zlen_cons with (a := c). rewrite over_blit by (rewrite Zlen_cons; lia). reflexivity.
Qed.
Lemma read_done_zero b : read_done 0 b = ODone 0 b. Proof. reflexivity. Qed.

(** ** What the reading loop does, in one statement *)
Definition loop_result (maxSCT : Z) (b : list Z) (pre ps : list Poll) (o : ReadOut) : Prop :=
  (o = OWait /\ in_time maxSCT ps /\ (forall c, In c (chars ps) -> ~ eol c) /\
     Zlen (typed (chars (pre ++ ps))) < Zlen b - 1) \/
  (exists p t q l, ps = p ++ PIdle t :: q /\ t >= maxSCT /\ o = ODone 0 (over l b) /\ Zlen l <= Zlen b - 1 /\
     in_time maxSCT p /\ (forall c, In c (chars p) -> ~ eol c) /\ l = typed (chars (pre ++ p))) \/
  (exists p q, ps = p ++ q /\ in_time maxSCT p /\ (forall c, In c (chars p) -> ~ eol c) /\
     Zlen (typed (chars (pre ++ p))) <= Zlen b - 1 /\
     (Zlen (typed (chars (pre ++ p))) = Zlen b - 1 \/ exists c q', q = PRx c :: q' /\ eol c) /\
     o = delivered (typed (chars (pre ++ p))) b).

Lemma loop_result_step maxSCT b pre a ps o :
  (match a with PRx c => ~ eol c | PIdle t => t < maxSCT end) ->
  loop_result maxSCT b (pre ++ [a]) ps o -> loop_result maxSCT b pre (a :: ps) o.
Proof.
  intros HA H. unfold loop_result in *.
  assert (HT : forall p, in_time maxSCT p -> in_time maxSCT (a :: p)).
  { intros p Hp t [-> | Ht]; [exact HA|apply Hp; exact Ht]. }
  assert (HE : forall p, (forall c, In c (chars p) -> ~ eol c) -> forall c, In c (chars (a :: p)) -> ~ eol c).
  { intros p Hp c Hc. change (chars (a :: p)) with (match a with PRx c => [c] | PIdle _ => [] end ++ chars p) in Hc.
    apply in_app_or in Hc. destruct Hc as [Hc | Hc]; [|apply Hp; exact Hc].
    destruct a; [|destruct Hc]. destruct Hc as [<- | []]. exact HA. }
  assert (HC : forall p, (pre ++ [a]) ++ p = pre ++ a :: p) by (intros; rewrite <- app_assoc; reflexivity).
  destruct H as [(-> & H1 & H2 & H3) | [(p & t & q & l & -> & H1 & -> & H2 & H3 & H4 & H5) | (p & q & -> & H1 & H2 & H3 & H4 & ->)]].
  - left. rewrite HC in H3. exact (conj eq_refl (conj (HT _ H1) (conj (HE _ H2) H3))).
  - right. left. exists (a :: p), t, q, l. rewrite HC in H5.
    exact (conj eq_refl (conj H1 (conj eq_refl (conj H2 (conj (HT _ H3) (conj (HE _ H4) H5)))))).
  - right. right. exists (a :: p), q. rewrite HC in H3, H4. rewrite HC.
    exact (conj eq_refl (conj (HT _ H1) (conj (HE _ H2) (conj H3 (conj H4 eq_refl))))).
Qed.

Lemma read_loop_spec maxSCT b : forall ps pre, Zlen (typed (chars pre)) <= Zlen b - 1 ->
  loop_result maxSCT b pre ps
    (read_loop maxSCT (Zlen b) ps (Zlen (typed (chars pre))) (over (typed (chars pre)) b)).
Proof.
  induction ps as [|a ps IH]; intros pre HL; cbn [read_loop].
  - destruct (negb (Zlen (typed (chars pre)) <? Zlen b - 1)) eqn:E.
    + right. right. exists [], []. rewrite (app_nil_r pre). split; [reflexivity|].
      split; [intros t []|]. split; [intros c []|]. split; [lia|]. split; [left; lia|]. apply read_done_ok; lia.
    + left. rewrite (app_nil_r pre). split; [reflexivity|]. split; [intros t []|]. split; [intros c []|lia].
  - destruct (negb (Zlen (typed (chars pre)) <? Zlen b - 1)) eqn:E.
    { right. right. exists [], (a :: ps). rewrite (app_nil_r pre). split; [reflexivity|].
      split; [intros t []|]. split; [intros c []|]. split; [lia|]. split; [left; lia|]. apply read_done_ok; lia. }
    destruct a as [ic | sct].
    + destruct ((13 =? ic) || (10 =? ic)) eqn:E1.
      { right. right. exists [], (PRx ic :: ps). rewrite (app_nil_r pre). split; [reflexivity|].
        split; [intros t []|]. split; [intros c []|]. split; [lia|].
        split; [right; exists ic, ps; split; [reflexivity|unfold eol; lia]|]. apply read_done_ok; lia. }
      apply loop_result_step; [unfold eol; lia|].
      assert (HT : typed (chars (pre ++ [PRx ic])) = _) by (rewrite chars_app; apply typed_snoc).
      destruct ((ic <? 32) || (ic >? 126)) eqn:E2.
      { assert (printable ic = false) as HP by (unfold printable; lia). rewrite HP in HT.
        rewrite <- HT. apply IH. rewrite HT. lia. }
      assert (printable ic = true) as HP by (unfold printable; lia). rewrite HP in HT. cbv zeta.
      destruct (typed (chars pre)) as [|c0 l0] eqn:ET.
      * change (@Zlen Z []) with 0 in *. change (0 =? 0) with true. cbn [andb].
        change (toupper ic) with (upper ic).
        destruct (starter ic) eqn:ES.
        { replace (negb (43 =? upper ic) && negb (63 =? upper ic) && ((upper ic <? 65) || (upper ic >? 90))) with false
            by (unfold starter, upper in *; destruct ((97 <=? ic) && (ic <=? 122)) eqn:EU; lia).
          pose proof (over_blit [] b (upper ic) ltac:(rewrite Zlen_nil; lia)) as HB. rewrite Zlen_nil in HB. rewrite HB.
          cbn [app]. rewrite <- HT. change (0 + 1) with (Zlen [upper ic]). rewrite <- HT. apply IH. rewrite HT.
          change (Zlen [upper ic]) with 1. lia. }
        { replace (negb (43 =? upper ic) && negb (63 =? upper ic) && ((upper ic <? 65) || (upper ic >? 90))) with true
            by (unfold starter, upper in *; destruct ((97 <=? ic) && (ic <=? 122)) eqn:EU; lia).
          specialize (IH (pre ++ [PRx ic])). rewrite HT, Zlen_nil in IH. apply IH. lia. }
      * pose proof (Zlen_nonneg l0). rewrite Zlen_cons in *.
        replace (0 =? 1 + Zlen l0) with false by lia. cbn [andb].
        rewrite <- (Zlen_cons c0 l0) in *. rewrite over_blit by lia.
        specialize (IH (pre ++ [PRx ic])). rewrite HT, Zlen_app in IH. change (Zlen [ic]) with 1 in IH.
        apply IH. lia.
    + destruct (sct >=? maxSCT) eqn:E1.
      { right. left. exists [], sct, ps, (typed (chars pre)). rewrite (app_nil_r pre). split; [reflexivity|].
        split; [lia|]. split; [reflexivity|]. split; [lia|]. split; [intros t []|]. split; [intros c []|reflexivity]. }
      apply loop_result_step; [lia|].
      assert (HT : chars (pre ++ [PIdle sct]) = chars pre) by (rewrite chars_app; apply app_nil_r).
      specialize (IH (pre ++ [PIdle sct])). rewrite HT in IH. apply IH. exact HL.
Qed.

(** ** C104 *)

(** Whatever arrives and whenever, the reader stays inside its buffer (it reaches no
    undefined behaviour), never reports more than the buffer holds and leaves its size alone. *)
Theorem cli_read_safe : forall maxSCT sct0 b polls,
  read_line maxSCT sct0 (Some b) polls <> OUB /\
  forall n b', read_line maxSCT sct0 (Some b) polls = ODone n b' ->
    Zlen b' = Zlen b /\ 0 <= n <= Z.max 0 (Zlen b - 1).
Proof.
  intros maxSCT sct0 b polls. unfold read_line. pose proof (Zlen_nonneg b).
  destruct (Zlen b <? 2) eqn:E; [split; [discriminate|intros n b' [= <- <-]; lia]|].
  destruct (sct0 >=? _); [split; [discriminate|intros n b' [= <- <-]; lia]|].
  pose proof (read_loop_spec maxSCT b polls [] ltac:(change (typed (chars [])) with (@nil Z); rewrite Zlen_nil; lia)) as H1.
  change (typed (chars [])) with (@nil Z) in H1. rewrite Zlen_nil in H1. change (over [] b) with b in H1.
  destruct H1 as [(-> & _) | [(p & t & q & l & _ & _ & -> & H1 & _) | (p & q & _ & _ & _ & H1 & _ & ->)]].
  - split; [discriminate|intros; discriminate].
  - split; [discriminate|]. intros n b' [= <- <-]. rewrite over_len by lia. lia.
  - cbn [app] in *. unfold delivered. destruct (typed (chars p)) as [|c r] eqn:ET; rewrite ?ET in *.
    + split; [discriminate|]. intros n b' [= <- <-]. lia.
    + split; [discriminate|]. intros n b' [= <- <-]. pose proof (Zlen_nonneg (c :: r)).
      rewrite over_len; [lia|].
      rewrite Zlen_cons, Zlen_app in *. change (Zlen [0]) with 1. lia.
Qed.

(** A reported line is exactly what was typed after the prompt up to the end of line (or to
    the buffer filling up), NUL-terminated, and it was all received in time. *)
Theorem cli_read_exact : forall maxSCT sct0 b polls n b',
  byte maxSCT -> byte sct0 -> read_line maxSCT sct0 (Some b) polls = ODone n b' -> n <> 0 ->
  exists ps rest, polls = ps ++ rest /\ in_time maxSCT ps /\ (forall c, In c (chars ps) -> ~ eol c) /\
    (n = Zlen b - 1 \/ exists c rest', rest = PRx c :: rest' /\ eol c) /\
    n = Zlen (typed (chars ps)) /\
    b' = typed (chars ps) ++ [0] ++ skipn (Z.to_nat (n + 1)) b /\
    sct0 + 26 < maxSCT.
Proof.
  intros maxSCT sct0 b polls n b' BM BS H Hn. unfold read_line in H.
  destruct (Zlen b <? 2) eqn:E; [congruence|].
  destruct (sct0 >=? _) eqn:ES; [congruence|].
  pose proof (read_loop_spec maxSCT b polls [] ltac:(change (typed (chars [])) with (@nil Z); rewrite Zlen_nil; lia)) as H1.
  change (typed (chars [])) with (@nil Z) in H1. rewrite Zlen_nil in H1. change (over [] b) with b in H1.
  rewrite H in H1.
  destruct H1 as [(H1 & _) | [(p & t & q & l & _ & _ & H1 & _) | (p & q & -> & H1 & H2 & H3 & H4 & H5)]]; [congruence|congruence|].
  cbn [app] in *. unfold delivered in H5. destruct (typed (chars p)) as [|c r] eqn:ET; [congruence|].
  injection H5 as Hn' Hb'. exists p, q. rewrite ET. split; [reflexivity|]. split; [exact H1|]. split; [exact H2|].
  split; [destruct H4 as [H4 | H4]; [left; congruence|right; exact H4]|]. split; [exact Hn'|].
  split.
  - rewrite Hb'. change (c :: r ++ [0]) with ((c :: r) ++ [0]). unfold over.
    rewrite <- app_assoc. do 2 f_equal. rewrite app_length. subst n.
    unfold Zlen. cbn [length app]. f_equal. f_equal. lia.
  - destruct (maxSCT <=? MIN_CLI_POLL_SCT) eqn:EM; unfold MIN_CLI_POLL_SCT in *.
    + unfold byte in *. lia.
    + unfold byte in *. rewrite u8_id in ES by (unfold byte; lia). lia.
Qed.

Lemma typed_more a d : typed a <> [] -> typed (a ++ d) = typed a ++ filter printable d.
Proof.
  intros H. induction d as [|x d IH] using rev_ind; [cbn; rewrite !app_nil_r; reflexivity|].
  rewrite app_assoc, typed_snoc, filter_snoc, IH. destruct (printable x); [|rewrite app_nil_r; reflexivity].
  rewrite app_assoc. destruct (typed a) as [|y r]; [congruence|reflexivity].
Qed.

(** A complete line that fits and arrives in time is delivered, whatever precedes, follows or
    interrupts it. *)
Theorem cli_read_delivers : forall maxSCT sct0 b ps c rest,
  byte maxSCT -> 0 <= sct0 -> sct0 + 26 < maxSCT -> eol c ->
  in_time maxSCT ps -> (forall d, In d (chars ps) -> ~ eol d) ->
  0 < Zlen (typed (chars ps)) < Zlen b ->
  exists b', read_line maxSCT sct0 (Some b) (ps ++ PRx c :: rest) = ODone (Zlen (typed (chars ps))) b' /\
    firstn (length (typed (chars ps)) + 1) b' = typed (chars ps) ++ [0].
Proof.
  intros maxSCT sct0 b ps c rest BM B0 HS HC HT HE HL. unfold read_line.
  replace (Zlen b <? 2) with false by lia.
  replace (maxSCT <=? MIN_CLI_POLL_SCT) with false by (unfold MIN_CLI_POLL_SCT; lia).
  rewrite u8_id by (unfold byte, MIN_CLI_POLL_SCT in *; lia).
  replace (sct0 >=? maxSCT - 1 - MIN_CLI_POLL_SCT) with false by (unfold MIN_CLI_POLL_SCT; lia).
  pose proof (read_loop_spec maxSCT b (ps ++ PRx c :: rest) []
    ltac:(change (typed (chars [])) with (@nil Z); change (@Zlen Z []) with 0; lia)) as H1.
  change (typed (chars [])) with (@nil Z) in H1. change (@Zlen Z []) with 0 in H1. change (over [] b) with b in H1.
  (* a strict prefix of the polls up to the end of line cannot have filled the buffer *)
  destruct H1 as [(_ & _ & H1 & _) | [(p & t & q & l & H1 & H2 & _ & _ & _ & H3 & _) | (p & q & H1 & H2 & H3 & H4 & H5 & ->)]].
  - exfalso. apply (H1 c); [rewrite chars_app; apply in_or_app; right; left; reflexivity|exact HC].
  - exfalso. apply app_eq_app in H1. destruct H1 as (z & [[-> H1] | [-> H1]]).
    + destruct z as [|y z]; [discriminate|]. injection H1 as <- H1.
      specialize (HT t). assert (t < maxSCT) by (apply HT, in_or_app; right; left; reflexivity). lia.
    + destruct z as [|y z]; [discriminate|]. injection H1 as <- H1.
      apply (H3 c); [|exact HC]. rewrite chars_app. apply in_or_app. right. left. reflexivity.
  - cbn [app] in *.
    assert (typed (chars p) = typed (chars ps)) as HP.
    { apply app_eq_app in H1. destruct H1 as (z & [[E1 E2] | [E1 E2]]).
      - (* p is a prefix of ps *) subst ps. rewrite chars_app in *. destruct H5 as [H5 | (d & q' & -> & Hd)].
        + assert (HN : typed (chars p) <> []).
          { intros HN. rewrite HN in H5. change (@Zlen Z []) with 0 in H5.
            assert (Zlen (typed (chars p ++ chars z)) < 1) by lia. lia. }
          rewrite typed_more by exact HN. rewrite typed_more in HL by exact HN. rewrite Zlen_app in HL.
          destruct (filter printable (chars z)) as [|y r]; [rewrite app_nil_r; reflexivity|].
          rewrite Zlen_cons in HL. pose proof (Zlen_nonneg r). lia.
        + destruct z as [|y z]; [rewrite app_nil_r; reflexivity|]. exfalso. injection E2 as <- E2.
          apply (HE d); [|exact Hd]. apply in_or_app. right. left. reflexivity.
      - subst p. destruct z as [|y z]; [rewrite app_nil_r; reflexivity|]. exfalso. injection E2 as <- E2.
        apply (H3 c); [|exact HC]. rewrite chars_app. apply in_or_app. right. left. reflexivity. }
    rewrite HP in *. unfold delivered. destruct (typed (chars ps)) as [|y r] eqn:ET; [change (@Zlen Z []) with 0 in HL; lia|].
    eexists. split; [reflexivity|]. unfold over. rewrite firstn_app.
    replace (length (y :: r) + 1)%nat with (length ((y :: r) ++ [0])) by (rewrite app_length; reflexivity).
    rewrite firstn_all, Nat.sub_diag. apply app_nil_r.
Qed.

(** The first time the reader finds no character waiting at or after the limit, it has
    returned; an unfinished line is then dropped (0 is returned), never executed. *)
Theorem cli_read_ends : forall maxSCT sct0 b ps t rest, t >= maxSCT ->
  exists n b', read_line maxSCT sct0 (Some b) (ps ++ PIdle t :: rest) = ODone n b' /\
  ((forall c, In c (chars ps) -> ~ eol c) -> Zlen (typed (chars ps)) < Zlen b - 1 -> n = 0).
Proof.
  intros maxSCT sct0 b ps t rest Ht. unfold read_line.
  destruct (Zlen b <? 2) eqn:E; [exists 0, b; auto|].
  destruct (sct0 >=? _) eqn:ES; [exists 0, b; auto|].
  pose proof (read_loop_spec maxSCT b (ps ++ PIdle t :: rest) []
    ltac:(change (typed (chars [])) with (@nil Z); change (@Zlen Z []) with 0; lia)) as H1.
  change (typed (chars [])) with (@nil Z) in H1. change (@Zlen Z []) with 0 in H1. change (over [] b) with b in H1.
  destruct H1 as [(_ & H1 & _) | [(p & u & q & l & H1 & H2 & -> & _) | (p & q & H1 & H2 & H3 & H4 & H5 & ->)]].
  - exfalso. specialize (H1 t). assert (t < maxSCT) by (apply H1, in_or_app; right; left; reflexivity). lia.
  - exists 0, (over l b). auto.
  - cbn [app] in *. destruct (typed (chars p)) as [|y r] eqn:ET.
    + exists 0, b. auto.
    + eexists _, _. split; [reflexivity|]. intros HE HL. exfalso.
      apply app_eq_app in H1. destruct H1 as (z & [[E1 E2] | [E1 E2]]).
      * subst ps. rewrite chars_app in *. destruct H5 as [H5 | (d & q' & -> & Hd)].
        -- rewrite typed_more, ET in HL by (rewrite ET; discriminate). rewrite Zlen_app in HL.
           pose proof (Zlen_nonneg (filter printable (chars z))). lia.
        -- destruct z as [|w z]; [discriminate|]. injection E2 as <- E2.
           apply (HE d); [|exact Hd]. apply in_or_app. right. left. reflexivity.
      * subst p. destruct z as [|w z].
        -- rewrite app_nil_r in ET. destruct H5 as [H5 | (d & q' & -> & Hd)]; [|discriminate].
           rewrite ET in HL. lia.
        -- injection E2 as <- E2. assert (t < maxSCT) by (apply H2, in_or_app; right; left; reflexivity). lia.
Qed.

(** Without a usable buffer, or too close to the limit, nothing is read at all. *)
Theorem cli_read_refuses : forall maxSCT sct0 polls,
  read_line maxSCT sct0 None polls = ODone 0 [] /\
  forall b, Zlen b < 2 \/ (byte maxSCT /\ 0 <= sct0 /\ maxSCT <= sct0 + 26) ->
    read_line maxSCT sct0 (Some b) polls = ODone 0 b.
Proof.
  intros maxSCT sct0 polls. split; [reflexivity|]. intros b H. unfold read_line.
  destruct (Zlen b <? 2) eqn:E; [reflexivity|]. destruct H as [H | (BM & B0 & HS)]; [lia|].
  destruct (maxSCT <=? MIN_CLI_POLL_SCT) eqn:EM; unfold MIN_CLI_POLL_SCT in *.
  - replace (sct0 >=? 0) with true by lia. reflexivity.
  - rewrite u8_id by (unfold byte in *; lia). replace (sct0 >=? maxSCT - 1 - 25) with true by lia. reflexivity.
Qed.

(** What a delivered line looks like. *)
Theorem cli_line_shape : forall cs,
  Forall (fun c => 32 <= c <= 126) (typed cs) /\
  match typed cs with [] => True | c :: _ => c = 43 \/ c = 63 \/ 65 <= c <= 90 end /\
  Zlen (typed cs) <= Zlen cs.
Proof. intros. split; [apply typed_printable|]. split; [apply typed_head|apply typed_len]. Qed.

(** "  t 12 34" typed with noise and pauses is read as "T 12 34". *)
Example cli_read_example :
  let ps := [PRx 0; PRx 32; PIdle 40; PRx 32; PRx 116; PRx 32; PIdle 41; PRx 49; PRx 200; PRx 50; PRx 32; PRx 51; PRx 52] in
  typed (chars ps) = [84; 32; 49; 50; 32; 51; 52] /\
  read_line 200 30 (Some (repeat 9 10)) (ps ++ [PRx 13; PRx 10]) =
    ODone 7 [84; 32; 49; 50; 32; 51; 52; 0; 9; 9] /\
  read_line 200 30 (Some (repeat 9 5)) (ps ++ [PRx 13; PRx 10]) = ODone 4 [84; 32; 49; 50; 0] /\
  (exists b, read_line 200 30 (Some (repeat 9 10)) (ps ++ [PIdle 201; PRx 13]) = ODone 0 b).
Proof. cbv zeta. split; [reflexivity|]. split; [reflexivity|]. split; [reflexivity|]. eexists. reflexivity. Qed.

(** ** C105: arguments *)

(** The hexadecimal digits in order, in either case. *)
Definition lower_hex : str := [48; 49; 50; 51; 52; 53; 54; 55; 56; 57; 97; 98; 99; 100; 101; 102].
Definition upper_hex : str := [48; 49; 50; 51; 52; 53; 54; 55; 56; 57; 65; 66; 67; 68; 69; 70].
Definition is_hex (c d : Z) : Prop :=
  0 <= d /\ (nth_error lower_hex (Z.to_nat d) = Some c \/ nth_error upper_hex (Z.to_nat d) = Some c).
(** A token denoting the byte [v]: one hex digit, or two followed by anything. *)
Definition hex_token (t : str) (v : Z) : Prop :=
  match t with
  | [] => False
  | [c] => is_hex c v
  | c :: d :: _ => exists h l, is_hex c h /\ is_hex d l /\ v = 16 * h + l
  end.

Lemma parseHexDigit_spec c d : is_hex c d <-> parseHexDigit c = d /\ d <> -1.
Proof.
  unfold is_hex, parseHexDigit, lower_hex, upper_hex. split.
  - intros [H0 H]. assert (HL : (Z.to_nat d < 16)%nat).
    { destruct (Nat.lt_ge_cases (Z.to_nat d) 16) as [HL | HL]; [exact HL|].
      exfalso. destruct H as [H | H]; rewrite (proj2 (nth_error_None _ _)) in H by (cbn; lia); discriminate. }
    assert (d = 0 \/ d = 1 \/ d = 2 \/ d = 3 \/ d = 4 \/ d = 5 \/ d = 6 \/ d = 7 \/ d = 8 \/ d = 9 \/ d = 10 \/ d = 11 \/ d = 12 \/ d = 13 \/ d = 14 \/ d = 15) as HD by lia.
    clear HL H0. destruct H as [H | H];
    repeat (destruct HD as [-> | HD]; [injection H as <-; cbn; split; [reflexivity|discriminate]|]);
    subst d; injection H as <-; cbn; (split; [reflexivity|discriminate]).
  - intros [H HN]. destruct ((48 <=? c) && (c <=? 57)) eqn:E1.
    { split; [lia|]. left. assert (c = 48 \/ c = 49 \/ c = 50 \/ c = 51 \/ c = 52 \/ c = 53 \/ c = 54 \/ c = 55 \/ c = 56 \/ c = 57) as HD by lia.
      subst d. repeat (destruct HD as [-> | HD]; [reflexivity|]). subst c. reflexivity. }
    destruct ((97 <=? c) && (c <=? 102)) eqn:E2.
    { split; [lia|]. left. assert (c = 97 \/ c = 98 \/ c = 99 \/ c = 100 \/ c = 101 \/ c = 102) as HD by lia.
      subst d. repeat (destruct HD as [-> | HD]; [reflexivity|]). subst c. reflexivity. }
    destruct ((65 <=? c) && (c <=? 70)) eqn:E3; [|congruence].
    split; [lia|]. right. assert (c = 65 \/ c = 66 \/ c = 67 \/ c = 68 \/ c = 69 \/ c = 70) as HD by lia.
    subst d. repeat (destruct HD as [-> | HD]; [reflexivity|]). subst c. reflexivity.
Qed.
Lemma parseHexDigit_range c : parseHexDigit c = -1 \/ 0 <= parseHexDigit c < 16.
Proof.
  unfold parseHexDigit. destruct ((48 <=? c) && (c <=? 57)) eqn:E1; [lia|].
  destruct ((97 <=? c) && (c <=? 102)) eqn:E2; [lia|]. destruct ((65 <=? c) && (c <=? 70)) eqn:E3; lia.
Qed.
Lemma nibbles h l : 0 <= h < 16 -> 0 <= l < 16 -> Z.lor (Z.shiftl h 4) l = 16 * h + l.
Proof.
  intros Hh Hl. rewrite Z.shiftl_mul_pow2 by lia. change (2 ^ 4) with 16.
  assert (HA : Z.land (h * 16) l = 0).
  { change 16 with (2 ^ 4). rewrite <- Z.shiftl_mul_pow2 by lia. apply Z.bits_inj'. intros n Hn.
    rewrite Z.land_spec, Z.bits_0. destruct (Z_lt_le_dec n 4) as [Hlt | Hge].
    - rewrite Z.shiftl_spec_low by lia. reflexivity.
    - destruct (Z.eq_dec l 0) as [-> | Hl0]; [rewrite Z.bits_0, andb_false_r; reflexivity|].
      rewrite (Z.bits_above_log2 l n); [apply andb_false_r|lia|].
      apply Z.lt_le_trans with 4; [|lia]. apply Z.log2_lt_pow2; [lia|]. change (2 ^ 4) with 16. lia. }
  rewrite <- Z.lxor_lor by exact HA. rewrite <- Z.add_nocarry_lxor by exact HA. lia.
Qed.

(** Hex arguments: exactly the hex tokens are accepted, with their value; everything else,
    including a missing argument, is -1. *)
Theorem cli_hex_parse :
  (forall t v, hex_token t v -> parseHexByte (Some t) = v /\ 0 <= v <= 255) /\
  (forall t, (forall v, ~ hex_token t v) -> parseHexByte (Some t) = -1) /\
  parseHexByte None = -1.
Proof.
  split; [|split; [|reflexivity]].
  - intros [|c [|d r]] v H; cbn [hex_token] in H; [destruct H| |].
    + apply parseHexDigit_spec in H. destruct H as [<- H]. unfold parseHexByte. cbv zeta.
      pose proof (parseHexDigit_range c). destruct (parseHexDigit c =? -1) eqn:E; lia.
    + destruct H as (h & l & Hh & Hl & ->). apply parseHexDigit_spec in Hh, Hl.
      destruct Hh as [<- Hh], Hl as [<- Hl]. unfold parseHexByte. cbv zeta.
      pose proof (parseHexDigit_range c). pose proof (parseHexDigit_range d).
      destruct (parseHexDigit c =? -1) eqn:E; [lia|]. destruct (parseHexDigit d =? -1) eqn:E2; [lia|].
      rewrite nibbles by lia. lia.
  - intros [|c [|d r]] H; cbn [hex_token] in H; [reflexivity| |].
    + unfold parseHexByte. cbv zeta. destruct (parseHexDigit c =? -1) eqn:E; [reflexivity|].
      exfalso. apply (H (parseHexDigit c)). apply parseHexDigit_spec. lia.
    + unfold parseHexByte. cbv zeta. destruct (parseHexDigit c =? -1) eqn:E; [reflexivity|].
      destruct (parseHexDigit d =? -1) eqn:E2; [reflexivity|].
      exfalso. apply (H (16 * parseHexDigit c + parseHexDigit d)).
      exists (parseHexDigit c), (parseHexDigit d). rewrite !parseHexDigit_spec. lia.
Qed.

(** What the library prints as hex it reads back, for every byte. *)
Theorem cli_hex_roundtrip : forall v, byte v -> parseHexByte (Some (hexDigits v)) = v.
Proof.
  intros v Hv. revert v Hv.
  assert (H : below 256 (fun v => parseHexByte (Some (hexDigits v)) =? v) = true) by (vm_compute; reflexivity).
  intros v Hv. pose proof (below_spec _ _ H v Hv) as H1. cbv beta in H1. lia.
Qed.

(** The value of a string of decimal digits. *)
Definition decimal (ds : str) : Z := fold_left (fun a c => 10 * a + (c - 48)) ds 0.
Definition digits (ds : str) : Prop := ds <> [] /\ Forall (fun c => 48 <= c <= 57) ds.

Lemma decimal_mono ds : Forall (fun c => 48 <= c <= 57) ds -> forall a, 0 <= a ->
  a <= fold_left (fun a c => 10 * a + (c - 48)) ds a.
Proof.
  induction 1 as [|c r Hc Hr IH]; intros a Ha; cbn [fold_left]; [lia|].
  specialize (IH (10 * a + (c - 48)) ltac:(lia)). lia.
Qed.
Lemma atoi_digits_spec ds rest : Forall (fun c => 48 <= c <= 57) ds ->
  match rest with [] => True | c :: _ => ~ (48 <= c <= 57) end -> forall a, 0 <= a ->
  fold_left (fun a c => 10 * a + (c - 48)) ds a <= 32767 ->
  atoi_digits a (ds ++ rest) = fold_left (fun a c => 10 * a + (c - 48)) ds a.
Proof.
  intros H HR. induction H as [|c r Hc Hr IH]; intros a Ha HB; cbn [fold_left app] in *.
  - destruct rest as [|c r]; cbn [atoi_digits]; [reflexivity|].
    replace ((48 <=? c) && (c <=? 57)) with false by lia. reflexivity.
  - cbn [atoi_digits]. replace ((48 <=? c) && (c <=? 57)) with true by lia.
    pose proof (decimal_mono r Hr (10 * a + (c - 48)) ltac:(lia)).
    rewrite i16_id by lia. replace (a * 10 + (c - 48)) with (10 * a + (c - 48)) by lia. apply IH; lia.
Qed.

(** Decimal arguments: a token made of digits (perhaps followed by other characters) denotes
    its value up to the largest int; one with no digit in front denotes 0. *)
Theorem cli_decimal_parse :
  (forall ds rest, digits ds -> match rest with [] => True | c :: _ => ~ (48 <= c <= 57) end ->
     decimal ds <= 32767 -> atoi (ds ++ rest) = decimal ds) /\
  (forall ds, digits ds -> decimal ds <= 32768 -> atoi (45 :: ds) = - decimal ds \/ decimal ds = 32768) /\
  (forall t, match t with [] => True | c :: _ => ~ (48 <= c <= 57) /\ c <> 43 /\ c <> 45 /\ c <> 32 /\ ~ (9 <= c <= 13) end ->
     atoi t = 0).
Proof.
  split; [|split].
  - intros ds rest [HN HF] HR HB. unfold atoi, decimal in *. destruct ds as [|c r]; [congruence|].
    assert (48 <= c <= 57) as Hc by (inversion HF; assumption). cbn [app skip_ws].
    replace ((c =? 32) || ((9 <=? c) && (c <=? 13))) with false by lia.
    replace (c =? 45) with false by lia. replace (c =? 43) with false by lia.
    change (c :: r ++ rest) with ((c :: r) ++ rest). apply atoi_digits_spec; auto. lia.
  - intros ds [HN HF] HB. change (atoi (45 :: ds)) with (i16 (- atoi_digits 0 ds)). unfold decimal in *.
    destruct (Z.eq_dec (fold_left (fun a c => 10 * a + (c - 48)) ds 0) 32768) as [HE | HE]; [right; exact HE|left].
    pose proof (atoi_digits_spec ds [] HF I 0 ltac:(lia) ltac:(lia)) as H1. rewrite app_nil_r in H1. rewrite H1.
    pose proof (decimal_mono ds HF 0 ltac:(lia)). apply i16_id. lia.
  - intros [|c r] H; [reflexivity|]. unfold atoi. cbn [skip_ws].
    replace ((c =? 32) || ((9 <=? c) && (c <=? 13))) with false by lia.
    replace (c =? 45) with false by lia. replace (c =? 43) with false by lia. cbn [atoi_digits].
    replace ((48 <=? c) && (c <=? 57)) with false by lia. reflexivity.
Qed.

Example cli_parse_examples :
  parseHexByte (Some [102; 69]) = 254 /\ parseHexByte (Some [97]) = 10 /\ parseHexByte (Some [97; 103]) = -1 /\
  atoi [48; 48; 50; 53; 53] = 255 /\ atoi [120; 49] = 0 /\ atoi [45; 55] = -7 /\ atoi [54; 53; 53; 51; 55] = 1.
Proof. repeat split. Qed.

(** *** Words of a line *)
Fixpoint split_sp (s : str) : list str :=
  match s with
  | [] => [[]]
  | c :: r => if c =? 32 then [] :: split_sp r
              else match split_sp r with w :: ws => (c :: w) :: ws | [] => [[c]] end
  end.
(** The words: the non-empty pieces between spaces. *)
Definition words (s : str) : list str := filter (fun w => match w with [] => false | _ => true end) (split_sp s).

Lemma words_sp r : words (32 :: r) = words r. Proof. reflexivity. Qed.
Lemma words_skip s : words (skip_sp s) = words s.
Proof.
  induction s as [|c r IH]; [reflexivity|]. cbn [skip_sp]. destruct (c =? 32) eqn:E; [|reflexivity].
  apply Z.eqb_eq in E. subst c. rewrite IH. reflexivity.
Qed.
Lemma split_ne s : split_sp s <> [].
Proof. destruct s as [|c r]; cbn; [discriminate|]. destruct (c =? 32); [discriminate|]. destruct (split_sp r); discriminate. Qed.
Lemma tok_split_words s : words s = (match fst (tok_split s) with [] => [] | t => [t] end) ++ words (snd (tok_split s)).
Proof.
  enough (H : forall s, exists ws, split_sp s = fst (tok_split s) :: ws /\
    filter (fun w => match w with [] => false | _ => true end) ws = words (snd (tok_split s))).
  { destruct (H s) as (ws & H1 & H2). unfold words at 1. rewrite H1. cbn [filter]. rewrite H2.
    destruct (fst (tok_split s)); reflexivity. }
  clear s. induction s as [|c r IH]; cbn [split_sp tok_split].
  - exists []. split; reflexivity.
  - destruct (c =? 32) eqn:E.
    + exists (split_sp r). split; reflexivity.
    + destruct IH as (ws & H1 & H2). rewrite H1. destruct (tok_split r) as [t q]. cbn [fst snd] in *.
      exists ws. split; [reflexivity|exact H2].
Qed.
(** strtok_r delivers the words one after the other. *)
Lemma strtok_words s : match words s with
  | [] => strtok s = (None, [])
  | t :: ws => exists r, strtok s = (Some t, r) /\ words r = ws
  end.
Proof.
  unfold strtok. rewrite <- words_skip.
  assert (HS : match skip_sp s with [] => True | c :: _ => c <> 32 end).
  { induction s as [|c r IH]; cbn [skip_sp]; [exact I|]. destruct (c =? 32) eqn:E; [exact IH|lia]. }
  destruct (skip_sp s) as [|c r]; [reflexivity|].
  pose proof (tok_split_words (c :: r)) as H. cbn [tok_split] in *. replace (c =? 32) with false in * by lia.
  destruct (tok_split r) as [t q]. cbn [fst snd app] in H. rewrite H. exists q. split; reflexivity.
Qed.
Lemma words_nonempty s : Forall (fun w => w <> []) (words s).
Proof.
  apply Forall_forall. intros w H. apply filter_In in H. destruct H as [_ H]. destruct w; [discriminate|discriminate].
Qed.
