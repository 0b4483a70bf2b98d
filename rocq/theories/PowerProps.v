(** Properties of power management (C158). *)
From Verif Require Import Base PowerModel.

Definition prog_ind' (P : Prog -> Prop)
  (H : forall d ok i1 i2 i3 body i4 i5, Forall P i1 -> Forall P i2 -> Forall P i3 -> Forall P body -> Forall P i4 -> Forall P i5 -> P (Use d ok i1 i2 i3 body i4 i5))
  (HB : P Bandgap) : forall p, P p :=
  fix ind (p : Prog) : P p :=
    let all := fix all (l : list Prog) : Forall P l := match l with [] => Forall_nil P | p :: r => Forall_cons p (ind p) (all r) end in
    match p with Use d ok i1 i2 i3 body i4 i5 => H d ok i1 i2 i3 body i4 i5 (all i1) (all i2) (all i3) (all body) (all i4) (all i5) | Bandgap => HB end.

Lemma execs_eq l s : (fix all (l : list Prog) (s : Pow) : Pow * bool :=
    match l with [] => (s, true) | p :: r => let (s, f1) := exec p s in let (s, f2) := all r s in (s, f1 && f2) end) l s = execs l s.
Proof. revert s. induction l as [|p l IH]; intros s; [reflexivity|]. cbn [execs]. destruct (exec p s) as [s1 f1]. rewrite IH. reflexivity. Qed.

Lemma exec_use d ok i1 i2 i3 body i4 i5 s : exec (Use d ok i1 i2 i3 body i4 i5) s =
      if get d (prr s) then
        let (s, f1) := execs i1 s in
        let r := prr s in
        let (s, f2) := execs i2 s in
        let s := mkPow (set d false r) (en s) in
        let (s, f3) := execs i3 s in
        let s := mkPow (prr s) (set d true (en s)) in
        let u1 := negb (get d (prr s)) && get d (en s) in
        let (s, f) := execs body s in
        let u2 := negb (get d (prr s)) && get d (en s) in
        if ok then
          let s := mkPow (prr s) (set d false (en s)) in
          let (s, f4) := execs i4 s in
          let r := prr s in
          let (s, f5) := execs i5 s in
          (mkPow (set d true r) (en s), f1 && f2 && f3 && u1 && f && u2 && f4 && f5)
        else (s, f1 && f2 && f3 && u1 && f && u2)
      else
        let u1 := negb (get d (prr s)) && get d (en s) in
        let (s, f) := execs body s in
        (s, u1 && f && (negb (get d (prr s)) && get d (en s))).
Proof.
  cbn [exec]. rewrite !execs_eq. destruct (get d (prr s)); [|rewrite ?execs_eq; reflexivity]. destruct (execs i1 s) as [s1 f1]. rewrite ?execs_eq.
  destruct (execs i2 s1) as [s2 f2]. cbv zeta. rewrite ?execs_eq. destruct (execs i3 _) as [s3 f3]. rewrite ?execs_eq. destruct (execs body _) as [s4 f4].
  destruct ok; [|reflexivity]. rewrite ?execs_eq. destruct (execs i4 _) as [s5 f5]. rewrite ?execs_eq. destruct (execs i5 s5) as [s6 f6]. reflexivity.
Qed.

(** Code that returns only at the end, and does not use the comparator; with
    everything it calls and every interrupt. *)
Inductive proper : Prog -> Prop :=
| proper_use d i1 i2 i3 body i4 i5 : Forall proper (i1 ++ i2 ++ i3 ++ body ++ i4 ++ i5) -> proper (Use d true i1 i2 i3 body i4 i5).
(** A device that is powered down is disabled. *)
Definition calm (s : Pow) : Prop := forall d, get d (prr s) = true -> get d (en s) = false.

Lemma set_get d v r : get d (set d v r) = v. Proof. destruct d; reflexivity. Qed.
Lemma set_other d e v r : d <> e -> get d (set e v r) = get d r. Proof. destruct d, e; intros H; try reflexivity; congruence. Qed.
Lemma set_set d v w r : set d v (set d w r) = set d v r. Proof. destruct d; reflexivity. Qed.
Lemma set_same d r v : get d r = v -> set d v r = r. Proof. destruct d, r; cbn; intros <-; reflexivity. Qed.
Definition dev_eq (d e : Dev) : {d = e} + {d <> e}. Proof. decide equality. Defined.
Lemma same_state (r : Pow * bool) s : fst r = s -> r = (s, snd r). Proof. destruct r; cbn; intros ->; reflexivity. Qed.

Lemma execs_keep l : Forall (fun p => proper p -> forall s, calm s -> fst (exec p s) = s) l -> Forall proper l -> forall s, calm s -> fst (execs l s) = s.
Proof.
  induction l as [|p l IH]; intros H HP s HS; [reflexivity|]. inversion H as [|? ? H1 H2]; subst. inversion HP as [|? ? P1 P2]; subst. cbn [execs].
  rewrite (same_state _ _ (H1 P1 s HS)). rewrite (same_state _ _ (IH H2 P2 s HS)). reflexivity.
Qed.

Lemma calm_on d s : calm s -> calm (mkPow (set d false (prr s)) (en s)).
Proof. intros H e. cbn [prr en]. destruct (dev_eq e d) as [-> |N]; [rewrite set_get; discriminate | rewrite set_other by exact N; apply H]. Qed.
Lemma calm_en d s : calm s -> get d (prr s) = false -> calm (mkPow (prr s) (set d true (en s))).
Proof. intros H HD e. cbn [prr en]. destruct (dev_eq e d) as [-> |N]; [rewrite HD; discriminate | rewrite set_other by exact N; apply H]. Qed.

Lemma exec_keep : forall p, proper p -> forall s, calm s -> fst (exec p s) = s.
Proof.
  induction p as [d ok i1 i2 i3 body i4 i5 H1 H2 H3 HB H4 H5 |] using prog_ind'; intros HP s HS; inversion HP as [? ? ? ? ? ? ? PF]; subst.
  apply Forall_app in PF as [P1 PF]. apply Forall_app in PF as [P2 PF]. apply Forall_app in PF as [P3 PF]. apply Forall_app in PF as [PB PF]. apply Forall_app in PF as [P4 P5].
  pose proof (execs_keep i1 H1 P1) as K1. pose proof (execs_keep i2 H2 P2) as K2. pose proof (execs_keep i3 H3 P3) as K3. pose proof (execs_keep body HB PB) as KB. pose proof (execs_keep i4 H4 P4) as K4. pose proof (execs_keep i5 H5 P5) as K5.
  clear H1 H2 H3 HB H4 H5 P1 P2 P3 PB P4 P5 HP. rewrite exec_use. destruct (get d (prr s)) eqn:ED.
  - rewrite (same_state _ _ (K1 s HS)). cbv zeta. rewrite (same_state _ _ (K2 s HS)). pose proof (calm_on d s HS) as C1.
    rewrite (same_state _ _ (K3 _ C1)). cbn [prr en].
    assert (C2 : calm (mkPow (set d false (prr s)) (set d true (en s)))) by (apply (calm_en d (mkPow (set d false (prr s)) (en s))); [exact C1 | apply set_get]).
    rewrite (same_state _ _ (KB _ C2)). cbn [prr en]. rewrite set_set.
    replace (set d false (en s)) with (en s) by (symmetry; apply set_same; apply HS; exact ED).
    rewrite (same_state _ _ (K4 _ C1)). cbn [prr en]. rewrite (same_state _ _ (K5 _ C1)). cbn [fst prr en]. rewrite set_set. rewrite (set_same d (prr s) true ED). destruct s; reflexivity.
  - cbv zeta. rewrite (same_state _ _ (KB s HS)). reflexivity.
Qed.

(** However uses are nested, and with interrupts that use devices too at any
    point, everything is left as it was found. *)
Theorem power_restored_partial : forall l s, Forall proper l -> calm s -> fst (execs l s) = s.
Proof. intros l s HP HS. apply execs_keep; [|exact HP | exact HS]. apply Forall_forall. intros p _. apply exec_keep. Qed.

(** Whether a device is used. *)
Fixpoint uses (e : Dev) (p : Prog) : bool :=
  match p with
  | Use d _ i1 i2 i3 body i4 i5 => (if dev_eq d e then true else false) ||
      existsb (uses e) i1 || existsb (uses e) i2 || existsb (uses e) i3 || existsb (uses e) body || existsb (uses e) i4 || existsb (uses e) i5
  | Bandgap => (if dev_eq ADC e then true else false)
  end.
(** No interrupt uses the device that is just being powered up or down, after
    its power is on and before it is enabled, or the reverse. *)
Inductive quiet : Prog -> Prop :=
| quiet_use d i1 i2 i3 body i4 i5 : Forall quiet (i1 ++ i2 ++ i3 ++ body ++ i4 ++ i5) -> existsb (uses d) (i3 ++ i4 ++ i5) = false -> quiet (Use d true i1 i2 i3 body i4 i5).
Definition tidy (s : Pow) (d : Dev) : Prop := get d (en s) = negb (get d (prr s)).

Lemma quiet_proper : forall p, quiet p -> proper p.
Proof.
  assert (G : forall l, Forall (fun p => quiet p -> proper p) l -> Forall quiet l -> Forall proper l).
  { induction l as [|p l IH]; intros H Q; inversion H; inversion Q; subst; constructor; auto. }
  induction p as [d ok i1 i2 i3 body i4 i5 H1 H2 H3 HB H4 H5 |] using prog_ind'; intros HQ; inversion HQ as [? ? ? ? ? ? ? QF QU]; subst.
  constructor. repeat (apply Forall_app in QF as [? QF] || idtac). apply Forall_app. split; [apply G; assumption|].
  apply Forall_app. split; [apply G; assumption|]. apply Forall_app. split; [apply G; assumption|]. apply Forall_app. split; [apply G; assumption|]. apply Forall_app. split; apply G; assumption.
Qed.

Lemma execs_fine l : Forall (fun p => quiet p -> forall s, calm s -> (forall d, uses d p = true -> tidy s d) -> snd (exec p s) = true) l ->
  Forall quiet l -> forall s, calm s -> (forall d, existsb (uses d) l = true -> tidy s d) -> snd (execs l s) = true.
Proof.
  induction l as [|p l IH]; intros H HQ s HS HT; [reflexivity|]. inversion H as [|? ? H1 H2]; subst. inversion HQ as [|? ? Q1 Q2]; subst. cbn [execs].
  rewrite (same_state _ _ (exec_keep p (quiet_proper p Q1) s HS)). rewrite (surjective_pairing (execs l s)). cbn [snd].
  rewrite H1; [|exact Q1 | exact HS | intros d Hd; apply HT; cbn [existsb]; rewrite Hd; reflexivity].
  apply IH; [exact H2 | exact Q2 | exact HS | intros d Hd; apply HT; cbn [existsb]; rewrite Hd; apply orb_true_r].
Qed.

Lemma exec_fine : forall p, quiet p -> forall s, calm s -> (forall d, uses d p = true -> tidy s d) -> snd (exec p s) = true.
Proof.
  induction p as [d ok i1 i2 i3 body i4 i5 H1 H2 H3 HB H4 H5 |] using prog_ind'; intros HQ s HS HT; inversion HQ as [? ? ? ? ? ? ? QF QU]; subst.
  apply Forall_app in QF as [Q1 QF]. apply Forall_app in QF as [Q2 QF]. apply Forall_app in QF as [Q3 QF]. apply Forall_app in QF as [QB QF]. apply Forall_app in QF as [Q4 Q5].
  pose proof (execs_fine i1 H1 Q1) as F1. pose proof (execs_fine i2 H2 Q2) as F2. pose proof (execs_fine i3 H3 Q3) as F3. pose proof (execs_fine body HB QB) as FB. pose proof (execs_fine i4 H4 Q4) as F4. pose proof (execs_fine i5 H5 Q5) as F5.
  assert (GP : forall l, Forall quiet l -> Forall proper l) by (intros l Hl; eapply Forall_impl; [|exact Hl]; apply quiet_proper).
  pose proof (fun s => power_restored_partial i1 s (GP _ Q1)) as K1. pose proof (fun s => power_restored_partial i2 s (GP _ Q2)) as K2. pose proof (fun s => power_restored_partial i3 s (GP _ Q3)) as K3.
  pose proof (fun s => power_restored_partial body s (GP _ QB)) as KB. pose proof (fun s => power_restored_partial i4 s (GP _ Q4)) as K4. pose proof (fun s => power_restored_partial i5 s (GP _ Q5)) as K5.
  rewrite !existsb_app in QU. apply orb_false_iff in QU as [U3 QU]. apply orb_false_iff in QU as [U4 U5].
  assert (T1 : forall e, existsb (uses e) i1 = true -> tidy s e) by (intros e He; apply HT; cbn [uses]; rewrite He; rewrite ?orb_true_r; reflexivity).
  assert (T2 : forall e, existsb (uses e) i2 = true -> tidy s e) by (intros e He; apply HT; cbn [uses]; rewrite He; rewrite ?orb_true_r; reflexivity).
  assert (T3 : forall e, existsb (uses e) i3 = true -> tidy s e) by (intros e He; apply HT; cbn [uses]; rewrite He; rewrite ?orb_true_r; reflexivity).
  assert (TB : forall e, existsb (uses e) body = true -> tidy s e) by (intros e He; apply HT; cbn [uses]; rewrite He; rewrite ?orb_true_r; reflexivity).
  assert (T4 : forall e, existsb (uses e) i4 = true -> tidy s e) by (intros e He; apply HT; cbn [uses]; rewrite He; rewrite ?orb_true_r; reflexivity).
  assert (T5 : forall e, existsb (uses e) i5 = true -> tidy s e) by (intros e He; apply HT; cbn [uses]; rewrite He; rewrite ?orb_true_r; reflexivity).
  assert (TD : tidy s d) by (apply HT; cbn [uses]; destruct (dev_eq d d) as [_|N]; [reflexivity | congruence]).
  clear H1 H2 H3 HB H4 H5 Q1 Q2 Q3 QB Q4 Q5 GP HT HQ. rewrite exec_use. destruct (get d (prr s)) eqn:ED.
  - pose proof (calm_on d s HS) as C1.
    assert (C2 : calm (mkPow (set d false (prr s)) (set d true (en s)))) by (apply (calm_en d (mkPow (set d false (prr s)) (en s))); [exact C1 | apply set_get]).
    assert (TO : forall e, e <> d -> tidy s e -> tidy (mkPow (set d false (prr s)) (en s)) e) by (intros e N Te; unfold tidy in *; cbn [prr en]; rewrite set_other by exact N; exact Te).
    rewrite (same_state _ _ (K1 s HS)), (F1 s HS T1). cbv zeta. rewrite (same_state _ _ (K2 s HS)), (F2 s HS T2).
    rewrite (same_state _ _ (K3 _ C1)), (F3 _ C1); [|intros e He; apply TO; [intros ->; congruence | apply T3; exact He]]. cbn [prr en].
    rewrite (same_state _ _ (KB _ C2)), (FB _ C2).
    2: { intros e He. destruct (dev_eq e d) as [-> |N]; unfold tidy; cbn [prr en]; [rewrite !set_get; reflexivity|]. rewrite !set_other by exact N. apply TB; exact He. }
    cbn [prr en]. rewrite !set_get, set_set.
    replace (set d false (en s)) with (en s) by (symmetry; apply set_same; apply HS; exact ED).
    rewrite (same_state _ _ (K4 _ C1)), (F4 _ C1); [|intros e He; apply TO; [intros ->; congruence | apply T4; exact He]]. cbn [prr en].
    rewrite (same_state _ _ (K5 _ C1)), (F5 _ C1); [|intros e He; apply TO; [intros ->; congruence | apply T5; exact He]]. reflexivity.
  - cbv zeta. rewrite (same_state _ _ (KB s HS)), (FB s HS TB). cbn [snd]. unfold tidy in TD. rewrite ED in *. rewrite TD. reflexivity.
Qed.

(** And each user has its device powered and enabled throughout. *)
Theorem power_on_in_use : forall l s, Forall quiet l -> (forall d, tidy s d) -> execs l s = (s, true).
Proof.
  intros l s HQ HT. assert (HS : calm s) by (intros d H; unfold tidy in HT; rewrite HT, H; reflexivity).
  rewrite (surjective_pairing (execs l s)). f_equal.
  - apply power_restored_partial; [eapply Forall_impl; [|exact HQ]; apply quiet_proper | exact HS].
  - apply execs_fine; [|exact HQ | exact HS | intros d _; apply HT]. apply Forall_forall. intros p _. apply exec_fine.
Qed.

Definition all_off := mkPow (mkBits true true true true) (mkBits false false false false).
Definition plain (d : Dev) (body : list Prog) := Use d true [] [] [] body [] [].
Example power_case : (forall d, tidy all_off d) /\
  let p := Use UART true [plain ADC []] [plain SPI []] [] [plain UART [plain TWI []]; plain ADC []] [plain SPI []] [] in
  quiet p /\ exec p all_off = (all_off, true).
Proof.
  split; [intros []; reflexivity|]. cbv zeta. split; [|reflexivity].
  assert (Q : forall d, quiet (plain d [])) by (intros d; constructor; [constructor|reflexivity]).
  constructor; [|reflexivity]. cbn [app]. constructor; [apply Q|]. constructor; [apply Q|]. constructor; [|constructor; [apply Q|]; constructor; [apply Q|constructor]].
  constructor; [|reflexivity]. constructor; [apply Q | constructor].
Qed.

(** A temperature or humidity read that gives up half-way leaves the I2C device
    on, and no later use of it, however many, turns it off. *)
Theorem power_leak_refuted : forall l s, Forall proper l -> calm s -> get TWI (prr s) = true ->
  let s' := fst (execs (Use TWI false [] [] [] [] [] [] :: l) s) in get TWI (prr s') = false /\ get TWI (en s') = true.
Proof.
  intros l s HP HS H. cbv zeta. cbn [execs]. rewrite exec_use, H. cbv zeta. cbn [execs prr en].
  set (s1 := mkPow (set TWI false (prr s)) (set TWI true (en s))).
  assert (HC : calm s1) by (apply (calm_en TWI (mkPow (set TWI false (prr s)) (en s))); [apply calm_on; exact HS | apply set_get]).
  rewrite (same_state _ _ (power_restored_partial l s1 HP HC)). cbn [fst]. unfold s1. cbn [prr en]. rewrite !set_get. split; reflexivity.
Qed.
(** A comparison with the band-gap reference turns the ADC off under a user that
    has it on. *)
Theorem power_bandgap_refuted : snd (exec (plain ADC [Bandgap]) all_off) = false.
Proof. reflexivity. Qed.
(** And an interrupt that prints between the serial port's power-up and its
    Serial.begin() finds the port not running. *)
Theorem power_window_refuted : snd (exec (Use UART true [] [] [plain UART []] [] [] []) all_off) = false.
Proof. reflexivity. Qed.
