(** C171: text printed on the serial port is on the line, complete and in order, when the
    print routine returns. *)
From Verif Require Import Base SmallModel SmallProps SerialModel.

(** Bytes handed over but not yet sent. *)
Definition pend (s : Ser) : list Z :=
  match s_sh s with Some (b, _) => [b] | None => [] end ++
  match s_udr s with Some c => [c] | None => [] end ++ s_ring s.
Definition total (s : Ser) : list Z := s_line s ++ pend s.

Definition Inv (s : Ser) : Prop :=
  (s_udr s = None -> s_ring s = []) /\
  (s_txc s = true -> pend s = []) /\
  (s_wr s = true -> pend s = [] -> s_txc s = true) /\
  (s_wr s = false -> pend s = []) /\
  (s_on s = false -> pend s = []).
Definition same (s s' : Ser) : Prop := s_on s' = s_on s /\ s_wr s' = s_wr s /\ total s' = total s.

Lemma same_refl s : same s s.
Proof. repeat split. Qed.
Lemma same_trans a b c : same a b -> same b c -> same a c.
Proof. unfold same. intuition congruence. Qed.

(** Position in the sending of the bytes: number left, then the time for the present one. *)
Definition rank (s : Ser) : option nat := match s_sh s with Some (_, n) => Some n | None => None end.

Lemma tick_step T s : Inv s -> pend s <> [] ->
  Inv (tick T s) /\ same s (tick T s) /\
  ((length (pend (tick T s)) < length (pend s))%nat \/
   length (pend (tick T s)) = length (pend s) /\
   match rank s, rank (tick T s) with
   | None, Some _ => True
   | Some n, Some m => (m < n)%nat
   | _, None => False
   end).
Proof.
  destruct s as [on ring udr sh txc wr line]. unfold Inv, same, total, pend, rank, tick, hw, isr.
  cbn [s_on s_ring s_udr s_sh s_txc s_wr s_line].
  intros (I1 & I2 & I3 & I4 & I5) NE.
  destruct sh as [[b [ | n]] | ]; destruct udr as [c | ];
    cbn [s_on s_ring s_udr s_sh s_txc s_wr s_line app] in *;
    try (specialize (I1 eq_refl); subst ring); try (exfalso; apply NE; reflexivity);
    try destruct ring as [ | r0 ring]; cbn [s_on s_ring s_udr s_sh s_txc s_wr s_line app length] in *;
    (split; [ repeat apply conj; intros; try reflexivity; try discriminate;
              try (now match goal with H : ?x = true, H1 : ?x = true -> _ |- _ => specialize (H1 H); discriminate end);
              try (now match goal with H : ?x = false, H1 : ?x = false -> _ |- _ => specialize (H1 H); discriminate end)
            | split; [ repeat apply conj; try reflexivity; rewrite <- ?app_assoc; reflexivity
                     | first [ left; lia | right; split; [ reflexivity | first [ exact I | lia ] ] ] ] ]).
Qed.

Definition ends (sp : nat -> Ser -> option Ser) (c : Ser -> bool) (s : Ser) : Prop :=
  exists n s', (forall fuel, (n <= fuel)%nat -> sp fuel s = Some s') /\ c s' = false /\ Inv s' /\ same s s'.

Lemma spin_ends T c g :
  (forall s, Inv s -> s_wr s = true -> c s = true ->
     pend s <> [] /\ Inv (g s) /\ same s (g s) /\ pend (g s) = pend s /\ rank (g s) = rank s) ->
  forall s, Inv s -> s_wr s = true -> ends (spin c (fun s => tick T (g s))) c s.
Proof.
  intros HG.
  assert (Stop : forall s, Inv s -> c s = false -> ends (spin c (fun s => tick T (g s))) c s).
  { intros s Is C. exists O, s. refine (conj _ (conj C (conj Is (same_refl s)))).
    intros [ | fuel] _; cbn [spin]; rewrite C; reflexivity. }
  assert (Step : forall s, Inv s -> s_wr s = true -> c s = true ->
    (Inv (tick T (g s)) -> s_wr (tick T (g s)) = true ->
     ((length (pend (tick T (g s))) < length (pend s))%nat \/
      length (pend (tick T (g s))) = length (pend s) /\
      match rank s, rank (tick T (g s)) with None, Some _ => True | Some n, Some m => (m < n)%nat | _, None => False end) ->
     ends (spin c (fun s => tick T (g s))) c (tick T (g s))) ->
    ends (spin c (fun s => tick T (g s))) c s).
  { intros s Is Ws C Next. destruct (HG s Is Ws C) as (NE & Ig & Sg & Pg & Rg).
    rewrite <- Pg in NE. destruct (tick_step T (g s) Ig NE) as (It & St & Dec). rewrite Pg, Rg in Dec.
    assert (Sst : same s (tick T (g s))) by exact (same_trans _ _ _ Sg St).
    destruct (Next It (eq_trans (proj1 (proj2 Sst)) Ws) Dec) as (n & s' & Hn & Hc & Hi & Hs).
    exists (S n), s'. refine (conj _ (conj Hc (conj Hi (same_trans _ _ _ Sst Hs)))).
    intros [ | fuel] F; [ lia | ]. cbn [spin]. rewrite C. apply Hn. lia. }
  assert (Main : forall L s, Inv s -> s_wr s = true -> (length (pend s) < L)%nat -> ends (spin c (fun s => tick T (g s))) c s).
  { induction L as [ | L IH]; [ intros; lia | ].
    assert (Inner : forall n s, Inv s -> s_wr s = true -> (length (pend s) < S L)%nat ->
      (exists m, rank s = Some m /\ (m < n)%nat) -> ends (spin c (fun s => tick T (g s))) c s).
    { induction n as [ | n IHn]; intros s Is Ws Ls (m & Rm & Lm); [ lia | ].
      destruct (c s) eqn:C; [ | exact (Stop s Is C) ].
      apply (Step s Is Ws C). intros It Wt [D | (D & R)]; [ apply IH; try assumption; lia | ].
      rewrite Rm in R. destruct (rank (tick T (g s))) as [m' | ] eqn:Rt; [ | contradiction ].
      apply IHn; try assumption; [ lia | ]. exists m'. split; [ assumption | lia ]. }
    intros s Is Ws Ls. destruct (c s) eqn:C; [ | exact (Stop s Is C) ].
    destruct (rank s) as [m | ] eqn:R; [ apply (Inner (S m) s Is Ws Ls); exists m; split; [ assumption | lia ] | ].
    apply (Step s Is Ws C). intros It Wt [D | (D & R')]; [ apply IH; try assumption; lia | ].
    destruct (rank (tick T (g s))) as [m' | ] eqn:Rt; [ | rewrite R in R'; contradiction ].
    apply (Inner (S m') _ It Wt); [ lia | ]. exists m'. split; [ assumption | lia ]. }
  intros s Is Ws. exact (Main (S (length (pend s))) s Is Ws (Nat.lt_succ_diag_r _)).
Qed.

Lemma spin_id T c :
  (forall s, Inv s -> s_wr s = true -> c s = true -> pend s <> []) ->
  forall s, Inv s -> s_wr s = true -> ends (spin c (tick T)) c s.
Proof.
  intros HC s Is Ws. apply (spin_ends T c (fun s => s)); try assumption.
  intros x Ix Wx C. split; [ exact (HC x Ix Wx C) | split; [ exact Ix | split; [ apply same_refl | split; reflexivity ] ] ].
Qed.

(** ** The routines, on a port whose _written flag is set. *)
Lemma pend_udr s : udre s = false -> pend s <> [].
Proof. unfold udre, pend. destruct (s_udr s); [ | discriminate ]. intros _ E. apply app_eq_nil in E. destruct E as (_ & E). discriminate. Qed.

Lemma busy_ends T s : Inv s -> s_wr s = true -> ends (spin (fun s => negb (udre s)) (tick T)) (fun s => negb (udre s)) s.
Proof.
  intros Is Ws. apply (spin_id T); try assumption.
  intros x Ix Wx C. apply negb_true_iff in C. exact (pend_udr x C).
Qed.

Lemma flush_ends T s : Inv s -> s_wr s = true ->
  exists n s', (forall fuel, (n <= fuel)%nat -> hs_flush T fuel s = Some s') /\ Inv s' /\ same s s' /\ s_txc s' = true.
Proof.
  intros Is Ws.
  destruct (spin_id T (fun s => negb (ring_empty s) || negb (s_txc s))) with (s := s) as (n & s' & Hn & Hc & Hi & Hs);
    try assumption.
  { intros x Ix Wx C.
    intros P. destruct Ix as (_ & _ & I3 & _). rewrite (I3 Wx P) in C.
    unfold ring_empty in C. unfold pend in P. apply app_eq_nil in P. destruct P as (_ & P). apply app_eq_nil in P. destruct P as (_ & P).
    rewrite P in C. discriminate. }
  exists n, s'. split; [ | split; [ exact Hi | split; [ exact Hs | ] ] ].
  - intros fuel F. unfold hs_flush. rewrite Ws. exact (Hn fuel F).
  - apply orb_false_iff in Hc. destruct Hc as (_ & Hc). now apply negb_false_iff in Hc.
Qed.

Lemma hw_flush_ends T s : Inv s -> s_wr s = true ->
  exists n s', (forall fuel, (n <= fuel)%nat -> flushSerialHW T fuel s = Some s') /\ Inv s' /\ same s s' /\ (s_on s = true -> s_txc s' = true).
Proof.
  intros Is Ws. unfold flushSerialHW. destruct (s_on s) eqn:On; cbn [negb].
  2: { exists O, s. split; [ reflexivity | split; [ exact Is | split; [ apply same_refl | intros; discriminate ] ] ]. }
  destruct (spin_ends T (fun s => negb (udre s)) clear_txc) with (s := s) as (n & s1 & Hn & Hc & Hi & Hs); try assumption.
  { intros x Ix Wx C. apply negb_true_iff in C. split; [ exact (pend_udr x C) | ].
    split; [ | split; [ split; [ reflexivity | split; reflexivity ] | split; reflexivity ] ].
    destruct Ix as (I1 & I2 & I3 & I4 & I5). unfold Inv, clear_txc, pend in *. cbn [s_on s_ring s_udr s_sh s_txc s_wr s_line] in *.
    split; [ exact I1 | split; [ discriminate | split; [ | split; [ exact I4 | exact I5 ] ] ] ].
    intros _ P. exfalso. exact (pend_udr x C P). }
  destruct (spin_id T (fun s => negb (s_txc s))) with (s := s1) as (n2 & s2 & Hn2 & Hc2 & Hi2 & Hs2);
    [ | exact Hi | rewrite (proj1 (proj2 Hs)); exact Ws | ].
  { intros x Ix Wx C.
    intros P. destruct Ix as (_ & _ & I3 & _). rewrite (I3 Wx P) in C. discriminate. }
  exists (Nat.max n n2), s2. split; [ | split; [ exact Hi2 | split; [ exact (same_trans _ _ _ Hs Hs2) | intros _; now apply negb_false_iff in Hc2 ] ] ].
  intros fuel F. rewrite (Hn fuel) by lia. cbn [bind]. exact (Hn2 fuel ltac:(lia)).
Qed.

Lemma write_ends T c s : Inv s -> s_on s = true ->
  exists n s', (forall fuel, (n <= fuel)%nat -> hs_write T fuel c s = Some s') /\ Inv s' /\
    s_on s' = true /\ s_wr s' = true /\ total s' = total s ++ [c].
Proof.
  intros Is On. unfold hs_write. destruct (ring_empty s && udre s) eqn:E.
  - apply andb_true_iff in E. destruct E as (E1 & E2).
    exists O. eexists. split; [ reflexivity | ].
    destruct s as [on ring udr sh txc wr line]. unfold Inv, total, pend, ring_empty, udre in *.
    cbn [s_on s_ring s_udr s_sh s_txc s_wr s_line] in *. subst on.
    destruct ring; [ | discriminate ]. destruct udr; [ discriminate | ].
    split; [ | split; [ reflexivity | split; [ reflexivity | ] ] ].
    + split; [ discriminate | split; [ discriminate | split; [ | split; discriminate ] ] ].
      intros _ P. apply app_eq_nil in P. destruct P as (_ & P). discriminate.
    + rewrite !app_nil_r. cbn [app]. rewrite <- app_assoc. reflexivity.
  - assert (W : s_wr s = true).
    { destruct (s_wr s) eqn:W; [ reflexivity | ]. destruct Is as (_ & _ & _ & I4 & _). specialize (I4 W).
      unfold pend in I4. apply app_eq_nil in I4. destruct I4 as (_ & P). apply app_eq_nil in P. destruct P as (P1 & P2).
      unfold ring_empty, udre in E. rewrite P2 in E. destruct (s_udr s); discriminate. }
    destruct (spin_id T (fun s => Nat.leb RING (length (s_ring s)))) with (s := s) as (n & s1 & Hn & Hc & Hi & Hs);
      try assumption.
    { intros x Ix Wx C.
      intros P. unfold pend in P. apply app_eq_nil in P. destruct P as (_ & P). apply app_eq_nil in P. destruct P as (_ & P).
      rewrite P in C. discriminate. }
    exists n. eexists. split; [ intros fuel F; rewrite (Hn fuel F); reflexivity | ].
    destruct Hs as (S1 & S2 & S3). rewrite <- S3. rewrite On in S1.
    destruct s1 as [on ring udr sh txc wr line]. unfold Inv, total, pend, isr in *.
    cbn [s_on s_ring s_udr s_sh s_txc s_wr s_line] in *. subst on.
    destruct Hi as (I1 & I2 & I3 & I4 & I5).
    destruct udr as [u | ]; cbn [s_on s_ring s_udr s_sh s_txc s_wr s_line] in *.
    + split; [ | split; [ reflexivity | split; [ reflexivity | now rewrite <- !app_assoc ] ] ].
      split; [ discriminate | split; [ | split; [ | split; discriminate ] ] ].
      * intros X. specialize (I2 X). apply app_eq_nil in I2. destruct I2 as (_ & P). discriminate.
      * intros _ P. apply app_eq_nil in P. destruct P as (_ & P). discriminate.
    + specialize (I1 eq_refl). subst ring. cbn [app] in *.
      split; [ | split; [ reflexivity | split; [ reflexivity | ] ] ].
      * split; [ discriminate | split; [ discriminate | split; [ | split; discriminate ] ] ].
        intros _ P. apply app_eq_nil in P. destruct P as (_ & P). discriminate.
      * cbn [s_on s_ring s_udr s_sh s_txc s_wr s_line]. rewrite !app_nil_r. now rewrite <- !app_assoc.
Qed.

Lemma puts_ends T l : forall s, Inv s -> s_on s = true ->
  exists n s', (forall fuel, (n <= fuel)%nat -> hs_puts T fuel l s = Some s') /\ Inv s' /\
    s_on s' = true /\ s_wr s' = (match l with [] => s_wr s | _ => true end) /\ s_txc s' = (match l with [] => s_txc s | _ => s_txc s' end)
    /\ total s' = total s ++ l.
Proof.
  induction l as [ | c l IH]; intros s Is On.
  - exists O, s. split; [ reflexivity | ]. rewrite app_nil_r. exact (conj Is (conj On (conj eq_refl (conj eq_refl eq_refl)))).
  - destruct (write_ends T c s Is On) as (n1 & s1 & H1 & I1 & O1 & W1 & T1).
    destruct (IH s1 I1 O1) as (n2 & s2 & H2 & I2 & O2 & W2 & _ & T2).
    exists (Nat.max n1 n2), s2. split; [ | split; [ exact I2 | split; [ exact O2 | split; [ | split; [ reflexivity | ] ] ] ] ].
    + intros fuel F. cbn [hs_puts]. rewrite (H1 fuel) by lia. cbn [bind]. apply H2. lia.
    + destruct l; congruence.
    + rewrite T2, T1, <- app_assoc. reflexivity.
Qed.

Lemma txc_total s : Inv s -> s_txc s = true -> s_line s = total s.
Proof. intros (_ & I2 & _) X. unfold total. now rewrite (I2 X), app_nil_r. Qed.

Lemma flushSerial_ends T s : Inv s -> s_on s = true -> s_wr s = true \/ s_txc s = true ->
  exists n s', (forall fuel, (n <= fuel)%nat -> flushSerial T fuel s = Some s') /\ Inv s' /\ same s s' /\ s_txc s' = true.
Proof.
  intros Is On R. destruct (s_wr s) eqn:W.
  - destruct (busy_ends T s Is W) as (n1 & s1 & H1 & _ & I1 & S1).
    destruct (flush_ends T s1 I1 (eq_trans (proj1 (proj2 S1)) W)) as (n2 & s2 & H2 & I2 & S2 & _).
    destruct (hw_flush_ends T s2 I2) as (n3 & s3 & H3 & I3 & S3 & X3).
    { rewrite (proj1 (proj2 S2)), (proj1 (proj2 S1)). exact W. }
    exists (Nat.max n1 (Nat.max n2 n3)), s3. split.
    + intros fuel F. unfold flushSerial. rewrite (H1 fuel) by lia. cbn [bind]. rewrite (H2 fuel) by lia. cbn [bind]. apply H3. lia.
    + split; [ exact I3 | split; [ exact (same_trans _ _ _ S1 (same_trans _ _ _ S2 S3)) | ] ].
      apply X3. rewrite (proj1 S2), (proj1 S1). exact On.
  - destruct R as [R | R]; [ discriminate | ].
    assert (U : udre s = true).
    { destruct (udre s) eqn:U; [ reflexivity | ]. exfalso. apply (pend_udr s U). exact (proj1 (proj2 (proj2 (proj2 Is))) W). }
    exists O, s. split; [ | split; [ exact Is | split; [ apply same_refl | exact R ] ] ].
    intros fuel _. unfold flushSerial, hs_flush, flushSerialHW.
    destruct fuel; cbn [spin]; rewrite U; cbn [negb bind]; rewrite W; cbn [bind]; rewrite On; cbn [negb spin]; rewrite U; cbn [negb bind spin];
      rewrite R; reflexivity.
Qed.

Lemma down_ends T s : Inv s ->
  exists n s', (forall fuel, (n <= fuel)%nat -> powerDownSerial T fuel s = Some s') /\ Inv s' /\
    s_on s' = false /\ s_line s' = total s /\ (s_txc s = true -> s_txc s' = true).
Proof.
  intros Is. unfold powerDownSerial. destruct (s_on s) eqn:On.
  2: { exists O. eexists. split; [ reflexivity | ].
       pose proof (proj2 (proj2 (proj2 (proj2 Is))) On) as P.
       destruct s as [on ring udr sh txc wr line]. unfold Inv, total, pend in *. cbn [s_on s_ring s_udr s_sh s_txc s_wr s_line bind] in *.
       apply app_eq_nil in P. destruct P as (P1 & P). apply app_eq_nil in P. destruct P as (P2 & P3). subst ring.
       destruct sh as [[? ?] | ]; [ discriminate | ]. destruct udr; [ discriminate | ]. cbn [app] in *. rewrite app_nil_r.
       split; [ | split; [ reflexivity | split; [ reflexivity | tauto ] ] ].
       destruct Is as (I1 & I2 & I3 & I4 & I5). split; [ reflexivity | split; [ reflexivity | split; [ exact I3 | split; reflexivity ] ] ]. }
  assert (D : exists n s', (forall fuel, (n <= fuel)%nat -> (do s <- hs_flush T fuel s ; hs_flush T fuel s) = Some s') /\ Inv s' /\ same s s' /\
              pend s' = [] /\ (s_txc s = true -> s_txc s' = true)).
  { destruct (s_wr s) eqn:W.
    - destruct (flush_ends T s Is W) as (n1 & s1 & H1 & I1 & S1 & X1).
      destruct (flush_ends T s1 I1 (eq_trans (proj1 (proj2 S1)) W)) as (n2 & s2 & H2 & I2 & S2 & X2).
      exists (Nat.max n1 n2), s2. split; [ | split; [ exact I2 | split; [ exact (same_trans _ _ _ S1 S2) | split; [ exact (proj1 (proj2 I2) X2) | intros _; exact X2 ] ] ] ].
      intros fuel F. rewrite (H1 fuel) by lia. cbn [bind]. apply H2. lia.
    - exists O, s. split; [ | split; [ exact Is | split; [ apply same_refl | split; [ exact (proj1 (proj2 (proj2 (proj2 Is))) W) | tauto ] ] ] ].
      intros fuel _. unfold hs_flush. rewrite W. cbn [bind]. rewrite W. reflexivity. }
  destruct D as (n & s' & H & I' & S & P & X).
  exists n. eexists. split.
  - intros fuel F. specialize (H fuel F). destruct (hs_flush T fuel s) as [s1 | ]; [ | discriminate ]. cbn [bind] in *.
    rewrite H. cbn [bind s_on s_ring s_udr s_sh s_txc s_wr s_line]. reflexivity.
  - destruct S as (S1 & S2 & S3). destruct s' as [on ring udr sh txc wr line]. unfold Inv, total, pend in *.
    cbn [s_on s_ring s_udr s_sh s_txc s_wr s_line] in *. rewrite P, app_nil_r in S3.
    split; [ | split; [ reflexivity | split; [ exact S3 | exact X ] ] ].
    split; [ reflexivity | split; [ reflexivity | split; [ | split; reflexivity ] ] ].
    intros W _. exact (proj1 (proj2 (proj2 I')) W P).
Qed.

(** ** C171 *)
(** Uses of the port: printing with the print routines; and, by code that holds the port
    powered up itself, powering up and down and Serial.print without flushing. *)
Inductive SOp := SPrint (keep : bool) (text : list Z) | SUp (keep : bool) | SDown | SPut (text : list Z).
Definition sop (T : nat -> nat) (fuel : nat) (o : SOp) (s : Ser) : option Ser :=
  match o with
  | SPrint keep text => serialPrint T keep fuel text s
  | SUp keep => Some (fst (powerUpSerial keep s))
  | SDown => powerDownSerial T fuel s
  | SPut text => hs_puts T fuel text s
  end.
Fixpoint sops (T : nat -> nat) (fuel : nat) (l : list SOp) (s : Ser) : option Ser :=
  match l with [] => Some s | o :: l => do s <- sop T fuel o s ; sops T fuel l s end.
Definition text_of (o : SOp) : list Z := match o with SPrint _ t => t | SPut t => t | _ => [] end.
(** Whether the port is powered up afterwards. *)
Definition on_after (o : SOp) (on : bool) : bool := match o with SUp _ => true | SDown => false | _ => on end.
(** Print routines are given some text; Serial.print is used with the port powered up only. *)
Fixpoint proper (l : list SOp) (on : bool) : Prop :=
  match l with
  | [] => True
  | o :: l => match o with SPrint _ t => t <> [] | SPut _ => on = true | _ => True end /\ proper l (on_after o on)
  end.

Lemma up_inv keep s : Inv s -> Inv (fst (powerUpSerial keep s)) /\ s_on (fst (powerUpSerial keep s)) = true /\
  total (fst (powerUpSerial keep s)) = total s.
Proof.
  intros Is. unfold powerUpSerial. destruct (s_on s) eqn:On; cbn [fst]; [ exact (conj Is (conj On eq_refl)) | ].
  pose proof (proj2 (proj2 (proj2 (proj2 Is))) On) as P. unfold hs_begin.
  destruct Is as (I1 & I2 & I3 & I4 & I5). unfold Inv, total, pend in *. cbn [s_on s_ring s_udr s_sh s_txc s_wr s_line] in *.
  split; [ | split; reflexivity ].
  split; [ exact I1 | split; [ intros _; exact P | split; [ discriminate | split; [ intros _; exact P | discriminate ] ] ] ].
Qed.

(** One print: it returns, the text is on the line behind all earlier ones, nothing is
    left to be sent, and the port is powered as before. *)
Lemma print_ends T keep text s : Inv s -> text <> [] \/ s_on s = true /\ (s_wr s = true \/ s_txc s = true) \/ s_on s = false /\ keep = true /\ s_txc s = true ->
  exists n s', (forall fuel, (n <= fuel)%nat -> serialPrint T keep fuel text s = Some s') /\ Inv s' /\
    s_on s' = s_on s /\ s_line s' = total s ++ text /\ pend s' = [].
Proof.
  intros Is NE. unfold serialPrint. destruct (up_inv keep s Is) as (Iu & Ou & Tu).
  destruct (powerUpSerial keep s) as [u needed] eqn:EU. cbn [fst] in *.
  destruct (puts_ends T text u Iu Ou) as (n1 & s1 & H1 & I1 & O1 & W1 & X1 & T1).
  assert (R : s_wr s1 = true \/ s_txc s1 = true).
  { destruct text as [ | c text]; [ | left; exact W1 ]. rewrite W1, X1.
    destruct NE as [NE | [(O & R) | (O & K & X)]]; [ contradiction | | ]; unfold powerUpSerial in EU; rewrite O in EU; apply pair_inj in EU; destruct EU as (EU & _); subst u.
    - exact R.
    - right. unfold hs_begin. cbn [s_txc]. now rewrite X, K. }
  destruct (flushSerial_ends T s1 I1 O1 R) as (n2 & s2 & H2 & I2 & S2 & X2).
  assert (L2 : s_line s2 = total s ++ text).
  { rewrite (txc_total s2 I2 X2), (proj2 (proj2 S2)), T1, Tu. reflexivity. }
  assert (P2 : pend s2 = []) by exact (proj1 (proj2 I2) X2).
  destruct needed.
  - destruct (down_ends T s2 I2) as (n3 & s3 & H3 & I3 & O3 & L3 & X3).
    exists (Nat.max n1 (Nat.max n2 n3)), s3. split.
    + intros fuel F. rewrite (H1 fuel) by (clear -F; lia). cbn [bind]. rewrite (H2 fuel) by (clear -F; lia). cbn [bind]. apply H3. clear -F; lia.
    + split; [ exact I3 | split; [ | split; [ | exact (proj2 (proj2 (proj2 (proj2 I3))) O3) ] ] ].
      * unfold powerUpSerial in EU. destruct (s_on s); [ discriminate (proj2 (pair_inj _ _ _ _ EU)) | exact O3 ].
      * rewrite L3. unfold total at 1. rewrite P2, app_nil_r. exact L2.
  - exists (Nat.max n1 n2), s2. split.
    + intros fuel F. rewrite (H1 fuel) by (clear -F; lia). cbn [bind]. rewrite (H2 fuel) by (clear -F; lia). reflexivity.
    + split; [ exact I2 | split; [ | split; [ exact L2 | exact P2 ] ] ].
      rewrite (proj1 S2), O1. unfold powerUpSerial in EU. destruct (s_on s); [ reflexivity | discriminate (proj2 (pair_inj _ _ _ _ EU)) ].
Qed.

Lemma sop_ends T o s : Inv s -> match o with SPrint _ t => t <> [] | SPut _ => s_on s = true | _ => True end ->
  exists n s', (forall fuel, (n <= fuel)%nat -> sop T fuel o s = Some s') /\ Inv s' /\
    s_on s' = on_after o (s_on s) /\ total s' = total s ++ text_of o.
Proof.
  intros Is Pr. destruct o as [keep t | keep | | t]; cbn [sop text_of on_after].
  - destruct (print_ends T keep t s Is (or_introl Pr)) as (n & s' & H & I' & O & L & P).
    exists n, s'. split; [ exact H | split; [ exact I' | split; [ exact O | ] ] ].
    unfold total at 1. now rewrite P, app_nil_r.
  - destruct (up_inv keep s Is) as (Iu & Ou & Tu). exists O. eexists. split; [ reflexivity | ].
    rewrite app_nil_r. exact (conj Iu (conj Ou Tu)).
  - destruct (down_ends T s Is) as (n & s' & H & I' & O & L & _). exists n, s'.
    split; [ exact H | split; [ exact I' | split; [ exact O | ] ] ].
    unfold total at 1. rewrite (proj2 (proj2 (proj2 (proj2 I'))) O), !app_nil_r. exact L.
  - destruct (puts_ends T t s Is Pr) as (n & s' & H & I' & O & _ & _ & L). exists n, s'.
    split; [ exact H | split; [ exact I' | split; [ now rewrite O, Pr | exact L ] ] ].
Qed.

Lemma sops_ends T l : forall s, Inv s -> proper l (s_on s) ->
  exists n s', (forall fuel, (n <= fuel)%nat -> sops T fuel l s = Some s') /\ Inv s' /\
    total s' = total s ++ concat (map text_of l).
Proof.
  induction l as [ | o l IH]; intros s Is Pr.
  - exists O, s. split; [ reflexivity | ]. cbn [map concat]. rewrite app_nil_r. exact (conj Is eq_refl).
  - destruct Pr as (P1 & P2). destruct (sop_ends T o s Is P1) as (n1 & s1 & H1 & I1 & O1 & L1).
    rewrite <- O1 in P2. destruct (IH s1 I1 P2) as (n2 & s2 & H2 & I2 & L2).
    exists (Nat.max n1 n2), s2. split; [ | split; [ exact I2 | ] ].
    + intros fuel F. cbn [sops]. rewrite (H1 fuel) by lia. cbn [bind]. apply H2. lia.
    + rewrite L2, L1, <- app_assoc. reflexivity.
Qed.

Lemma inv0 : Inv ser0.
Proof. unfold Inv, ser0, pend. cbn. repeat split; intros; try reflexivity; discriminate. Qed.

(** C171 (AVR): after a reset, whatever code has used the port before, however long each
    byte takes and whether or not the transmit-complete flag survives powering down, a print
    of a non-empty text returns, and at that moment the bytes on the line are exactly all the
    texts printed so far, in order, the last one complete. *)
Theorem serial_print_delivers_partial T hist keep text : proper hist false -> text <> [] ->
  exists n s, (forall fuel, (n <= fuel)%nat -> sops T fuel (hist ++ [SPrint keep text]) ser0 = Some s) /\
    s_line s = concat (map text_of hist) ++ text.
Proof.
  intros Pr NE. destruct (sops_ends T hist ser0 inv0 Pr) as (n1 & s1 & H1 & I1 & L1).
  destruct (print_ends T keep text s1 I1 (or_introl NE)) as (n2 & s2 & H2 & _ & _ & L2 & _).
  exists (Nat.max n1 n2), s2. split.
  - intros fuel F. assert (E : forall l s, sops T fuel (l ++ [SPrint keep text]) s = (do s <- sops T fuel l s ; serialPrint T keep fuel text s)).
    { induction l as [ | o l IH]; intros s; cbn [app sops bind sop].
      - destruct (serialPrint T keep fuel text s); reflexivity.
      - destruct (sop T fuel o s); cbn [bind]; [ apply IH | reflexivity ]. }
    rewrite E, (H1 fuel) by lia. cbn [bind]. apply H2. lia.
  - rewrite L2, L1. reflexivity.
Qed.
(** ... and it leaves the port powered up or down as it was. *)
Theorem serial_print_power T hist keep text n s s' :
  proper hist false -> text <> [] -> (forall fuel, (n <= fuel)%nat -> sops T fuel hist ser0 = Some s) ->
  serialPrint T keep n text s = Some s' -> s_on s' = s_on s.
Proof.
  intros Pr NE H P. destruct (sops_ends T hist ser0 inv0 Pr) as (n1 & s1 & H1 & I1 & _).
  assert (E : s1 = s). { assert (A1 : (n <= Nat.max n n1)%nat) by (clear; lia). assert (A2 : (n1 <= Nat.max n n1)%nat) by (clear; lia). pose proof (H _ A1) as A. rewrite (H1 _ A2) in A. now apply some_inj in A. } subst s1.
  destruct (print_ends T keep text s I1 (or_introl NE)) as (n2 & s2 & H2 & _ & O2 & _).
  assert (Mono : forall (c : Ser -> bool) f k x y, spin c f k x = Some y -> forall k', (k <= k')%nat -> spin c f k' x = Some y).
  { intros c f. induction k as [ | k IHk]; intros x y Hx k' Hk; destruct k' as [ | k']; try lia; cbn [spin] in *; destruct (c x); try discriminate; try assumption.
    apply IHk; [ exact Hx | lia ]. }
  assert (MF : forall k x y, hs_flush T k x = Some y -> forall k', (k <= k')%nat -> hs_flush T k' x = Some y).
  { intros k x y. unfold hs_flush. destruct (s_wr x); [ | tauto ]. intros Hx k' Hk. exact (Mono _ _ _ _ _ Hx _ Hk). }
  assert (MB : forall (m1 m2 : option Ser) (k1 k2 : Ser -> option Ser) y, (forall z, m1 = Some z -> m2 = Some z) -> (forall x, k1 x = Some y -> k2 x = Some y) ->
    bind m1 k1 = Some y -> bind m2 k2 = Some y).
  { intros m1 m2 k1 k2 y A B. destruct m1 as [z | ]; [ | discriminate ]. rewrite (A z eq_refl). cbn [bind]. apply B. }
  assert (MW : forall c k x y, hs_write T k c x = Some y -> forall k', (k <= k')%nat -> hs_write T k' c x = Some y).
  { intros c k x y. unfold hs_write. destruct (ring_empty x && udre x); [ tauto | ]. intros Hx k' Hk. revert Hx.
    apply MB; [ intros z Hz; exact (Mono _ _ _ _ _ Hz _ Hk) | tauto ]. }
  assert (MP : forall l k x y, hs_puts T k l x = Some y -> forall k', (k <= k')%nat -> hs_puts T k' l x = Some y).
  { induction l as [ | c l IHl]; intros k x y; cbn [hs_puts]; [ tauto | ]. intros Hx k' Hk. revert Hx.
    apply MB; [ intros z Hz; exact (MW _ _ _ _ Hz _ Hk) | intros z Hz; exact (IHl _ _ _ Hz _ Hk) ]. }
  assert (Hm : (n <= Nat.max n n2)%nat) by (clear; lia). assert (Hm2 : (n2 <= Nat.max n n2)%nat) by (clear; lia).
  assert (Q : serialPrint T keep (Nat.max n n2) text s = Some s').
  { revert P. unfold serialPrint. destruct (powerUpSerial keep s) as [u needed].
    apply MB; [ intros z Hz; exact (MP _ _ _ _ Hz _ Hm) | ]. intros x.
    apply MB.
    - intros z. unfold flushSerial. apply MB; [ intros y Hy; exact (Mono _ _ _ _ _ Hy _ Hm) | ]. intros y.
      apply MB; [ intros v Hv; exact (MF _ _ _ Hv _ Hm) | ]. intros v. unfold flushSerialHW. destruct (negb (s_on v)); [ tauto | ].
      apply MB; [ intros w Hw; exact (Mono _ _ _ _ _ Hw _ Hm) | ]. intros w Hw. exact (Mono _ _ _ _ _ Hw _ Hm).
    - intros z. destruct needed; [ | tauto ]. unfold powerDownSerial. apply MB; [ | tauto ]. intros y. destruct (s_on z); [ | tauto ].
      apply MB; [ intros v Hv; exact (MF _ _ _ Hv _ Hm) | ]. intros v.
      apply MB; [ intros w Hw; exact (MF _ _ _ Hw _ Hm) | tauto ]. }
  rewrite (H2 _ Hm2) in Q. apply some_inj in Q. subst s2. exact O2.
Qed.

(** An empty text as the first output after a reset: the routine never returns. *)
Theorem serial_empty_hangs_refuted T keep fuel : serialPrint T keep fuel [] ser0 = None.
Proof.
  unfold serialPrint, ser0, powerUpSerial, hs_begin. cbn [s_on s_ring s_udr s_sh s_txc s_wr s_line andb hs_puts bind].
  unfold flushSerial. destruct fuel; [ reflexivity | ].
  cbn [spin udre s_udr negb bind hs_flush s_wr flushSerialHW s_on s_txc].
  set (u := mkSer true [] None None false false []).
  assert (E : tick T u = u) by reflexivity. rewrite E.
  assert (H : forall k, spin (fun s => negb (s_txc s)) (tick T) k u = None).
  { induction k; cbn [spin]; [ reflexivity | ]. rewrite E. exact IHk. }
  rewrite H. reflexivity.
Qed.
(** Also after any history, if powering down clears the flag. *)
Theorem serial_empty_hangs_later_refuted T :
  exists n, forall fuel, (n <= fuel)%nat -> sops T fuel [SPrint true [65]] ser0 <> None /\ sops T fuel [SPrint true [65]; SPrint false []] ser0 = None.
Proof.
  destruct (sops_ends T [SPrint true [65]] ser0 inv0) as (n & s & H & Is & _).
  { cbn. repeat split; discriminate. }
  assert (NE : [65] <> []) by discriminate.
  destruct (print_ends T true [65] ser0 inv0 (or_introl NE)) as (n2 & s2 & H2 & I2 & O2 & _ & P2).
  exists (Nat.max n n2). intros fuel F. assert (F1 : (n <= fuel)%nat) by (clear -F; lia). assert (F2 : (n2 <= fuel)%nat) by (clear -F; lia).
  split; [ rewrite (H fuel F1); discriminate | ].
  cbn [sops sop]. rewrite (H2 fuel F2). cbn [bind]. cbn [ser0 s_on] in O2.
  unfold serialPrint, powerUpSerial. rewrite O2. unfold hs_begin. rewrite andb_false_r. cbn [hs_puts bind].
  unfold pend in P2. destruct s2 as [on ring udr sh txc wr line]. cbn [s_on s_ring s_udr s_sh s_txc s_wr s_line] in *.
  destruct sh as [[? ?] | ]; [ discriminate | ]. destruct udr; [ discriminate | ]. cbn [app] in P2. subst ring.
  unfold flushSerial. destruct fuel; [ reflexivity | ].
  cbn [spin udre s_udr negb bind hs_flush s_wr flushSerialHW s_on s_txc].
  set (u := mkSer true [] None None false false line).
  assert (E : tick T u = u) by reflexivity. rewrite E.
  assert (HH : forall k, spin (fun s => negb (s_txc s)) (tick T) k u = None).
  { induction k; cbn [spin]; [ reflexivity | ]. rewrite E. exact IHk. }
  rewrite HH. reflexivity.
Qed.

(** C171 (other builds): the text itself is printed unchanged, but a line ends twice and
    the base of numbers is ignored. *)
Theorem host_text t : item_host (IText t) = Some t.
Proof. reflexivity. Qed.
Theorem host_line_refuted : item_host (ITextLn [65]) = Some [65; 10; 10].
Proof. reflexivity. Qed.
Theorem host_base_refuted : item_host (INum 255 16) = Some [50; 53; 53] /\ item_avr (INum 255 16) = Some [70; 70].
Proof. split; vm_compute; reflexivity. Qed.

(** C171 (EFR32): set up, exactly the same bytes as on AVR are sent, otherwise none; the
    count returned is right for texts, and wrong for numbers: 0 when sent, the number of
    digits when not. *)
Theorem efr_bytes setup i l : item_avr i = Some l ->
  exists n, efr_item setup i = Some ((if setup : bool then l else []), n).
Proof.
  assert (E : forall m, fst (efr_each setup m) = if setup then m else []).
  { induction m as [ | c m IH]; cbn [efr_each]; [ destruct setup; reflexivity | ].
    unfold efr_write1. destruct (efr_each setup m) as [o k]. cbn [fst] in IH. destruct setup; cbn [fst]; subst o; reflexivity. }
  destruct i as [t | t | v b | ]; cbn [item_avr efr_item]; intros H.
  - apply some_inj in H. subst l. unfold efr_writeN. destruct setup; eexists; reflexivity.
  - apply some_inj in H. subst l. unfold efr_writeN. destruct setup; eexists; reflexivity.
  - rewrite H. cbn [bind]. specialize (E l). destruct (efr_each setup l) as [o k]. cbn [fst] in E. subst o. eexists. reflexivity.
  - apply some_inj in H. subst l. unfold efr_writeN. destruct setup; eexists; reflexivity.
Qed.
Theorem efr_text_count t : efr_item true (IText t) = Some (t, Zlen t).
Proof. reflexivity. Qed.
Theorem efr_number_count_refuted v b l : printSigned v b = Some l -> Zlen l < 2 ^ 32 ->
  efr_item true (INum v b) = Some (l, 0) /\ efr_item false (INum v b) = Some ([], Zlen l).
Proof.
  intros H L. cbn [efr_item]. rewrite H. cbn [bind].
  assert (A : efr_each true l = (l, 0)).
  { clear. induction l as [ | c l IH]; [ reflexivity | ]. cbn [efr_each efr_write1]. rewrite IH. reflexivity. }
  assert (B : efr_each false l = ([], Zlen l)).
  { clear H A. induction l as [ | c l IH]; [ reflexivity | ]. cbn [efr_each efr_write1]. rewrite Zlen_cons in *.
    pose proof (Zlen_nonneg l). rewrite IH by lia. cbn [app]. rewrite Z.mod_small by lia. f_equal. }
  now rewrite A, B.
Qed.

(** The hypotheses are met: a status line printed while the port is off, and one printed by
    code holding the port, each byte taking 20 polls. *)
Example serial_nonvacuous :
  proper [SPrint true [61; 70]; SUp true; SPut [72; 105]; SPrint true [33]; SDown] false /\
  option_map s_line (sops (fun _ => 20%nat) 100 ([SPrint true [61; 70]; SUp true; SPut [72; 105]; SPrint true [33]; SDown] ++ [SPrint false [62]]) ser0)
    = Some [61; 70; 72; 105; 33; 62].
Proof. split; [ cbn; repeat split; discriminate | vm_compute; reflexivity ]. Qed.

Print Assumptions serial_print_delivers_partial.
Print Assumptions serial_print_power.
Print Assumptions serial_empty_hangs_refuted.
Print Assumptions efr_bytes.
