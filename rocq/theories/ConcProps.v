(** Properties of the lock-free counters, number printing and the entropy
    carried over restarts (C162-C164). *)
From Verif Require Import Base EepromModel SmallModel.

(** ** Lock-free counters. *)
(** [t]'s next step, if it is inside a call. *)
Definition pending (s : Shared) (t : nat) : option Thr := find_thr t (s_thr s).
Definition thr_ok (p : nat * Thr) : Prop := match snd p with TDec o => 0 < o <= 255 | TInc o => 0 <= o < 255 end.
Definition sh_inv (s : Shared) : Prop := byte (s_v s) /\ Forall thr_ok (s_thr s).

Lemma find_ok t l x : Forall thr_ok l -> find_thr t l = Some x -> match x with TDec o => 0 < o <= 255 | TInc o => 0 <= o < 255 end.
Proof.
  unfold find_thr. intros H E. destruct (find _ l) as [[n y]|] eqn:F; [|discriminate]. apply some_inj in E. cbn [snd] in E. subst y.
  apply find_some in F as [F _]. rewrite Forall_forall in H. apply (H _ F).
Qed.
Lemma drop_ok t l : Forall thr_ok l -> Forall thr_ok (drop_thr t l).
Proof. intros H. unfold drop_thr. apply Forall_forall. intros x Hx. apply filter_In in Hx as [Hx _]. rewrite Forall_forall in H. apply H; exact Hx. Qed.
Lemma find_drop t u l : t <> u -> find_thr t (drop_thr u l) = find_thr t l.
Proof.
  intros N. unfold find_thr, drop_thr. induction l as [|[n x] l IH]; [reflexivity|]. cbn [filter find fst].
  destruct (Nat.eqb_spec n u) as [-> |Hu]; cbn [negb].
  - destruct (Nat.eqb_spec u t) as [E|_]; [congruence|]. exact IH.
  - cbn [find fst]. destruct (Nat.eqb_spec n t); [reflexivity | exact IH].
Qed.

Lemma sh_step_inv e s : sh_inv s -> sh_inv (sh_step e s).
Proof.
  intros [HB HT]. unfold sh_step. destruct e as [t|t|t|x].
  - destruct (0 =? s_v s) eqn:E; [split; assumption|]. split; [exact HB|]. constructor; [cbn; red in HB; lia | apply drop_ok; exact HT].
  - destruct (255 =? s_v s) eqn:E; [split; assumption|]. split; [exact HB|]. constructor; [cbn; red in HB; lia | apply drop_ok; exact HT].
  - destruct (find_thr t (s_thr s)) as [[o|o]|] eqn:E; [| |split; assumption]; (split; [|apply drop_ok; exact HT]); cbn [s_v]; destruct (s_v s =? o); try exact HB; apply u8_byte.
  - split; [apply u8_byte | exact HT].
Qed.
Lemma sh_run_inv l : forall s, sh_inv s -> sh_inv (sh_run l s).
Proof. induction l as [|e l IH]; intros s H; [exact H|]. cbn [sh_run]. apply IH. apply sh_step_inv. exact H. Qed.
Lemma start_inv v : byte v -> sh_inv (mkShared v []). Proof. split; [assumption | constructor]. Qed.

(** After any interleaving of any number of threads and stores, the next step
    changes the value only to what is stored, or down by one from above zero
    for a decrement, or up by one from below 255 for an increment: it never
    wraps round. *)
Theorem counter_never_wraps : forall v l e, byte v ->
  let s := sh_run l (mkShared v []) in let s' := sh_step e s in
  s_v s' = s_v s \/
  match e with
  | Cas t => (exists o, pending s t = Some (TDec o)) /\ 0 < s_v s /\ s_v s' = s_v s - 1 \/
             (exists o, pending s t = Some (TInc o)) /\ s_v s < 255 /\ s_v s' = s_v s + 1
  | Store x => s_v s' = u8 x
  | _ => False
  end.
Proof.
  intros v l e Hv s s'. destruct (sh_run_inv l _ (start_inv v Hv)) as [HB HT]. fold s in HB, HT. unfold s', sh_step, pending. destruct e as [t|t|t|x].
  - left. destruct (0 =? s_v s); reflexivity.
  - left. destruct (255 =? s_v s); reflexivity.
  - destruct (find_thr t (s_thr s)) as [[o|o]|] eqn:E; [| |left; reflexivity]; pose proof (find_ok _ _ _ HT E) as HO; cbn beta iota in HO; cbn [s_v]; destruct (s_v s =? o) eqn:EV; [right; left | left; reflexivity | right; right | left; reflexivity].
    + split; [exists o; reflexivity|]. split; [lia|]. rewrite u8_id by (red; lia). lia.
    + split; [exists o; reflexivity|]. split; [lia|]. rewrite u8_id by (red; lia). lia.
  - right. reflexivity.
Qed.

(** Events of other threads. *)
Definition others (t : nat) (e : ShEv) : Prop := match e with BeginDec u | BeginInc u | Cas u => u <> t | Store _ => True end.
Lemma pending_kept t l : forall s x, Forall (others t) l -> pending s t = Some x -> pending (sh_run l s) t = Some x.
Proof.
  induction l as [|e l IH]; intros s x HF HP; [exact HP|]. inversion HF as [|? ? H1 H2]; subst. cbn [sh_run]. apply IH; [exact H2|]. unfold pending in *. unfold sh_step.
  destruct e as [u|u|u|y]; cbn [others] in H1.
  - destruct (0 =? s_v s); [exact HP|]. cbn [s_thr]. unfold find_thr at 1. cbn [find fst]. destruct (Nat.eqb_spec u t); [contradiction|]. fold (find_thr t (drop_thr u (s_thr s))). rewrite find_drop by congruence. exact HP.
  - destruct (255 =? s_v s); [exact HP|]. cbn [s_thr]. unfold find_thr at 1. cbn [find fst]. destruct (Nat.eqb_spec u t); [contradiction|]. fold (find_thr t (drop_thr u (s_thr s))). rewrite find_drop by congruence. exact HP.
  - destruct (find_thr u (s_thr s)) as [[o|o]|]; cbn [s_thr]; try exact HP; rewrite find_drop by congruence; exact HP.
  - exact HP.
Qed.
Lemma begin_pending t s : s_v s <> 0 -> pending (sh_step (BeginDec t) s) t = Some (TDec (s_v s)).
Proof. intros H. unfold sh_step, pending. replace (0 =? s_v s) with false by lia. cbn [s_thr]. unfold find_thr. cbn [find fst]. rewrite Nat.eqb_refl. reflexivity. Qed.
Lemma begin_pending_inc t s : s_v s <> 255 -> pending (sh_step (BeginInc t) s) t = Some (TInc (s_v s)).
Proof. intros H. unfold sh_step, pending. replace (255 =? s_v s) with false by lia. cbn [s_thr]. unfold find_thr. cbn [find fst]. rewrite Nat.eqb_refl. reflexivity. Qed.
Lemma begin_value t s : s_v (sh_step (BeginDec t) s) = s_v s. Proof. unfold sh_step. destruct (0 =? s_v s); reflexivity. Qed.

(** A decrement does nothing at zero; otherwise it takes effect exactly if the
    value is, at its end, what it was at its beginning, whatever others did. *)
Theorem counter_dec_effect : forall t l s, byte (s_v s) -> s_v s <> 0 -> Forall (others t) l ->
  let s1 := sh_run l (sh_step (BeginDec t) s) in
  s_v (sh_step (Cas t) s1) = if s_v s1 =? s_v s then s_v s - 1 else s_v s1.
Proof.
  intros t l s HB HN HF s1. pose proof (pending_kept t l _ _ HF (begin_pending t s HN)) as HP. fold s1 in HP. unfold pending in HP.
  unfold sh_step. rewrite HP. cbn [s_v]. destruct (s_v s1 =? s_v s); [|reflexivity]. apply u8_id. red in HB |- *. lia.
Qed.
Theorem counter_inc_effect : forall t l s, byte (s_v s) -> s_v s <> 255 -> Forall (others t) l ->
  let s1 := sh_run l (sh_step (BeginInc t) s) in
  s_v (sh_step (Cas t) s1) = if s_v s1 =? s_v s then s_v s + 1 else s_v s1.
Proof.
  intros t l s HB HN HF s1. pose proof (pending_kept t l _ _ HF (begin_pending_inc t s HN)) as HP. fold s1 in HP. unfold pending in HP.
  unfold sh_step. rewrite HP. cbn [s_v]. destruct (s_v s1 =? s_v s); [|reflexivity]. apply u8_id. red in HB |- *. lia.
Qed.
Theorem counter_at_limit : forall t s, (s_v s = 0 -> sh_step (BeginDec t) s = s) /\ (s_v s = 255 -> sh_step (BeginInc t) s = s).
Proof. intros t s. unfold sh_step. split; intros ->; reflexivity. Qed.

(** Many decrementers: each call takes at most one off, and one that runs from
    a nonzero value to its end means the value has gone down. *)
Definition dec_ev (e : ShEv) : Prop := match e with BeginDec _ | Cas _ => True | _ => False end.
Definition only_dec (s : Shared) : Prop := Forall (fun p => match snd p with TDec _ => True | TInc _ => False end) (s_thr s).
Definition is_cas (e : ShEv) : bool := match e with Cas _ => true | _ => false end.
Lemma dec_step e s : sh_inv s -> only_dec s -> dec_ev e -> only_dec (sh_step e s) /\ s_v s - (if is_cas e then 1 else 0) <= s_v (sh_step e s) <= s_v s.
Proof.
  intros [HB HT] HD HE. assert (HDr : forall u, Forall (fun p => match snd p with TDec _ => True | TInc _ => False end) (drop_thr u (s_thr s))).
  { intros u. apply Forall_forall. intros x Hx. apply filter_In in Hx as [Hx _]. red in HD. rewrite Forall_forall in HD. apply HD; exact Hx. }
  unfold sh_step. destruct e as [t|t|t|x]; try contradiction.
  - destruct (0 =? s_v s) eqn:E; cbn [is_cas]; [split; [exact HD | lia]|]. split; [constructor; [exact I | apply HDr]|]. cbn [s_v]. lia.
  - cbn [is_cas]. destruct (find_thr t (s_thr s)) as [[o|o]|] eqn:E; [| |split; [exact HD | lia]].
    + split; [apply HDr|]. cbn [s_v]. pose proof (find_ok _ _ _ HT E) as HO. cbn beta iota in HO. destruct (s_v s =? o) eqn:EV; [rewrite u8_id by (red; lia)|]; lia.
    + exfalso. unfold find_thr in E. destruct (find _ (s_thr s)) as [[n y]|] eqn:F; [|discriminate]. apply some_inj in E. cbn [snd] in E. subst y.
      apply find_some in F as [F _]. red in HD. rewrite Forall_forall in HD. apply (HD _ F).
Qed.
Lemma dec_run l : forall s, sh_inv s -> only_dec s -> Forall dec_ev l -> only_dec (sh_run l s) /\ s_v s - Z.of_nat (length (filter is_cas l)) <= s_v (sh_run l s) <= s_v s.
Proof.
  induction l as [|e l IH]; intros s HI HD HL; [cbn [sh_run filter length]; split; [exact HD | lia]|]. inversion HL as [|? ? H1 H2]; subst. cbn [sh_run].
  destruct (dec_step e s HI HD H1) as [D1 D2]. destruct (IH _ (sh_step_inv e s HI) D1 H2) as [D3 D4]. split; [exact D3|].
  cbn [filter]. destruct (is_cas e); cbn [length]; lia.
Qed.
Theorem counter_many_decrements : forall v l, byte v -> Forall dec_ev l ->
  let s := sh_run l (mkShared v []) in
  v - Z.of_nat (length (filter is_cas l)) <= s_v s <= v /\
  forall t l2, Forall dec_ev l2 -> Forall (others t) l2 -> 0 < s_v s -> s_v (sh_run (BeginDec t :: l2 ++ [Cas t]) s) < s_v s.
Proof.
  intros v l Hv HL s. destruct (dec_run l (mkShared v []) (start_inv v Hv) (Forall_nil _) HL) as [HD HV]. fold s in HD, HV. cbn [s_v] in HV. split; [exact HV|].
  intros t l2 HL2 HO Hs. pose proof (sh_run_inv l _ (start_inv v Hv)) as HI. fold s in HI. cbn [sh_run].
  assert (EA : forall a s, sh_run (a ++ [Cas t]) s = sh_step (Cas t) (sh_run a s)) by (induction a as [|x a IH]; intros s'; [reflexivity | cbn [app sh_run]; apply IH]). rewrite EA.
  rewrite (counter_dec_effect t l2 s); [|apply HI | lia | exact HO].
  destruct (dec_step (BeginDec t) s HI HD I) as [D1 D2]. destruct (dec_run l2 _ (sh_step_inv (BeginDec t) s HI) D1 HL2) as [_ D4].
  destruct (s_v (sh_run l2 (sh_step (BeginDec t) s)) =? s_v s) eqn:E; lia.
Qed.
(** Two threads, an interrupt re-arming the timer, and one at zero. *)
Example counter_case :
  s_v (sh_run [BeginDec 1; BeginDec 2; Cas 2; Cas 1] (mkShared 1 [])) = 0 /\
  s_v (sh_run [BeginDec 1; Store 50; Cas 1] (mkShared 3 [])) = 50 /\
  s_v (sh_run [BeginDec 1; Store 3; Cas 1; BeginInc 2; Cas 2; BeginDec 4; Cas 4] (mkShared 3 [])) = 2.
Proof. repeat split. Qed.

(** ** Numbers printed.  Reading them back. *)
Definition digit_of (c : Z) : Z := if (48 <=? c) && (c <=? 57) then c - 48 else if (65 <=? c) && (c <=? 90) then c - 55 else -1.
Definition number (b : Z) (cs : list Z) : Z := fold_left (fun a c => a * b + digit_of c) cs 0.
Definition used_base (base : Z) : Z := Z.max 2 (Z.min 36 base).

Lemma number_snoc b cs c : number b (cs ++ [c]) = number b cs * b + digit_of c.
Proof. unfold number. rewrite fold_left_app. reflexivity. Qed.
Lemma digit_of_char d : 0 <= d < 36 -> digit_of (digit_char d) = d.
Proof. intros H. unfold digit_of, digit_char. destruct (d <=? 9) eqn:E; [replace ((48 <=? 48 + d) && (48 + d <=? 57)) with true by lia; lia|]. replace ((48 <=? 65 + d - 10) && (65 + d - 10 <=? 57)) with false by lia. replace ((65 <=? 65 + d - 10) && (65 + d - 10 <=? 90)) with true by lia. lia. Qed.
(** [fold_left] from the most significant digit. *)
Lemma number_from b : forall cs a, fold_left (fun a c => a * b + digit_of c) cs a = a * b ^ Zlen cs + number b cs.
Proof.
  induction cs as [|c cs IH] using rev_ind; intros a; [cbn [fold_left]; change (Zlen []) with 0; change (number b []) with 0; rewrite Z.pow_0_r; lia|].
  rewrite fold_left_app. cbn [fold_left]. rewrite IH, number_snoc, Zlen_app. change (Zlen [c]) with 1. rewrite Z.pow_add_r, Z.pow_1_r by (try apply Zlen_nonneg; lia). ring.
Qed.
Lemma number_cons b c cs : number b (c :: cs) = digit_of c * b ^ Zlen cs + number b cs.
Proof. unfold number at 1. cbn [fold_left]. rewrite number_from. lia. Qed.

Lemma digits_loop_spec b : 2 <= b <= 36 -> forall fuel ul buf, 0 <= ul < 2 ^ (Z.of_nat fuel - 1) -> (buf <> [] -> 0 < ul) -> Zlen buf = 65 - Z.of_nat fuel -> (0 < fuel)%nat ->
  exists out, digits_loop fuel b ul buf = Some (buf ++ out) /\ out <> [] /\ Forall (fun c => 0 <= digit_of c < b) out /\ number b (rev out) = ul /\
    (hd 0 (rev out) = 48 -> out = [48] /\ ul = 0) /\ Zlen (buf ++ out) <= 64.
Proof.
  intros Hb. induction fuel as [|fuel IH]; intros ul buf HU HN HL HF; [lia|]. cbn [digits_loop]. unfold MAXSPACE.
  assert (HM : 0 <= ul mod b < b) by (apply Z.mod_pos_bound; lia).
  assert (HL64 : Zlen buf < 64).
  { destruct fuel as [|fuel]; [|lia]. exfalso. replace (Z.of_nat 1 - 1) with 0 in HU by lia. rewrite Z.pow_0_r in HU. assert (ul = 0) by lia.
    destruct buf; [change (Zlen []) with 0 in HL; lia | specialize (HN ltac:(discriminate)); lia]. }
  replace (64 <=? Zlen buf) with false by lia.
  assert (HD : digit_of (digit_char (ul mod b)) = ul mod b) by (apply digit_of_char; lia).
  destruct (0 <? ul / b) eqn:ED.
  - destruct (IH (ul / b) (buf ++ [digit_char (ul mod b)])) as (out & E & H1 & H2 & H3 & H4 & H5).
    + split; [lia|]. apply Z.div_lt_upper_bound; [lia|]. replace (Z.of_nat (S fuel) - 1) with (1 + (Z.of_nat fuel - 1)) in HU by lia.
      destruct fuel as [|fuel]; [exfalso; replace (1 + (Z.of_nat 0 - 1)) with 0 in HU by lia; rewrite Z.pow_0_r in HU; assert (ul = 0) by lia; subst ul; rewrite Z.div_0_l in ED by lia; discriminate|].
      rewrite Z.pow_add_r in HU by lia. change (2 ^ 1) with 2 in HU. pose proof (Z.pow_pos_nonneg 2 (Z.of_nat (S fuel) - 1) ltac:(lia) ltac:(lia)). nia.
    + intros _. lia.
    + rewrite Zlen_app. change (Zlen [digit_char (ul mod b)]) with 1. lia.
    + destruct fuel; [exfalso|lia]. replace (Z.of_nat 1 - 1) with 0 in HU by lia. rewrite Z.pow_0_r in HU. assert (ul = 0) by lia; subst ul; rewrite Z.div_0_l in ED by lia; discriminate.
    + exists (digit_char (ul mod b) :: out). split; [rewrite E, <- app_assoc; reflexivity|]. split; [discriminate|]. split; [constructor; [rewrite HD; exact HM | exact H2]|].
      cbn [rev]. split; [rewrite number_snoc, H3, HD; pose proof (Z.div_mod ul b); lia|]. split.
      * intros HH. exfalso. assert (EH : hd 0 (rev out ++ [digit_char (ul mod b)]) = hd 0 (rev out)).
        { destruct (rev out) as [|x r] eqn:ER; [|reflexivity]. exfalso. apply H1. rewrite <- (rev_involutive out), ER. reflexivity. }
        rewrite EH in HH. destruct (H4 HH) as [_ H0]. lia.
      * rewrite <- app_assoc in H5. exact H5.
  - assert (EU : ul / b = 0) by (pose proof (Z.div_pos ul b); lia). assert (EM : ul mod b = ul) by (pose proof (Z.div_mod ul b); lia).
    exists [digit_char (ul mod b)]. split; [reflexivity|]. split; [discriminate|]. split; [constructor; [rewrite HD; exact HM | constructor]|].
    cbn [rev app hd]. split; [unfold number; cbn [fold_left]; lia|]. split.
    + intros HH. rewrite HH. split; [reflexivity|]. rewrite HH in HD. change (digit_of 48) with 0 in HD. lia.
    + rewrite Zlen_app. change (Zlen [digit_char (ul mod b)]) with 1. lia.
Qed.

(** Every unsigned number in every base: at most 64 digits of the base, no
    leading zero, reading back as the number; nothing outside the buffer. *)
Theorem print_unsigned_reads_back : forall ul base, 0 <= ul < 2 ^ 64 ->
  exists cs, printUnsigned ul base = Some cs /\ number (used_base base) cs = ul /\ Forall (fun c => 0 <= digit_of c < used_base base) cs /\
    1 <= Zlen cs <= 64 /\ (hd 0 cs = 48 -> cs = [48]).
Proof.
  intros ul base HU. unfold printUnsigned.
  assert (EB : (if base <? 2 then 2 else if 36 <? base then 36 else base) = used_base base) by (unfold used_base; destruct (base <? 2) eqn:E1; [lia|]; destruct (36 <? base) eqn:E2; lia).
  rewrite EB. assert (HB : 2 <= used_base base <= 36) by (unfold used_base; lia).
  destruct (digits_loop_spec (used_base base) HB 65 ul [] ltac:(change (Z.of_nat 65 - 1) with 64; exact HU) ltac:(congruence) eq_refl ltac:(lia)) as (out & E & H1 & H2 & H3 & H4 & H5).
  rewrite E. cbn [app] in *. cbn [bind]. exists (rev out). split; [reflexivity|]. split; [exact H3|]. split; [apply Forall_rev; exact H2|].
  assert (EL : Zlen (rev out) = Zlen out) by (unfold Zlen; rewrite rev_length; reflexivity). rewrite EL. split; [|intros HH; destruct (H4 HH) as [-> _]; reflexivity].
  destruct out; [congruence|]. rewrite Zlen_cons in *. pose proof (Zlen_nonneg out). lia.
Qed.
(** Signed ones in base 10, with a minus sign if negative. *)
Definition signed_number (cs : list Z) : Z := match cs with c :: r => if c =? 45 then - number 10 r else number 10 cs | [] => 0 end.
Theorem print_signed_reads_back_partial : forall l, - 2 ^ 63 < l < 2 ^ 63 -> exists cs, printSigned l 10 = Some cs /\ signed_number cs = l.
Proof.
  intros l HL. unfold printSigned. replace (10 =? 10) with true by reflexivity. rewrite andb_true_r. destruct (l <? 0) eqn:EL.
  - replace (l =? - 2 ^ 63) with false by lia. destruct (print_unsigned_reads_back (- l) 10 ltac:(lia)) as (cs & E & H1 & _). rewrite E. cbn [bind]. exists (45 :: cs). split; [reflexivity|].
    cbn [signed_number]. change (used_base 10) with 10 in H1. replace (45 =? 45) with true by reflexivity. lia.
  - rewrite Z.mod_small by lia. destruct (print_unsigned_reads_back l 10 ltac:(lia)) as (cs & E & H1 & H2 & H3 & _). rewrite E. exists cs. split; [reflexivity|]. change (used_base 10) with 10 in *.
    destruct cs as [|c r]; [change (Zlen []) with 0 in H3; lia|]. cbn [signed_number]. inversion H2 as [|? ? HD _]; subst. destruct (c =? 45) eqn:EC; [|reflexivity].
    replace c with 45 in HD by lia. cbn in HD. lia.
Qed.
Example print_case : printUnsigned 48879 16 = Some [66; 69; 69; 70] /\ printSigned (-120) 10 = Some [45; 49; 50; 48] /\ printUnsigned 0 8 = Some [48] /\ printUnsigned 5 0 = Some [49; 48; 49].
Proof. repeat split. Qed.
(** The least number is negated as a signed long, which overflows. *)
Theorem print_least_refuted : printSigned (- 2 ^ 63) 10 = None.
Proof. reflexivity. Qed.

(** ** Entropy carried over restarts. *)
Definition ops (k : EvKind) (p : Z) (l : list (EvKind * Z)) : Z :=
  Z.of_nat (length (filter (fun e => match fst e, k with KErase, KErase | KWrite, KWrite | KEraseWrite, KEraseWrite => snd e =? p | _, _ => false end) l)).
Definition seed_addr (p : Z) : Prop := 2 <= p <= 5.

(** One restart: at most one operation, on one seed byte. *)
Lemma seed_one k mask s f : let s' := fst (seed_carry k mask s f) in let p := 2 + k mod 4 in
  (s' = s \/ (mem s p = 0 /\ mem s' = upd (mem s) p 255 /\ evs s' = (KErase, p) :: evs s)
   \/ (mem s p <> 0 /\ mem s' = upd (mem s) p (Z.land (mem s p) (Z.land (mem s p) (u8 mask))) /\ evs s' = (KWrite, p) :: evs s)).
Proof.
  cbv zeta. unfold seed_carry, SEED_START. rewrite Z.land_comm. change 3 with (Z.ones 2). rewrite Z.land_ones by lia. change (2 ^ 2) with 4.
  set (p := 2 + k mod 4). clearbody p. unfold mbind, ee_read. destruct (0 =? mem s p) eqn:E0.
  - unfold smart_erase, mbind, ee_read. replace (mem s p) with 0 by lia. change (negb (255 =? 0)) with true. cbv iota. unfold ee_op. destruct f as [|f]; [left; reflexivity|].
    right. left. split; [lia|]. split; reflexivity.
  - unfold smart_clear_bits, mbind, ee_read. cbv zeta. destruct (mem s p =? Z.land (mem s p) (u8 mask)); cbn [negb]; [left; reflexivity|].
    unfold ee_op. destruct f as [|f]; [left; reflexivity|]. right. right. split; [lia|]. split; reflexivity.
Qed.

(** Over any restarts, with power failing anywhere: at most one EEPROM operation
    each, only on the four seed bytes, everything else kept, never an erase and
    write in one; and of the operations on a byte at most every second is an
    erase. *)
Theorem seed_endurance : forall l s, let s' := restarts l s in exists new, evs s' = new ++ evs s /\ Z.of_nat (length new) <= Z.of_nat (length l) /\
  Forall (fun e => seed_addr (snd e) /\ fst e <> KEraseWrite) new /\
  (forall p, ~ seed_addr p -> mem s' p = mem s p) /\
  (forall p, ops KErase p new <= ops KWrite p new + (if mem s p =? 0 then 1 else 0)).
Proof.
  assert (G : forall l s, let s' := restarts l s in exists new, evs s' = new ++ evs s /\ Z.of_nat (length new) <= Z.of_nat (length l) /\
    Forall (fun e => seed_addr (snd e) /\ fst e <> KEraseWrite) new /\ (forall p, ~ seed_addr p -> mem s' p = mem s p) /\
    (forall p, ops KErase p new + (if mem s' p =? 0 then 1 else 0) <= ops KWrite p new + (if mem s p =? 0 then 1 else 0))).
  { induction l as [|[[k mask] f] l IH] using rev_ind; intros s.
    - exists []. cbn [restarts length]. split; [reflexivity|]. split; [lia|]. split; [constructor|]. split; [reflexivity|]. intros p. unfold ops. cbn [filter length]. lia.
    - cbv zeta. assert (ER : forall a s0, restarts (a ++ [(k, mask, f)]) s0 = fst (seed_carry k mask (restarts a s0) f)).
      { induction a as [|[[k' m'] f'] a IHa]; intros s0; [reflexivity|]. cbn [app restarts]. apply IHa. }
      rewrite ER. destruct (IH s) as (new & H1 & H2 & H3 & H4 & H5). set (s1 := restarts l s) in *. clearbody s1. rewrite app_length. cbn [length].
      assert (HP : seed_addr (2 + k mod 4)) by (red; pose proof (Z.mod_pos_bound k 4 ltac:(lia)); lia).
      pose proof (seed_one k mask s1 f) as HS. cbv zeta in HS. set (s2 := fst (seed_carry k mask s1 f)) in *. clearbody s2. set (p0 := 2 + k mod 4) in *. clearbody p0.
      destruct HS as [-> | [(E0 & EM & EV)|(E0 & EM & EV)]].
      + exists new. split; [exact H1|]. split; [lia|]. split; [exact H3|]. split; [exact H4|]. exact H5.
      + exists ((KErase, p0) :: new). rewrite EV, H1. split; [reflexivity|]. split; [cbn [length]; lia|]. split; [constructor; [split; [exact HP | discriminate] | exact H3]|]. rewrite EM. split.
        * intros p Hp. unfold upd. destruct (p =? p0) eqn:EP; [exfalso; apply Hp; replace p with p0 by lia; exact HP | apply H4; exact Hp].
        * intros p. specialize (H5 p). unfold ops in *. cbn [filter fst snd]. unfold upd. destruct (Z.eq_dec p p0) as [-> |N].
          -- rewrite E0 in H5. rewrite !Z.eqb_refl. cbn [length]. change (255 =? 0) with false. change (0 =? 0) with true in H5. cbv iota in *. destruct (mem s p0 =? 0); lia.
          -- replace (p0 =? p) with false by lia. replace (p =? p0) with false by lia. exact H5.
      + exists ((KWrite, p0) :: new). rewrite EV, H1. split; [reflexivity|]. split; [cbn [length]; lia|]. split; [constructor; [split; [exact HP | discriminate] | exact H3]|]. rewrite EM. split.
        * intros p Hp. unfold upd. destruct (p =? p0) eqn:EP; [exfalso; apply Hp; replace p with p0 by lia; exact HP | apply H4; exact Hp].
        * intros p. specialize (H5 p). unfold ops in *. cbn [filter fst snd]. unfold upd. destruct (Z.eq_dec p p0) as [-> |N].
          -- rewrite !Z.eqb_refl. cbn [length]. replace (mem s1 p0 =? 0) with false in H5 by lia. cbv iota in *. destruct (Z.land _ _ =? 0); destruct (mem s p0 =? 0); lia.
          -- replace (p0 =? p) with false by lia. replace (p =? p0) with false by lia. exact H5. }
  intros l s. cbv zeta. destruct (G l s) as (new & H1 & H2 & H3 & H4 & H5). exists new. split; [exact H1|]. split; [exact H2|]. split; [exact H3|]. split; [exact H4|].
  intros p. specialize (H5 p). destruct (mem (restarts l s) p =? 0); destruct (mem s p =? 0); lia.
Qed.
Example seed_case : let s' := restarts [(1, 240, 9%nat); (1, 15, 9%nat); (1, 7, 0%nat); (5, 7, 9%nat); (2, 255, 9%nat)] (mkEE (fun _ => 255) []) in
  evs s' = [(KErase, 3); (KWrite, 3); (KWrite, 3)] /\ mem s' 3 = 255.
Proof. split; reflexivity. Qed.
