(** Properties of scratch spaces and stack checks (C156, C157). *)
From Verif Require Import Base UtilModel.

(** ** Scratch space (C156) *)

(** A chain of nested routines: each keeps the first [n] bytes of the space it
    is given, and hands the tail on.  The regions kept, and the last space. *)
Fixpoint keep_all (tail : Space -> Z -> Space) (p : Space) (ns : list Z) : list (Z * Z) * Space :=
  match ns with
  | [] => ([], p)
  | n :: r => match sp_buf p, sp_buf (tail p n) with
              | Some a, Some _ => let (l, q) := keep_all tail (tail p n) r in ((a, n) :: l, q)
              | _, _ => ([], tail p n)
              end
  end.
(** The regions lie in the buffer [a], [a + size), none overlaps another, and
    the last space is what follows them, to the end of the buffer, or unusable. *)
Definition well_kept (a size : Z) (l : list (Z * Z)) (q : Space) : Prop :=
  (forall r, In r l -> 0 < snd r /\ a <= fst r /\ fst r + snd r <= a + size) /\
  ForallOrdPairs (fun r1 r2 => fst r1 + snd r1 <= fst r2) l /\
  match sp_buf q with
  | Some b => (forall r, In r l -> fst r + snd r <= b) /\ a <= b /\ b + sp_size q = a + size /\ 0 < sp_size q
  | None => sp_size q = 0
  end.

Lemma keep_ok tail ok : (forall a size n, ok size = true -> 0 < size -> 0 <= n -> (forall m, ok m = true -> 0 <= m) ->
    tail (mkSpace (Some a) size) n = mkSpace None 0 \/ (0 < n < size /\ ok (size - n) = true /\ tail (mkSpace (Some a) size) n = mkSpace (Some (a + n)) (size - n))) ->
  (forall m, ok m = true -> 0 <= m) ->
  forall ns a size, ok size = true -> 0 < size -> Forall (fun n => 0 <= n) ns ->
  let (l, q) := keep_all tail (mkSpace (Some a) size) ns in well_kept a size l q.
Proof.
  intros HT HO. induction ns as [|n ns IH]; intros a size Hok Hs HF; cbn [keep_all sp_buf].
  - split; [intros r []|]. split; [constructor|]. cbn [sp_buf sp_size]. split; [intros r []|]. lia.
  - inversion HF as [|? ? Hn HF']; subst. destruct (HT a size n Hok Hs Hn HO) as [-> |(Hlt & Hok' & ->)]; cbn [sp_buf].
    + split; [intros r []|]. split; [constructor|]. reflexivity.
    + specialize (IH (a + n) (size - n) Hok' ltac:(lia) HF'). destruct (keep_all tail (mkSpace (Some (a + n)) (size - n)) ns) as [l q].
      destruct IH as (H1 & H2 & H3). split; [intros r [<- |HI]; [cbn [fst snd]; lia | specialize (H1 r HI); lia]|].
      split. { constructor; [|exact H2]. apply Forall_forall. intros r HI. specialize (H1 r HI). cbn [fst snd]. lia. }
      destruct (sp_buf q) as [b|]; [|exact H3]. destruct H3 as (H3 & H4 & H5 & H6). split; [intros r [<- |HI]; [cbn [fst snd]; lia | apply H3; exact HI]|]. lia.
Qed.

(** However deep the nesting and whatever each routine keeps: large spaces, *)
Theorem scratch_large : forall ns a size, 0 < size -> Forall (fun n => 0 <= n) ns ->
  let (l, q) := keep_all subL (spaceL (Some a) size) ns in well_kept a size l q.
Proof.
  intros ns a size Hs HF. unfold spaceL. replace (0 =? size) with false by lia.
  apply (keep_ok subL (fun m => 0 <=? m)); [|intros m; lia | lia | exact Hs | exact HF].
  intros a' s' n _ Hs' Hn _. unfold subL, cannot. cbn [sp_buf sp_size addr_plus].
  destruct ((0 =? n) || (s' <=? n)) eqn:E; [left; reflexivity | right; split; [lia|]; split; [lia|reflexivity]].
Qed.
(** small ones of up to 255 bytes, *)
Theorem scratch_small : forall ns a size, 0 < size <= 255 -> Forall byte ns ->
  let (l, q) := keep_all sub8 (space8 (Some a) size) ns in well_kept a size l q.
Proof.
  intros ns a size Hs HF. unfold space8, spaceL. rewrite u8_id by (red; lia). replace (0 =? size) with false by lia.
  assert (G : Forall (fun n => 0 <= n) ns /\ Forall byte ns) by (split; [eapply Forall_impl; [|exact HF]; intros n Hn; red in Hn; lia | exact HF]).
  clear HF. destruct G as [HF HB].
  assert (HQ : forall ns p, Forall byte ns -> keep_all sub8 p ns = keep_all (fun p n => if n <? 256 then sub8 p n else mkSpace None 0) p ns).
  { clear. induction ns as [|n ns IH]; intros p HB; [reflexivity|]. inversion HB as [|? ? Hn HB']; subst. cbn [keep_all]. red in Hn. replace (n <? 256) with true by lia.
    destruct (sp_buf p) as [b|]; [|reflexivity]. destruct (sp_buf (sub8 p n)); [|reflexivity]. rewrite <- IH by exact HB'. reflexivity. }
  rewrite HQ by exact HB. apply (keep_ok _ (fun m => (0 <=? m) && (m <=? 255))); [|intros m; lia | lia | lia | exact HF].
  intros a' s' n Hok Hs' Hn _. destruct (n <? 256) eqn:E256; [|left; reflexivity]. unfold sub8, cannot. rewrite (u8_id n) by (red; lia). cbv zeta. cbn [sp_buf sp_size addr_plus].
  destruct ((0 =? n) || (s' <=? n)) eqn:E; [left; reflexivity | right; split; [lia|]; split; [lia|]]. rewrite u8_id by (red; lia). reflexivity.
Qed.
(** and a small one wrapped round a large one. *)
Theorem scratch_wrap : forall ns a size, 0 < size -> Forall byte ns ->
  let (l, q) := keep_all sub8 (wrap8 (spaceL (Some a) size)) ns in well_kept a (Z.min size 255) l q.
Proof.
  intros ns a size Hs HF. replace (wrap8 (spaceL (Some a) size)) with (space8 (Some a) (Z.min size 255)).
  - apply scratch_small; [lia | exact HF].
  - unfold wrap8, spaceL, space8, spaceL. rewrite u8_id by (red; lia). replace (0 =? size) with false by lia. replace (0 =? Z.min size 255) with false by lia.
    cbn [sp_buf sp_size]. destruct (255 <? size) eqn:E; f_equal; [lia | rewrite u8_id by (red; lia); lia].
Qed.
(** A tail is unusable exactly if nothing is kept or nothing would be left. *)
Theorem scratch_unusable : forall a size n, 0 < size -> 0 <= n -> sp_buf (subL (spaceL (Some a) size) n) = None <-> n = 0 \/ size <= n.
Proof.
  intros a size n Hs Hn. unfold spaceL, subL, cannot. replace (0 =? size) with false by lia. cbn [sp_buf sp_size addr_plus].
  destruct ((0 =? n) || (size <=? n)) eqn:E; split; intros H; try reflexivity; try discriminate; lia.
Qed.
Example scratch_case : keep_all sub8 (wrap8 (spaceL (Some 1000) 600)) [32; 100; 123] = ([(1000, 32); (1032, 100)], mkSpace None 0) /\
  keep_all subL (spaceL (Some 1000) 600) [32; 100; 123] = ([(1000, 32); (1032, 100); (1132, 123)], mkSpace (Some 1255) 345).
Proof. split; reflexivity. Qed.
(** A small space takes the number of bytes to keep modulo 256: kept 260 bytes,
    of a space of 255, the tail starts 4 bytes in. *)
Theorem scratch_modulo_refuted : forall a, sub8 (space8 (Some a) 255) 260 = mkSpace (Some (a + 4)) 251.
Proof. intros a. reflexivity. Qed.

(** ** Stack checks (C157) *)

Definition call_ind' (P : Call -> Prop)
  (H : forall pos loc i0 i1 i2 i3, Forall P i0 -> Forall P i1 -> Forall P i2 -> Forall P i3 -> P (mkCall pos loc i0 i1 i2 i3)) : forall c, P c :=
  fix ind (c : Call) : P c :=
    let all := fix all (l : list Call) : Forall P l := match l with [] => Forall_nil P | c :: r => Forall_cons c (ind c) (all r) end in
    match c with mkCall pos loc i0 i1 i2 i3 => H pos loc i0 i1 i2 i3 (all i0) (all i1) (all i2) (all i3) end.

(** All stack pointers recorded in a call, with those of its interrupts. *)
Fixpoint positions (c : Call) : list Z :=
  match c with mkCall pos _ i0 i1 i2 i3 => flat_map positions i0 ++ flat_map positions i1 ++ pos :: flat_map positions i2 ++ flat_map positions i3 end.
(** Interrupts run below the interrupted code on the stack. *)
Inductive nested : Call -> Prop :=
| nested_call pos loc i0 i1 i2 i3 : Forall nested (i0 ++ i1 ++ i2 ++ i3) -> (forall q, In q (flat_map positions (i0 ++ i1 ++ i2 ++ i3)) -> q < pos) -> nested (mkCall pos loc i0 i1 i2 i3).
(** [v] is the least of [m] and the values in [l]. *)
Definition least (v : Z) (l : list Z) (m : Z) : Prop := v <= m /\ (forall q, In q l -> v <= q) /\ (v = m \/ In v l).

Lemma least_app v1 v2 l1 l2 m : least v1 l1 m -> least v2 l2 v1 -> least v2 (l1 ++ l2) m.
Proof.
  intros (A1 & A2 & A3) (B1 & B2 & B3). split; [lia|]. split.
  - intros q Hq. apply in_app_or in Hq as [Hq|Hq]; [specialize (A2 q Hq); lia | apply B2; exact Hq].
  - destruct B3 as [-> |B3]; [destruct A3 as [A3|A3]; [left; exact A3 | right; apply in_or_app; left; exact A3] | right; apply in_or_app; right; exact B3].
Qed.
Lemma least_nil m : least m [] m. Proof. split; [lia|]. split; [intros q []|left; reflexivity]. Qed.
Lemma records_eq end_ l s : (fix all (l : list Call) (s : Mem) : Mem := match l with [] => s | c :: r => all r (record end_ c s) end) l s = records end_ l s.
Proof. revert s. induction l as [|c l IH]; intros s; [reflexivity|]. apply IH. Qed.
Lemma record_eq end_ pos loc i0 i1 i2 i3 s : record end_ (mkCall pos loc i0 i1 i2 i3) s =
  let s0 := records end_ i0 s in let s1 := records end_ i1 s0 in
  if pos <? m_min s0 then
    let s2 := records end_ i2 (mkMem (m_min s1) loc (m_warn s1)) in
    let hit := m_min s2 =? m_min s0 in
    let s3 := records end_ i3 (if hit then mkMem pos (m_loc s2) (m_warn s2) else s2) in
    if u16 ((if hit then m_min s0 else m_min s2) - end_) <? 64 then mkMem (m_min s3) (m_loc s3) true else s3
  else records end_ i3 (records end_ i2 s1).
Proof.
  cbn [record]. cbv zeta. rewrite ?records_eq. destruct (pos <? m_min (records end_ i0 s)); [|rewrite ?records_eq; reflexivity].
  rewrite ?records_eq. destruct (m_min (records end_ i2 _) =? m_min (records end_ i0 s)); rewrite ?records_eq; reflexivity.
Qed.

Lemma records_least end_ l : Forall (fun c => nested c -> forall s, least (m_min (record end_ c s)) (positions c) (m_min s)) l ->
  Forall nested l -> forall s, least (m_min (records end_ l s)) (flat_map positions l) (m_min s).
Proof.
  induction l as [|c l IH]; intros H HN s; cbn [records flat_map]; [apply least_nil|].
  inversion H as [|? ? H1 H2]; subst. inversion HN as [|? ? N1 N2]; subst. eapply least_app; [apply H1; exact N1 | apply IH; assumption].
Qed.
Lemma least_in v l m a : least v l m -> (forall q, In q l -> q < a) -> v <> m -> v < a.
Proof. intros (_ & _ & [H|H]) HA HN; [contradiction|]. exact (HA v H). Qed.
Lemma least_incl v l l' m : least v l m -> (forall q, In q l <-> In q l') -> least v l' m.
Proof. intros (A1 & A2 & A3) H. split; [exact A1|]. split; [intros q Hq; apply A2, H, Hq|]. destruct A3 as [A3|A3]; [left; exact A3 | right; apply H, A3]. Qed.

Lemma record_least end_ : forall c, nested c -> forall s, least (m_min (record end_ c s)) (positions c) (m_min s).
Proof.
  induction c as [pos loc i0 i1 i2 i3 H0 H1 H2 H3] using call_ind'. intros HN s. inversion HN as [? ? ? ? ? ? NF NP]; subst.
  rewrite !flat_map_app in NP. apply Forall_app in NF as [N0 NF]. apply Forall_app in NF as [N1 NF]. apply Forall_app in NF as [N2 N3].
  pose proof (records_least end_ i0 H0 N0) as L0. pose proof (records_least end_ i1 H1 N1) as L1. pose proof (records_least end_ i2 H2 N2) as L2. pose proof (records_least end_ i3 H3 N3) as L3.
  assert (P1 : forall q, In q (flat_map positions i1) -> q < pos) by (intros q Hq; apply NP; rewrite !in_app_iff; tauto).
  assert (P2 : forall q, In q (flat_map positions i2) -> q < pos) by (intros q Hq; apply NP; rewrite !in_app_iff; tauto).
  clear NP H0 H1 H2 H3 HN. rewrite record_eq. cbv zeta. cbn [positions]. specialize (L0 s). specialize (L1 (records end_ i0 s)).
  set (s0 := records end_ i0 s) in *. set (s1 := records end_ i1 s0) in *. clearbody s0 s1.
  apply (least_app _ _ _ _ _ L0).
  destruct (pos <? m_min s0) eqn:EP.
  - specialize (L2 (mkMem (m_min s1) loc (m_warn s1))). cbn [m_min] in L2. set (s2 := records end_ i2 _) in *. clearbody s2.
    assert (G : least (m_min (if m_min s2 =? m_min s0 then mkMem pos (m_loc s2) (m_warn s2) else s2)) (flat_map positions i1 ++ pos :: flat_map positions i2) (m_min s0)).
    { pose proof (least_app _ _ _ _ _ L1 L2) as L12. destruct (m_min s2 =? m_min s0) eqn:EC; cbn [m_min].
      - split; [lia|]. destruct L12 as (A1 & A2 & A3). split.
        + intros q Hq. rewrite in_app_iff in Hq. cbn [In] in Hq. destruct Hq as [Hq|[<- |Hq]]; [|lia|]; (assert (HG : m_min s2 <= q) by (apply A2; rewrite in_app_iff; tauto)); lia.
        + right. rewrite in_app_iff. right. left. reflexivity.
      - assert (HL : m_min s2 < pos).
        { apply (least_in _ _ _ pos L12); [|lia]. intros q Hq. rewrite in_app_iff in Hq. destruct Hq as [Hq|Hq]; [apply P1 | apply P2]; exact Hq. }
        destruct L12 as (A1 & A2 & A3). split; [exact A1|]. split.
        + intros q Hq. rewrite in_app_iff in Hq. cbn [In] in Hq. destruct Hq as [Hq|[<- |Hq]]; [|lia|]; apply A2; rewrite in_app_iff; tauto.
        + destruct A3 as [A3|A3]; [left; exact A3|]. right. rewrite in_app_iff in *. cbn [In]. tauto. }
    set (s2' := if m_min s2 =? m_min s0 then mkMem pos (m_loc s2) (m_warn s2) else s2) in *. clearbody s2'.
    specialize (L3 s2'). set (s3 := records end_ i3 s2') in *. clearbody s3.
    assert (GF : least (m_min s3) (flat_map positions i1 ++ pos :: flat_map positions i2 ++ flat_map positions i3) (m_min s0)).
    { eapply least_incl; [exact (least_app _ _ _ _ _ G L3)|]. intros q. rewrite !in_app_iff. cbn [In]. rewrite !in_app_iff. tauto. }
    destruct (u16 _ <? 64); exact GF.
  - specialize (L2 s1). specialize (L3 (records end_ i2 s1)).
    pose proof (least_app _ _ _ _ _ L1 (least_app _ _ _ _ _ L2 L3)) as (A1 & A2 & A3).
    assert (HLT : m_min s0 <= pos) by lia.
    split; [exact A1|]. split.
    + intros q Hq. rewrite in_app_iff in Hq. cbn [In] in Hq. destruct Hq as [Hq|[<- |Hq]]; [|lia|]; apply A2; rewrite in_app_iff; tauto.
    + destruct A3 as [A3|A3]; [left; exact A3|]. right. rewrite in_app_iff in *. cbn [In]. tauto.
Qed.

(** However calls are nested by interrupts, the minimum recorded is the least
    stack pointer seen. *)
Theorem stack_minimum : forall end_ l s, Forall nested l -> least (m_min (records end_ l s)) (flat_map positions l) (m_min s).
Proof. intros end_ l s HN. apply records_least; [|exact HN]. apply Forall_forall. intros c _. apply record_least. Qed.

(** stackCheck() forces a reset exactly if the stack has reached the variables
    at some recorded point, and complains exactly if it has come within 64
    bytes of them. *)
Theorem stack_check_iff_partial : forall end_ l s, Forall nested l -> 0 <= end_ < 32768 -> end_ < m_min s < 32768 -> (forall q, In q (flat_map positions l) -> 0 <= q) ->
  let (complains, resets) := stackCheck end_ (records end_ l s) in
  (resets = true <-> exists q, In q (flat_map positions l) /\ q <= end_) /\
  (complains = true <-> m_min s < end_ + 64 \/ exists q, In q (flat_map positions l) /\ q < end_ + 64).
Proof.
  intros end_ l s HN HE HM HQ. pose proof (stack_minimum end_ l s HN) as (A1 & A2 & A3). unfold stackCheck, min_space.
  set (v := m_min (records end_ l s)) in *. clearbody v.
  assert (HV : 0 <= v) by (destruct A3 as [-> |A3]; [lia | apply HQ; exact A3]). rewrite i16_id by lia. split; split; intros H.
  - destruct A3 as [A3|A3]; [lia|]. exists v. split; [exact A3 | lia].
  - destruct H as (q & Hq & Hle). specialize (A2 q Hq). lia.
  - destruct A3 as [A3|A3]; [left; lia|]. right. exists v. split; [exact A3 | lia].
  - destruct H as [H|(q & Hq & Hlt)]; [lia|]. specialize (A2 q Hq). lia.
Qed.
(** A real case: an interrupt arrives in the middle of a call and goes deeper. *)
Example stack_case :
  let l := [mkCall 2000 1 [] [mkCall 1900 2 [] [] [] []] [] [] ; mkCall 2100 3 [] [] [] []] in
  Forall nested l /\ records 1000 l (mkMem 2303 0 false) = mkMem 1900 1 false /\ stackCheck 1000 (mkMem 1900 1 false) = (false, false).
Proof.
  split; [|split; reflexivity]. assert (N : nested (mkCall 1900 2 [] [] [] [])) by (constructor; [constructor | intros q []]).
  constructor; [|constructor; [|constructor]]; constructor; cbn.
  - constructor; [exact N | constructor].
  - intros q [<- |[]]. lia.
  - constructor.
  - intros q [].
Qed.

(** The error report "stack space low" is raised from the minimum as it was
    before the call: a call that leaves 10 bytes raises none, *)
Theorem stack_warning_late_refuted : forall end_, 0 <= end_ -> end_ + 64 <= 2303 ->
  record end_ (mkCall (end_ + 10) 1 [] [] [] []) (mkMem 2303 0 false) = mkMem (end_ + 10) 1 false.
Proof.
  intros end_ H1 H2. rewrite record_eq. cbv zeta. cbn [records m_min m_loc m_warn]. replace (end_ + 10 <? 2303) with true by lia. replace (2303 =? 2303) with true by reflexivity.
  rewrite u16_id by lia. replace (2303 - end_ <? 64) with false by lia. reflexivity.
Qed.
(** and once the stack has overrun the variables no later call raises it. *)
Theorem stack_warning_overrun_refuted : forall end_ low pos, 0 <= pos < low -> low < end_ < 32768 ->
  record end_ (mkCall pos 1 [] [] [] []) (mkMem low 0 false) = mkMem pos 1 false.
Proof.
  intros end_ low pos H1 H2. rewrite record_eq. cbv zeta. cbn [records m_min m_loc m_warn]. replace (pos <? low) with true by lia. replace (low =? low) with true by lia.
  assert (E : u16 (low - end_) = low - end_ + 65536) by (unfold u16; rewrite <- (Z_mod_plus_full (low - end_) 1 65536); apply Z.mod_small; lia).
  rewrite E. replace (low - end_ + 65536 <? 64) with false by lia. reflexivity.
Qed.
