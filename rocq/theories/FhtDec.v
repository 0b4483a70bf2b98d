(** C45 (round trip), C46 (the decoder is safe on any input and accepts exactly the valid
    messages), C63 (scale conversion). *)
From Verif Require Import Base FhtModel FhtEnc.

(** ** Reading one bit, in terms of bit pairs *)

Definition mk (k : Z) : Z := if k =? 0 then 0xc0 else if k =? 1 then 0x30 else if k =? 2 then 0xc else 3.
Definition pk (b k : Z) : Z := znth (bp b) k.

Definition pair_check (b : Z) : bool :=
  forallb (fun k =>
    let v := Z.land (mk k) b in
    Bool.eqb (mk k =? v) (pk b k =? 3) && Bool.eqb (v =? 0) (pk b k =? 0) &&
    Bool.eqb ((v =? 0x80) || (v =? 0x20) || (v =? 8) || (v =? 2)) (pk b k =? 2)) [0; 1; 2; 3].
Lemma pair_check_all : below 256 pair_check = true.
Proof. vm_compute. reflexivity. Qed.
Lemma pair_ok b k : byte b -> 0 <= k <= 3 ->
  (mk k =? Z.land (mk k) b) = (pk b k =? 3) /\
  (Z.land (mk k) b =? 0) = (pk b k =? 0) /\
  ((Z.land (mk k) b =? 0x80) || (Z.land (mk k) b =? 0x20) || (Z.land (mk k) b =? 8) || (Z.land (mk k) b =? 2)) = (pk b k =? 2).
Proof.
  intros B K. pose proof (below_spec _ _ pair_check_all b B) as H.
  assert (IN : In k [0; 1; 2; 3]).
  { assert (k = 0 \/ k = 1 \/ k = 2 \/ k = 3) as [-> | [-> | [-> | ->]]] by lia; cbn; auto. }
  unfold pair_check in H. rewrite forallb_forall in H. specialize (H k IN). cbv zeta in H.
  apply andb_prop in H. destruct H as [H H3]. apply andb_prop in H. destruct H as [H1 H2].
  apply eqb_prop in H1. apply eqb_prop in H2. apply eqb_prop in H3. auto.
Qed.

(** Bit pair at position p of the whole buffer; -1 beyond its end. *)
Definition pr (buf : list Z) (p : Z) : Z := nth (Z.to_nat p) (bps buf) (-1).

Lemma pr_in buf i k : 0 <= i < Zlen buf -> 0 <= k <= 3 -> pr buf (4 * i + k) = pk (znth buf i) k.
Proof.
  intros I K. unfold pr, pk, znth.
  replace (Z.to_nat (4 * i + k)) with (4 * Z.to_nat i + Z.to_nat k)%nat by lia.
  assert (L : (Z.to_nat i < length buf)%nat) by (unfold Zlen in I; lia).
  assert (KK : (Z.to_nat k < 4)%nat) by lia.
  generalize dependent (Z.to_nat k). clear K. generalize dependent (Z.to_nat i). clear I.
  induction buf as [|a buf IH]; intros n L m M; [cbn in L; lia|].
  cbn [bps flat_map]. change (flat_map bp buf) with (bps buf).
  destruct n as [|n].
  - rewrite Nat.mul_0_r, Nat.add_0_l. rewrite app_nth1 by exact M. cbn [nth].
    apply nth_indep. exact M.
  - replace (4 * S n + m)%nat with (4 + (4 * n + m))%nat by lia.
    rewrite app_nth2_plus with (n := (4 * n + m)%nat) (l := bp a). cbn [nth]. apply IH; [cbn in L; lia|exact M].
Qed.
Lemma pr_out buf p : 4 * Zlen buf <= p -> pr buf p = -1.
Proof.
  intros H. unfold pr. apply nth_overflow. pose proof (bps_len buf) as X. unfold Zlen in *. lia.
Qed.

(** The state stands at bit pair [p]. *)
Definition at_pos (s : dst) (p : Z) : Prop :=
  d_failed s = false /\ 0 <= d_idx s /\
  ((d_mask s = 0 /\ p = 4 * d_idx s) \/
   exists k, 0 <= k <= 3 /\ d_mask s = mk k /\ p = 4 * d_idx s + k).

Lemma mk_shift k : 0 <= k <= 3 -> Z.shiftr (mk k) 2 = if k =? 3 then 0 else mk (k + 1).
Proof. intros. assert (k = 0 \/ k = 1 \/ k = 2 \/ k = 3) as [-> | [-> | [-> | ->]]] by lia; reflexivity. Qed.
Lemma mk_nz k : mk k =? 0 = false.
Proof. unfold mk. destruct (k =? 0), (k =? 1), (k =? 2); reflexivity. Qed.

Definition bit_at (buf : list Z) (p : Z) : option (bool * Z) :=
  if pr buf p =? 3 then
    if pr buf (p + 1) =? 0 then Some (false, p + 2)
    else if (pr buf (p + 1) =? 2) && (pr buf (p + 2) =? 0) then Some (true, p + 3) else None
  else None.

Lemma readOneBit_ok buf s p : Forall byte buf -> at_pos s p ->
  exists s' b, readOneBit buf s = Some (s', b) /\
    match bit_at buf p with
    | Some (x, p') => b = (if x then 1 else 0) /\ at_pos s' p'
    | None => b = 0 /\ d_failed s' = true
    end.
Proof.
  intros FB (F & I0 & PM). unfold readOneBit. rewrite F.
  assert (exists k, 0 <= k <= 3 /\ (if d_mask s =? 0 then 0xc0 else d_mask s) = mk k /\ p = 4 * d_idx s + k)
    as (k & K & MK & P).
  { destruct PM as [[M P] | (k & K & M & P)].
    - exists 0. rewrite M. repeat split; try lia.
    - exists k. rewrite M, mk_nz. auto. }
  rewrite MK. clear MK PM F.
  set (i := d_idx s) in *. clearbody i. set (m0 := d_mask s) in *. clearbody m0. clear s.
  destruct (i >? Zlen buf - 1) eqn:E0.
  { eexists _, _. split; [reflexivity|]. unfold bit_at. rewrite pr_out by lia. cbn. auto. }
  rewrite rd_some by lia. cbn [bind].
  destruct (pair_ok (znth buf i) k (znth_byte _ _ FB) K) as (Q1 & _ & _). rewrite Q1. clear Q1.
  assert (PR0 : pr buf p = pk (znth buf i) k) by (subst p; apply pr_in; lia).
  unfold bit_at. rewrite PR0.
  destruct (pk (znth buf i) k =? 3); cbn [negb]; [|eexists _, _; split; [reflexivity|]; auto].
  rewrite mk_shift by exact K. clear PR0.
  (* second pair *)
  set (k1 := if k =? 3 then 0 else k + 1). set (i1 := if k =? 3 then i + 1 else i).
  assert (K1 : 0 <= k1 <= 3) by (unfold k1; destruct (k =? 3) eqn:?; lia).
  assert (P1 : p + 1 = 4 * i1 + k1) by (unfold i1, k1; destruct (k =? 3) eqn:?; lia).
  assert (I1 : 0 <= i1) by (unfold i1; destruct (k =? 3); lia).
  replace (if (if k =? 3 then 0 else mk (k + 1)) =? 0 then (i + 1, 192) else (i, if k =? 3 then 0 else mk (k + 1)))
    with (i1, mk k1)
    by (unfold i1, k1; destruct (k =? 3); [reflexivity|rewrite mk_nz; reflexivity]).
  replace ((if k =? 3 then 0 else mk (k + 1)) =? 0) with (k =? 3)
    by (destruct (k =? 3); [reflexivity|rewrite mk_nz; reflexivity]).
  destruct ((k =? 3) && (i1 >? Zlen buf - 1)) eqn:E1.
  { eexists _, _. split; [reflexivity|]. rewrite (pr_out buf (p + 1)) by lia. cbn. auto. }
  assert (R1 : i1 < Zlen buf) by (unfold i1 in *; destruct (k =? 3) eqn:?; lia).
  rewrite rd_some by lia. cbn [bind].
  destruct (pair_ok (znth buf i1) k1 (znth_byte _ _ FB) K1) as (_ & Q2 & Q3). rewrite Q2, Q3. clear Q2 Q3.
  assert (PR1 : pr buf (p + 1) = pk (znth buf i1) k1) by (rewrite P1; apply pr_in; lia).
  rewrite PR1. clear PR1.
  destruct (pk (znth buf i1) k1 =? 0) eqn:E2.
  { eexists _, _. split; [reflexivity|]. split; [reflexivity|].
    rewrite mk_shift by exact K1. unfold at_pos; cbn [d_failed d_idx d_mask].
    split; [reflexivity|].
    destruct (k1 =? 3) eqn:E3.
    - change (0 =? 0) with true. split; [lia|]. left. split; [reflexivity|lia].
    - rewrite mk_nz. split; [lia|]. right. exists (k1 + 1). split; [lia|]. split; [reflexivity|lia]. }
  destruct (pk (znth buf i1) k1 =? 2) eqn:E4; cbn [negb andb]; [|eexists _, _; split; [reflexivity|]; auto].
  rewrite mk_shift by exact K1.
  set (k2 := if k1 =? 3 then 0 else k1 + 1). set (i2 := if k1 =? 3 then i1 + 1 else i1).
  assert (K2 : 0 <= k2 <= 3) by (unfold k2; destruct (k1 =? 3) eqn:?; lia).
  assert (P2 : p + 2 = 4 * i2 + k2) by (unfold i2, k2; destruct (k1 =? 3) eqn:?; lia).
  assert (I2 : 0 <= i2) by (unfold i2; destruct (k1 =? 3); lia).
  replace (if (if k1 =? 3 then 0 else mk (k1 + 1)) =? 0 then (i1 + 1, 192) else (i1, if k1 =? 3 then 0 else mk (k1 + 1)))
    with (i2, mk k2)
    by (unfold i2, k2; destruct (k1 =? 3); [reflexivity|rewrite mk_nz; reflexivity]).
  replace ((if k1 =? 3 then 0 else mk (k1 + 1)) =? 0) with (k1 =? 3)
    by (destruct (k1 =? 3); [reflexivity|rewrite mk_nz; reflexivity]).
  destruct ((k1 =? 3) && (i2 >? Zlen buf - 1)) eqn:E5.
  { eexists _, _. split; [reflexivity|]. rewrite (pr_out buf (p + 2)) by lia. cbn. auto. }
  assert (R2 : i2 < Zlen buf) by (unfold i2 in *; destruct (k1 =? 3) eqn:?; lia).
  rewrite rd_some by lia. cbn [bind].
  destruct (pair_ok (znth buf i2) k2 (znth_byte _ _ FB) K2) as (_ & Q2 & _). rewrite Q2. clear Q2.
  assert (PR2 : pr buf (p + 2) = pk (znth buf i2) k2) by (rewrite P2; apply pr_in; lia).
  rewrite PR2. clear PR2.
  destruct (pk (znth buf i2) k2 =? 0) eqn:E6; cbn [negb]; [|eexists _, _; split; [reflexivity|]; auto].
  eexists _, _. split; [reflexivity|]. split; [reflexivity|].
  rewrite mk_shift by exact K2. unfold at_pos; cbn [d_failed d_idx d_mask].
  split; [reflexivity|].
  destruct (k2 =? 3) eqn:E7.
  - change (0 =? 0) with true. split; [lia|]. left. split; [reflexivity|lia].
  - rewrite mk_nz. split; [lia|]. right. exists (k2 + 1). split; [lia|]. split; [reflexivity|lia].
Qed.

Lemma readOneBit_failed buf s : d_failed s = true ->
  exists s', readOneBit buf s = Some (s', 0) /\ d_failed s' = true.
Proof.
  intros F. unfold readOneBit. rewrite F.
  destruct (d_idx s >? Zlen buf - 1); eexists; split; reflexivity.
Qed.

(** ** List view of the pairs still to be read *)

Definition rem (buf : list Z) (p : Z) : list Z := skipn (Z.to_nat p) (bps buf).

Definition rbit (l : list Z) : option (bool * list Z) :=
  match l with
  | 3 :: 0 :: r => Some (false, r)
  | 3 :: 2 :: 0 :: r => Some (true, r)
  | _ => None
  end.

Lemma pr_rem buf p k : 0 <= p -> 0 <= k -> pr buf (p + k) = nth (Z.to_nat k) (rem buf p) (-1).
Proof.
  intros P K. unfold pr, rem. rewrite nth_skipn. f_equal. lia.
Qed.

Lemma skipn_skipn_z (l : list Z) p k : 0 <= p -> 0 <= k ->
  skipn (Z.to_nat k) (skipn (Z.to_nat p) l) = skipn (Z.to_nat (p + k)) l.
Proof.
  intros P K. rewrite Z2Nat.inj_add by lia. generalize (Z.to_nat p) (Z.to_nat k). clear. intros n m.
  revert l. induction n as [|n IH]; intros l; [reflexivity|].
  destruct l as [|a l]; [destruct m; reflexivity|]. cbn [skipn Nat.add]. apply IH.
Qed.

Lemma bit_at_rbit buf p : 0 <= p ->
  match bit_at buf p with
  | Some (x, p') => rbit (rem buf p) = Some (x, rem buf p') /\ p' = p + Zlen (enc x)
  | None => rbit (rem buf p) = None
  end.
Proof.
  intros P. unfold bit_at.
  pose proof (pr_rem buf p 0 P ltac:(lia)) as H0. pose proof (pr_rem buf p 1 P ltac:(lia)) as H1.
  pose proof (pr_rem buf p 2 P ltac:(lia)) as H2.
  rewrite Z.add_0_r in H0. change (Z.to_nat 0) with 0%nat in H0. change (Z.to_nat 1) with 1%nat in H1.
  change (Z.to_nat 2) with 2%nat in H2.
  assert (R2 : rem buf (p + 2) = skipn 2 (rem buf p)) by (symmetry; apply (skipn_skipn_z (bps buf) p 2); lia).
  assert (R3 : rem buf (p + 3) = skipn 3 (rem buf p)) by (symmetry; apply (skipn_skipn_z (bps buf) p 3); lia).
  rewrite H0, H1, H2. clear H0 H1 H2. revert R2 R3.
  destruct (rem buf p) as [|a l]; [reflexivity|]. cbn [nth]. intros R2 R3.
  destruct (a =? 3) eqn:EA.
  2:{ cbn [rbit]. destruct a as [|a|a]; try reflexivity. destruct a as [a|a|]; try reflexivity. destruct a; try reflexivity. discriminate EA. }
  apply Z.eqb_eq in EA. subst a.
  destruct l as [|b l]; [reflexivity|]. cbn [nth].
  destruct (b =? 0) eqn:EB.
  { apply Z.eqb_eq in EB. subst b. rewrite R2. split; reflexivity. }
  destruct (b =? 2) eqn:EB2; cbn [andb].
  2:{ cbn [rbit]. destruct b as [|b|b]; try reflexivity; try discriminate EB.
      destruct b as [b|b|]; try reflexivity. destruct b; try reflexivity. discriminate EB2. }
  apply Z.eqb_eq in EB2. subst b.
  destruct l as [|c l]; [reflexivity|]. cbn [nth].
  destruct (c =? 0) eqn:EC.
  { apply Z.eqb_eq in EC. subst c. rewrite R3. split; reflexivity. }
  cbn [rbit]. destruct c; try reflexivity. discriminate EC.
Qed.

(** State with remaining pairs [l]. *)
Definition at_rem (buf : list Z) (s : dst) (l : list Z) : Prop :=
  exists p, 0 <= p /\ at_pos s p /\ l = rem buf p.

Lemma at_pos_nonneg s p : at_pos s p -> 0 <= p.
Proof. intros (_ & I & [[_ ->] | (k & K & _ & ->)]); lia. Qed.

Lemma rd_bit buf s p : Forall byte buf -> at_pos s p ->
  exists s' b, readOneBit buf s = Some (s', b) /\
    match rbit (rem buf p) with
    | Some (x, l') => b = (if x then 1 else 0) /\ at_pos s' (p + Zlen (enc x)) /\ l' = rem buf (p + Zlen (enc x))
    | None => b = 0 /\ d_failed s' = true
    end.
Proof.
  intros FB A. pose proof (at_pos_nonneg _ _ A) as P.
  destruct (readOneBit_ok buf s p FB A) as (s' & b & -> & M).
  pose proof (bit_at_rbit buf p P) as R.
  exists s', b. split; [reflexivity|].
  destruct (bit_at buf p) as [[x p']|].
  - destruct R as [-> ->]. destruct M as [-> M]. auto.
  - rewrite R. exact M.
Qed.

(** Reading [n] bits off a pair list. *)
Fixpoint rbits (n : nat) (l : list Z) : option (list bool * list Z) :=
  match n with
  | O => Some ([], l)
  | S n => match rbit l with
           | None => None
           | Some (b, l1) => match rbits n l1 with None => None | Some (bs, l2) => Some (b :: bs, l2) end
           end
  end.

Lemma rbit_enc b l : rbit (enc b ++ l) = Some (b, l).
Proof. destruct b; reflexivity. Qed.
Lemma rbit_inv l b l' : rbit l = Some (b, l') -> l = enc b ++ l'.
Proof.
  unfold rbit. destruct l as [|a [|c l]]; intros H.
  - discriminate.
  - destruct a as [|a|a]; try discriminate. destruct a as [a|a|]; try discriminate. destruct a; discriminate.
  - destruct a as [|a|a]; try discriminate. destruct a as [a|a|]; try discriminate. destruct a; try discriminate.
    destruct c as [|c|c]; try discriminate.
    + injection H as <- <-. reflexivity.
    + destruct c as [c|c|]; try discriminate. destruct c; try discriminate.
      destruct l as [|e l]; try discriminate. destruct e; try discriminate. injection H as <- <-. reflexivity.
Qed.
Lemma rbits_enc bs : forall l, rbits (length bs) (encs bs ++ l) = Some (bs, l).
Proof.
  induction bs as [|b bs IH]; intros l; [reflexivity|]. cbn [rbits length encs flat_map].
  change (flat_map enc bs) with (encs bs). rewrite <- app_assoc, rbit_enc, IH. reflexivity.
Qed.
Lemma rbits_inv n : forall l bs l', rbits n l = Some (bs, l') -> l = encs bs ++ l' /\ length bs = n.
Proof.
  induction n as [|n IH]; intros l bs l'; cbn [rbits].
  - intros H. injection H as <- <-. auto.
  - destruct (rbit l) as [[b l1]|] eqn:E; [|discriminate].
    destruct (rbits n l1) as [[bs1 l2]|] eqn:E1; [|discriminate].
    intros H. injection H as <- <-. destruct (IH _ _ _ E1) as [-> <-].
    apply rbit_inv in E. subst l. cbn [encs flat_map length]. rewrite <- app_assoc. auto.
Qed.

Definition b2z (b : bool) : Z := if b then 1 else 0.
Fixpoint fold7 (bs : list bool) (result parity : Z) : Z * Z :=
  match bs with
  | [] => (result, parity)
  | b :: bs => fold7 bs (u8 (Z.lor (Z.shiftl result 1) (b2z b))) (Z.lxor parity (b2z b))
  end.

Lemma read7_ok buf n : forall s p r q, Forall byte buf -> at_pos s p ->
  exists s' r' q', read7 n buf s r q = Some (s', r', q') /\
    match rbits n (rem buf p) with
    | Some (bs, l') => (r', q') = fold7 bs r q /\ at_pos s' (p + Zlen (encs bs)) /\ l' = rem buf (p + Zlen (encs bs))
    | None => d_failed s' = true
    end.
Proof.
  induction n as [|n IH]; intros s p r q FB A; cbn [read7 rbits].
  - eexists _, _, _. split; [reflexivity|]. split; [reflexivity|].
    change (Zlen (encs [])) with 0. rewrite Z.add_0_r. auto.
  - destruct (rd_bit buf s p FB A) as (s1 & b & -> & M). cbn [bind].
    destruct (rbit (rem buf p)) as [[x l1]|].
    + destruct M as (-> & A1 & ->).
      destruct (IH s1 _ (u8 (Z.lor (Z.shiftl r 1) (if x then 1 else 0))) (Z.lxor q (if x then 1 else 0)) FB A1)
        as (s' & r' & q' & -> & M).
      eexists _, _, _. split; [reflexivity|].
      destruct (rbits n (rem buf (p + Zlen (enc x)))) as [[bs l2]|]; [|exact M].
      destruct M as (M1 & M2 & M3). cbn [fold7 encs flat_map]. change (flat_map enc bs) with (encs bs).
      rewrite Zlen_app. rewrite Z.add_assoc. auto.
    + destruct M as (-> & FL).
      assert (G : forall n s r q, d_failed s = true -> exists s' r' q', read7 n buf s r q = Some (s', r', q') /\ d_failed s' = true).
      { clear. induction n as [|n IH]; intros s r q F; cbn [read7]; [eexists _, _, _; split; [reflexivity|exact F]|].
        destruct (readOneBit_failed buf s F) as (s1 & -> & F1). cbn [bind]. apply IH. exact F1. }
      apply G. exact FL.
Qed.

(** ** Reading a byte *)

Definition rbyte (l : list Z) : option (Z * list Z) :=
  match rbits 9 l with
  | Some (bs, l') =>
      let v := fold_left (fun a b => 2 * a + b2z b) (firstn 8 bs) 0 in
      if Bool.eqb (fold_right xorb false (firstn 8 bs)) (nth 8 bs false) then Some (v, l') else None
  | None => None
  end.

Lemma readByte_failed buf s : d_failed s = true -> exists s', readByte buf s = Some (s', 0) /\ d_failed s' = true.
Proof. intros F. unfold readByte. rewrite F. eexists; split; [reflexivity|exact F]. Qed.

Lemma rbits_S n l : rbits (S n) l =
  match rbits n l with
  | None => None
  | Some (bs, l1) => match rbit l1 with None => None | Some (b, l2) => Some (bs ++ [b], l2) end
  end.
Proof.
  revert l. induction n as [|n IH]; intros l.
  - cbn [rbits]. destruct (rbit l) as [[b l1]|]; reflexivity.
  - change (rbits (S (S n)) l) with (match rbit l with None => None | Some (b, l1) =>
        match rbits (S n) l1 with None => None | Some (bs, l2) => Some (b :: bs, l2) end end).
    change (rbits (S n) l) with (match rbit l with None => None | Some (b, l1) =>
        match rbits n l1 with None => None | Some (bs, l2) => Some (b :: bs, l2) end end).
    destruct (rbit l) as [[b l1]|]; [|reflexivity]. rewrite IH.
    destruct (rbits n l1) as [[bs l2]|]; [|reflexivity].
    destruct (rbit l2) as [[b' l3]|]; reflexivity.
Qed.

Lemma fold7_val : forall bs r q, length bs = 7%nat -> (r = 0 \/ r = 1) -> (q = 0 \/ q = 1) ->
  fold7 bs r q = (fold_left (fun a b => 2 * a + b2z b) bs r, b2z (xorb (q =? 1) (fold_right xorb false bs))).
Proof.
  intros bs r q L R Q.
  do 7 (destruct bs as [|[|] bs]; [discriminate L| |]); destruct bs; try discriminate L;
    destruct R as [-> | ->]; destruct Q as [-> | ->]; vm_compute; reflexivity.
Qed.

Lemma readByte_ok buf s p : Forall byte buf -> at_pos s p ->
  exists s' v, readByte buf s = Some (s', v) /\
    match rbyte (rem buf p) with
    | Some (x, l') => v = x /\ exists p', at_pos s' p' /\ l' = rem buf p' /\
         exists bs, length bs = 9%nat /\ rem buf p = encs bs ++ l' /\ p' = p + Zlen (encs bs)
    | None => d_failed s' = true
    end.
Proof.
  intros FB A. unfold readByte. rewrite (proj1 A).
  destruct (rd_bit buf s p FB A) as (s1 & b & -> & M). cbn [bind].
  unfold rbyte. change (rbits 9 (rem buf p)) with
    (match rbit (rem buf p) with None => None | Some (b, l1) =>
        match rbits 8 l1 with None => None | Some (bs, l2) => Some (b :: bs, l2) end end).
  destruct (rbit (rem buf p)) as [[x l1]|] eqn:EB.
  - destruct M as (-> & A1 & ->).
    destruct (read7_ok buf 7 s1 _ (if x then 1 else 0) (if x then 1 else 0) FB A1) as (s2 & r' & q' & -> & M). cbn [bind].
    rewrite rbits_S.
    destruct (rbits 7 (rem buf (p + Zlen (enc x)))) as [[bs l2]|] eqn:E7.
    + destruct M as (M1 & M2 & ->). destruct (rbits_inv _ _ _ _ E7) as [RI LEN].
      destruct (rd_bit buf s2 _ FB M2) as (s3 & pb & -> & M3). cbn [bind].
      rewrite fold7_val in M1 by (auto; destruct x; auto). apply pair_inj in M1. destruct M1 as [-> ->].
      destruct (rbit (rem buf (p + Zlen (enc x) + Zlen (encs bs)))) as [[y l3]|] eqn:E9.
      * destruct M3 as (-> & A3 & ->).
        eexists _, _. split; [reflexivity|].
        replace (firstn 8 (x :: bs ++ [y])) with (x :: bs).
        2:{ rewrite firstn_cons. f_equal. rewrite <- LEN, firstn_app, Nat.sub_diag, firstn_O, app_nil_r, firstn_all. reflexivity. }
        replace (nth 8 (x :: bs ++ [y]) false) with y.
        2:{ cbn [nth]. rewrite app_nth2 by lia. rewrite LEN. reflexivity. }
        cbn [fold_left fold_right].
        replace ((if x then 1 else 0) =? 1) with x by (destruct x; reflexivity).
        destruct (Bool.eqb (xorb x (fold_right xorb false bs)) y) eqn:EQ.
        -- apply eqb_prop in EQ. rewrite EQ.
           replace (negb (b2z y =? (if y then 1 else 0))) with false by (destruct y; reflexivity).
           split; [destruct x; reflexivity|].
           eexists. split; [exact A3|]. split; [reflexivity|].
           exists (x :: bs ++ [y]). split; [cbn [length]; rewrite app_length, LEN; reflexivity|].
           apply rbit_inv in EB. apply rbit_inv in E9.
           split.
           ++ rewrite EB. cbn [encs flat_map]. change (flat_map enc (bs ++ [y])) with (encs (bs ++ [y])).
              rewrite encs_app, <- !app_assoc. f_equal. rewrite RI. f_equal.
              change (encs [y]) with (enc y ++ []). rewrite app_nil_r. exact E9.
           ++ cbn [encs flat_map]. change (flat_map enc (bs ++ [y])) with (encs (bs ++ [y])).
              rewrite encs_app, !Zlen_app. change (encs [y]) with (enc y ++ []). rewrite app_nil_r. lia.
        -- replace (negb (b2z (xorb x (fold_right xorb false bs)) =? (if y then 1 else 0))) with true.
           2:{ destruct (xorb x (fold_right xorb false bs)), y; try discriminate EQ; reflexivity. }
           reflexivity.
      * destruct M3 as (-> & F3). eexists _, _. split; [reflexivity|].
        destruct (negb _); [reflexivity|exact F3].
    + destruct (readOneBit_failed buf s2 M) as (s3 & -> & F3). cbn [bind].
      eexists _, _. split; [reflexivity|]. destruct (negb _); [reflexivity|exact F3].
  - destruct M as (-> & FL).
    assert (G : forall n s r q, d_failed s = true -> exists s' r' q', read7 n buf s r q = Some (s', r', q') /\ d_failed s' = true).
    { clear. induction n as [|n IH]; intros s r q F; cbn [read7]; [eexists _, _, _; split; [reflexivity|exact F]|].
      destruct (readOneBit_failed buf s F) as (s1 & -> & F1). cbn [bind]. apply IH. exact F1. }
    destruct (G 7%nat s1 0 0 FL) as (s2 & r' & q' & -> & F2). cbn [bind].
    destruct (readOneBit_failed buf s2 F2) as (s3 & -> & F3). cbn [bind].
    eexists _, _. split; [reflexivity|]. destruct (negb _); [reflexivity|exact F3].
Qed.

Lemma val_bits : forall bs, length bs = 8%nat -> bits8 (fold_left (fun a b => 2 * a + b2z b) bs 0) = bs /\
  byte (fold_left (fun a b => 2 * a + b2z b) bs 0).
Proof.
  intros bs L. do 8 (destruct bs as [|[|] bs]; [discriminate L| |]); destruct bs; try discriminate L;
    (split; [vm_compute; reflexivity|unfold byte; vm_compute; split; [discriminate|reflexivity]]).
Qed.

(** A byte is read exactly when it is there with correct parity. *)
Lemma rbyte_inv l v l' : rbyte l = Some (v, l') -> byte v /\ l = encs (with_parity v) ++ l'.
Proof.
  unfold rbyte. destruct (rbits 9 l) as [[bs l1]|] eqn:E; [|discriminate].
  destruct (rbits_inv _ _ _ _ E) as [-> L].
  assert (exists b8 y, bs = b8 ++ [y] /\ length b8 = 8%nat) as (b8 & y & -> & L8).
  { destruct (exists_last (l := bs)) as (b8 & y & ->); [destruct bs; [discriminate|discriminate]|].
    exists b8, y. split; [reflexivity|]. rewrite app_length in L. cbn in L. lia. }
  replace (firstn 8 (b8 ++ [y])) with b8.
  2:{ rewrite <- L8, firstn_app, Nat.sub_diag, firstn_O, app_nil_r, firstn_all. reflexivity. }
  replace (nth 8 (b8 ++ [y]) false) with y by (rewrite app_nth2 by lia; rewrite L8; reflexivity).
  cbv zeta. destruct (val_bits b8 L8) as [VB BV].
  destruct (Bool.eqb (fold_right xorb false b8) y) eqn:EQ; [|discriminate].
  intros H. apply some_pair_inj in H. destruct H as [<- <-]. split; [exact BV|].
  unfold with_parity. rewrite VB. apply eqb_prop in EQ. rewrite EQ. reflexivity.
Qed.

Lemma bits8_val_all : below 256 (fun v => fold_left (fun a b => 2 * a + b2z b) (bits8 v) 0 =? v) = true.
Proof. vm_compute. reflexivity. Qed.
Lemma rbyte_enc v l : byte v -> rbyte (encs (with_parity v) ++ l) = Some (v, l).
Proof.
  intros B. unfold rbyte. change 9%nat with (length (with_parity v)). rewrite rbits_enc.
  change (firstn 8 (with_parity v)) with (bits8 v).
  change (nth 8 (with_parity v) false) with (fold_right xorb false (bits8 v)).
  rewrite eqb_reflx. pose proof (below_spec _ _ bits8_val_all v B) as H. cbn beta in H.
  apply Z.eqb_eq in H. rewrite H. reflexivity.
Qed.
