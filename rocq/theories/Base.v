(** Common infrastructure: bytes, checked buffers, finite sweeps.
    Nothing here models a specific function of /repo; it fixes the memory and
    integer conventions used by every model file. *)
From Coq Require Export ZArith List Lia Bool.
From Coq Require Export ZifyBool ZifyNat.
Export ListNotations.
Global Open Scope Z_scope.
Global Open Scope bool_scope.
Global Open Scope list_scope.

(** ** Integers *)

(** A value storable in a uint8_t. *)
Definition byte (z : Z) : Prop := 0 <= z < 256.

(** Conversion to uint8_t / uint16_t / int8_t (C++ narrowing). *)
Definition u8 (z : Z) : Z := z mod 256.
Definition u16 (z : Z) : Z := z mod 65536.
Definition i8 (z : Z) : Z := (z + 128) mod 256 - 128.
Definition i16 (z : Z) : Z := (z + 32768) mod 65536 - 32768.

Lemma u8_byte z : byte (u8 z).
Proof. unfold byte, u8. apply Z.mod_pos_bound. lia. Qed.

Lemma u8_id z : byte z -> u8 z = z.
Proof. unfold byte, u8. intros. apply Z.mod_small. lia. Qed.

Lemma u16_id z : 0 <= z < 65536 -> u16 z = z.
Proof. unfold u16. intros. apply Z.mod_small. lia. Qed.

Lemma i8_id z : -128 <= z < 128 -> i8 z = z.
Proof. unfold i8. intros. rewrite Z.mod_small; lia. Qed.

Lemma i16_id z : -32768 <= z < 32768 -> i16 z = z.
Proof. unfold i16. intros. rewrite Z.mod_small; lia. Qed.

(** ** The UB monad: [None] = undefined behaviour (access outside a buffer). *)

Definition bind {A B} (m : option A) (f : A -> option B) : option B :=
  match m with Some a => f a | None => None end.

Notation "'do' x <- m ; e" := (bind m (fun x => e))
  (at level 200, x pattern, m at level 100, e at level 200).

(** ** Lists indexed by Z *)

Definition Zlen {A} (l : list A) : Z := Z.of_nat (length l).
Definition znth (l : list Z) (i : Z) : Z := nth (Z.to_nat i) l 0.

(** Checked read of one element. *)
Definition rd (l : list Z) (i : Z) : option Z :=
  if (0 <=? i) && (i <? Zlen l) then Some (znth l i) else None.

(** Checked read of [n] elements from [off] (memcpy source). *)
Definition sub (l : list Z) (off n : Z) : option (list Z) :=
  if (0 <=? off) && (0 <=? n) && (off + n <=? Zlen l)
  then Some (firstn (Z.to_nat n) (skipn (Z.to_nat off) l)) else None.

(** Checked write of [src] at [off] (memcpy destination). *)
Definition blit (l : list Z) (off : Z) (src : list Z) : option (list Z) :=
  if (0 <=? off) && (off + Zlen src <=? Zlen l)
  then Some (firstn (Z.to_nat off) l ++ src
             ++ skipn (Z.to_nat (off + Zlen src)) l) else None.

Global Arguments Zlen : simpl never.
Global Arguments znth : simpl never.
Global Arguments rd : simpl never.
Global Arguments sub : simpl never.
Global Arguments blit : simpl never.
Global Arguments u8 : simpl never.
Global Arguments u16 : simpl never.
Global Arguments i8 : simpl never.
Global Arguments i16 : simpl never.

Definition wr (l : list Z) (i v : Z) : option (list Z) := blit l i [v].

Lemma Zlen_nonneg {A} (l : list A) : 0 <= Zlen l.
Proof. unfold Zlen. lia. Qed.
Lemma Zlen_nil {A} : Zlen (@nil A) = 0.
Proof. reflexivity. Qed.
Lemma Zlen_cons {A} (a : A) l : Zlen (a :: l) = 1 + Zlen l.
Proof. unfold Zlen. simpl length. lia. Qed.
Lemma Zlen_app {A} (l1 l2 : list A) : Zlen (l1 ++ l2) = Zlen l1 + Zlen l2.
Proof. unfold Zlen. rewrite app_length. lia. Qed.
Lemma Zlen_repeat {A} (a : A) n : Zlen (repeat a n) = Z.of_nat n.
Proof. unfold Zlen. rewrite repeat_length. lia. Qed.
Lemma Zlen_firstn {A} n (l : list A) :
  Zlen (firstn n l) = Z.min (Z.of_nat n) (Zlen l).
Proof. unfold Zlen. rewrite firstn_length. lia. Qed.
Lemma Zlen_skipn {A} n (l : list A) :
  Zlen (skipn n l) = Z.max 0 (Zlen l - Z.of_nat n).
Proof. unfold Zlen. rewrite skipn_length. lia. Qed.
Lemma Zlen_map {A B} (f : A -> B) l : Zlen (map f l) = Zlen l.
Proof. unfold Zlen. rewrite map_length. lia. Qed.
Global Hint Rewrite @Zlen_nil @Zlen_cons @Zlen_app @Zlen_repeat @Zlen_firstn
  @Zlen_skipn @Zlen_map : zlen.

Lemma znth_cons a l i : 0 <= i ->
  znth (a :: l) i = if i =? 0 then a else znth l (i - 1).
Proof.
  intros. unfold znth. destruct (i =? 0) eqn:E.
  - apply Z.eqb_eq in E. subst. reflexivity.
  - replace (Z.to_nat i) with (S (Z.to_nat (i - 1))) by lia. reflexivity.
Qed.
Lemma znth_app l1 l2 i : 0 <= i ->
  znth (l1 ++ l2) i = if i <? Zlen l1 then znth l1 i else znth l2 (i - Zlen l1).
Proof.
  intros. unfold znth, Zlen. destruct (i <? Z.of_nat (length l1)) eqn:E.
  - apply app_nth1. lia.
  - rewrite app_nth2 by lia. f_equal. lia.
Qed.
Lemma nth_firstn_lt {A} (l : list A) n k d :
  (k < n)%nat -> nth k (firstn n l) d = nth k l d.
Proof.
  revert n k. induction l; intros n k H; destruct n; simpl; try lia.
  - destruct k; reflexivity.
  - destruct k; [reflexivity|]. apply IHl. lia.
Qed.
Lemma nth_skipn {A} (l : list A) n k d :
  nth k (skipn n l) d = nth (n + k) l d.
Proof.
  revert n. induction l; intros n; destruct n; simpl; auto.
  destruct k; reflexivity.
Qed.
Lemma znth_firstn l n i : 0 <= i < Z.of_nat n ->
  znth (firstn n l) i = znth l i.
Proof. intros. unfold znth. apply nth_firstn_lt. lia. Qed.
Lemma znth_skipn l n i : 0 <= i ->
  znth (skipn n l) i = znth l (Z.of_nat n + i).
Proof. intros. unfold znth. rewrite nth_skipn. f_equal. lia. Qed.
Lemma znth_repeat a n i : 0 <= i < Z.of_nat n -> znth (repeat a n) i = a.
Proof.
  intros. unfold znth. assert (Z.to_nat i < n)%nat by lia.
  generalize dependent (Z.to_nat i). clear. induction n; intros; [lia|].
  simpl. destruct n0; [reflexivity|]. apply IHn. lia.
Qed.

Lemma zlist_ext (l1 l2 : list Z) :
  Zlen l1 = Zlen l2 ->
  (forall i, 0 <= i < Zlen l1 -> znth l1 i = znth l2 i) -> l1 = l2.
Proof.
  intros HL H. apply nth_ext with (d := 0) (d' := 0).
  - unfold Zlen in HL. lia.
  - intros n Hn. specialize (H (Z.of_nat n)). unfold znth, Zlen in H.
    rewrite Nat2Z.id in H. apply H. lia.
Qed.

Lemma Forall_znth (P : Z -> Prop) l i :
  Forall P l -> 0 <= i < Zlen l -> P (znth l i).
Proof.
  intros HF Hi. rewrite Forall_forall in HF. apply HF.
  unfold znth. apply nth_In. unfold Zlen in Hi. lia.
Qed.
Lemma Forall_of_znth (P : Z -> Prop) l :
  (forall i, 0 <= i < Zlen l -> P (znth l i)) -> Forall P l.
Proof.
  intros H. rewrite Forall_forall. intros x Hx.
  destruct (In_nth l x 0 Hx) as [n [Hn Hx']].
  specialize (H (Z.of_nat n)). unfold znth, Zlen in H.
  rewrite Nat2Z.id, Hx' in H. apply H. lia.
Qed.
Lemma znth_byte l i : Forall byte l -> byte (znth l i).
Proof.
  intros H. unfold znth. destruct (Nat.lt_ge_cases (Z.to_nat i) (length l)).
  - rewrite Forall_forall in H. apply H. apply nth_In. lia.
  - rewrite nth_overflow by lia. unfold byte; lia.
Qed.

Lemma Forall_firstn' {A} (P : A -> Prop) n l : Forall P l -> Forall P (firstn n l).
Proof.
  intros H. revert n. induction H; intros n; destruct n; simpl; auto.
Qed.
Lemma Forall_skipn' {A} (P : A -> Prop) n l : Forall P l -> Forall P (skipn n l).
Proof.
  intros H. revert n. induction H; intros n; destruct n; simpl; auto.
Qed.

(** Success conditions of the checked primitives. *)
Lemma rd_some l i : 0 <= i < Zlen l -> rd l i = Some (znth l i).
Proof.
  intros. unfold rd.
  destruct (0 <=? i) eqn:?, (i <? Zlen l) eqn:?; simpl; auto; lia.
Qed.
Lemma rd_inv l i v : rd l i = Some v -> 0 <= i < Zlen l /\ v = znth l i.
Proof.
  unfold rd. destruct ((0 <=? i) && (i <? Zlen l)) eqn:E; intros H; inversion H.
  split; [lia|reflexivity].
Qed.
Lemma sub_some l off n : 0 <= off -> 0 <= n -> off + n <= Zlen l ->
  sub l off n = Some (firstn (Z.to_nat n) (skipn (Z.to_nat off) l)).
Proof.
  intros. unfold sub.
  replace (0 <=? off) with true by lia. replace (0 <=? n) with true by lia.
  replace (off + n <=? Zlen l) with true by lia. reflexivity.
Qed.
Lemma sub_inv l off n v : sub l off n = Some v ->
  0 <= off /\ 0 <= n /\ off + n <= Zlen l /\
  v = firstn (Z.to_nat n) (skipn (Z.to_nat off) l).
Proof.
  unfold sub. destruct ((0 <=? off) && (0 <=? n) && (off + n <=? Zlen l)) eqn:E;
    intros H; inversion H. repeat split; lia.
Qed.
Lemma sub_len l off n v : sub l off n = Some v -> Zlen v = n.
Proof.
  intros H. apply sub_inv in H. destruct H as (?&?&?&->).
  autorewrite with zlen. lia.
Qed.
Lemma sub_znth l off n v i : sub l off n = Some v -> 0 <= i < n ->
  znth v i = znth l (off + i).
Proof.
  intros H Hi. apply sub_inv in H. destruct H as (?&?&?&->).
  rewrite znth_firstn by lia. rewrite znth_skipn by lia. f_equal. lia.
Qed.
Lemma blit_some l off src : 0 <= off -> off + Zlen src <= Zlen l ->
  blit l off src = Some (firstn (Z.to_nat off) l ++ src
             ++ skipn (Z.to_nat (off + Zlen src)) l).
Proof.
  intros. unfold blit.
  replace (0 <=? off) with true by lia.
  replace (off + Zlen src <=? Zlen l) with true by lia. reflexivity.
Qed.
Lemma blit_ok l off src : 0 <= off -> off + Zlen src <= Zlen l ->
  exists l', blit l off src = Some l'.
Proof. intros. eexists. apply blit_some; assumption. Qed.
Lemma blit_inv l off src l' : blit l off src = Some l' ->
  0 <= off /\ off + Zlen src <= Zlen l /\ Zlen l' = Zlen l /\
  (forall i, 0 <= i < Zlen l ->
     znth l' i = if (off <=? i) && (i <? off + Zlen src)
                 then znth src (i - off) else znth l i).
Proof.
  unfold blit. destruct ((0 <=? off) && (off + Zlen src <=? Zlen l)) eqn:E;
    intros H; inversion H; clear H.
  pose proof (Zlen_nonneg src).
  assert (0 <= off /\ off + Zlen src <= Zlen l) as [? ?] by lia.
  repeat split; try lia.
  - autorewrite with zlen. lia.
  - intros i Hi. rewrite znth_app by lia. rewrite Zlen_firstn.
    replace (Z.min (Z.of_nat (Z.to_nat off)) (Zlen l)) with off by lia.
    destruct (i <? off) eqn:E1.
    + rewrite znth_firstn by lia. replace (off <=? i) with false by lia. reflexivity.
    + rewrite znth_app by lia. replace (off <=? i) with true by lia. simpl.
      destruct (i <? off + Zlen src) eqn:E2.
      * replace (i - off <? Zlen src) with true by lia. reflexivity.
      * replace (i - off <? Zlen src) with false by lia.
        rewrite znth_skipn by lia. f_equal. lia.
Qed.
Lemma blit_byte l off src l' : blit l off src = Some l' ->
  Forall byte l -> Forall byte src -> Forall byte l'.
Proof.
  unfold blit. destruct ((0 <=? off) && (off + Zlen src <=? Zlen l)) eqn:E;
    intros H; inversion H; clear H. intros.
  apply Forall_app; split; [apply Forall_firstn'; auto|].
  apply Forall_app; split; [auto|apply Forall_skipn'; auto].
Qed.

(** ** Finite sweeps.  [below n P] checks P on 0..n-1; the lemma makes the
    check a proof for every Z in that range. *)
Fixpoint below_nat (n : nat) (P : Z -> bool) : bool :=
  match n with
  | O => true
  | S m => P (Z.of_nat m) && below_nat m P
  end.
Definition below (n : Z) (P : Z -> bool) : bool := below_nat (Z.to_nat n) P.

Lemma below_spec n P : below n P = true -> forall z, 0 <= z < n -> P z = true.
Proof.
  unfold below. intros H z Hz.
  assert (Hn : (Z.to_nat z < Z.to_nat n)%nat) by lia.
  replace z with (Z.of_nat (Z.to_nat z)) by lia.
  revert H Hn. generalize (Z.to_nat z) (Z.to_nat n). clear.
  intros k n. induction n; intros; [lia|]. simpl in H.
  apply andb_prop in H. destruct H as [H1 H2].
  destruct (Nat.eq_dec k n) as [->|]; [exact H1|]. apply IHn; [exact H2|lia].
Qed.

Definition below2 (n m : Z) (P : Z -> Z -> bool) : bool :=
  below n (fun a => below m (P a)).
Lemma below2_spec n m P : below2 n m P = true ->
  forall a b, 0 <= a < n -> 0 <= b < m -> P a b = true.
Proof.
  unfold below2. intros H a b Ha Hb.
  pose proof (below_spec _ _ H a Ha) as H1. simpl in H1.
  exact (below_spec _ _ H1 b Hb).
Qed.

(** Case-split on the outermost conditionals of hypotheses / goal. *)
Ltac bool_to_prop :=
  repeat match goal with
  | H : andb _ _ = true |- _ => apply andb_prop in H; destruct H
  | H : orb _ _ = false |- _ => apply orb_false_elim in H; destruct H
  | H : negb _ = true |- _ => apply negb_true_iff in H
  | H : negb _ = false |- _ => apply negb_false_iff in H
  | H : (_ =? _) = true |- _ => apply Z.eqb_eq in H
  | H : (_ =? _) = false |- _ => apply Z.eqb_neq in H
  | H : (_ <? _) = true |- _ => apply Z.ltb_lt in H
  | H : (_ <? _) = false |- _ => apply Z.ltb_ge in H
  | H : (_ <=? _) = true |- _ => apply Z.leb_le in H
  | H : (_ <=? _) = false |- _ => apply Z.leb_gt in H
  end.

Lemma some_pair_inj {A B} (a c : A) (b d : B) :
  Some (a, b) = Some (c, d) -> a = c /\ b = d.
Proof. intros H. inversion H. auto. Qed.

Lemma some_inj {A} (a b : A) : Some a = Some b -> a = b.
Proof. intros H. inversion H. auto. Qed.
Lemma pair_inj {A B} (a c : A) (b d : B) : (a, b) = (c, d) -> a = c /\ b = d.
Proof. intros H. inversion H. auto. Qed.
