(** Independent vocabulary for error patterns. *)
From Verif Require Import Base.

(** Number of one bits of a byte and of a byte string. *)
Fixpoint ones_n (n : nat) (z : Z) : Z :=
  match n with O => 0 | S m => (z mod 2) + ones_n m (z / 2) end.
Definition ones8 (z : Z) : Z := ones_n 8 z.
Definition ones_l (l : list Z) : Z := fold_right (fun b a => ones8 b + a) 0 l.

(** A byte string read as one big-endian number. *)
Definition be (l : list Z) : Z := fold_left (fun a b => 256 * a + b) l 0.

(** [e] is the (bitwise) difference of [l] and [l']. *)
Definition diff (l l' e : list Z) : Prop :=
  length l = length l' /\ length e = length l /\
  forall i, 0 <= i < Zlen l -> znth e i = Z.lxor (znth l i) (znth l' i).

(** A non-empty burst: all differing bits lie in a window of 7 consecutive bits. *)
Definition burst7 (e : list Z) : Prop :=
  exists v k, 0 < v < 128 /\ 0 <= k /\ be e = v * 2 ^ k.
