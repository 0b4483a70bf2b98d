(** Specification vocabulary for C47, C69, C70: JSON text of a flat object. *)
From Verif Require Import Base.

(** "name" *)
Definition quoted (s : list Z) : list Z := 34 :: s ++ [34].
(** "name":value *)
Definition member (name value : list Z) : list Z := quoted name ++ [58] ++ value.
(** Members separated by commas. *)
Fixpoint join (ms : list (list Z)) : list Z :=
  match ms with
  | [] => []
  | [m] => m
  | m :: ms => m ++ 44 :: join ms
  end.
(** { members } *)
Definition json_object (ms : list (list Z)) : list Z := 123 :: join ms ++ [125].

(** Value of a string of decimal digits, and of a signed decimal number; no superfluous zeros. *)
Definition digits_value (l : list Z) : Z := fold_left (fun a d => 10 * a + (d - 48)) l 0.
Definition is_digit (c : Z) : Prop := 48 <= c <= 57.
Definition numeral (n : Z) (l : list Z) : Prop :=
  Forall is_digit l /\ digits_value l = n /\ (l = [48] \/ exists d r, l = d :: r /\ d <> 48).
Definition decimal (v : Z) (l : list Z) : Prop :=
  if v <? 0 then exists r, l = 45 :: r /\ numeral (- v) r else numeral v l.

(** Text that needs no escaping inside a JSON string. *)
Definition plain (s : list Z) : Prop := Forall (fun c => 32 <= c <= 126 /\ c <> 34 /\ c <> 92) s.
