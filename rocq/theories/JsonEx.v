(** C47, C69, C70: concrete cases, and claims that fail. *)
From Verif Require Import Base JsonModel JsonBuf JsonSpec JsonWrite JsonMain JsonThm JsonMap JsonFair.

Definition kT : list Z := [84; 124; 67].  (* T|C *)
Definition kL : list Z := [76].
Definition kV : list Z := [118].
Definition kx : list Z := [120].
Definition klong : list Z := repeat 65 30.

(** A message of the usual kind: {"@":"a","+":0,"T|C":205,"L":-3} *)
Definition ex_ops : list op := [OSetID (Some [97]); OEnable true; OPut (Some kT) 205 false; OPut (Some kL) (-3) true].
Definition ex_rot : rot := Rot 4 [St kT 205 false true; St kL (-3) true true] 255 (Some [97]) true 0.
Example ex_run : run None ex_ops (rot_new 4) = Some ex_rot.
Proof. vm_compute. reflexivity. Qed.
Example ex_ok : ok ex_rot.
Proof. destruct (json_rotation_ok None 4 ex_ops) as (r & R & O & _); [lia| |rewrite ex_run in R; apply some_inj in R; subst; exact O].
  repeat constructor; cbn; unfold byte; try lia. Qed.
Example ex_write_text : option_map message (writeJSON None true false (repeat 255 60) 60 ex_rot)
  = Some (json_object [member [64] (quoted [97]); member [43] [48]; member kT [50;48;53]; member kL [45;51]]).
Proof. vm_compute. reflexivity. Qed.
(** The same in a buffer of 30: the second statistic has to wait. *)
Example ex_write_small : option_map message (writeJSON None true false (repeat 255 60) 30 ex_rot)
  = Some (json_object [member [64] (quoted [97]); member [43] [48]; member kT [50;48;53]]).
Proof. vm_compute. reflexivity. Qed.
Example ex_write_refused : option_map snd (writeJSON None true false (repeat 255 60) 16 ex_rot) = Some 0.
Proof. vm_compute. reflexivity. Qed.

(** Without leading members, after a statistic that does not fit, the object starts with a comma:
    {,"x":1} is not JSON. *)
Theorem json_leading_comma_refuted :
  exists os r, Forall good_op os /\ run None os (rot_new 4) = Some r /\ ok r /\
    option_map message (writeJSON None true false (repeat 0 20) 20 r) = Some [123; 44; 34; 120; 34; 58; 49; 125].
Proof.
  exists [OSetID (Some []); OPut (Some klong) 5 false; OPut (Some kx) 1 false].
  eexists. assert (G : Forall good_op [OSetID (Some []); OPut (Some klong) 5 false; OPut (Some kx) 1 false]).
  { repeat constructor; cbn; unfold byte; try lia. }
  split; [exact G|]. split; [vm_compute; reflexivity|]. split.
  - destruct (json_rotation_ok None 4 [OSetID (Some []); OPut (Some klong) 5 false; OPut (Some kx) 1 false] ltac:(lia) G) as (r & R & O & _).
    vm_compute in R. apply some_inj in R. subst r. exact O.
  - vm_compute. reflexivity.
Qed.

(** Whether a change is pending is answered wrongly when it is the first statistic that changed, and
    the question reads outside the array when there is none. *)
Theorem json_changed_first_refuted :
  exists os r, Forall good_op os /\ run None os (rot_new 4) = Some r /\
    s_chg (stat_at (r_stats r) 0) = true /\ changedValue r = Some false.
Proof.
  exists [OPut (Some kT) 5 false]. eexists. split; [repeat constructor; cbn; unfold byte; try lia|]. split; [vm_compute; reflexivity|].
  split; reflexivity.
Qed.
Theorem json_changed_empty_refuted cap : changedValue (rot_new cap) = None.
Proof. reflexivity. Qed.

(** So a change of the first statistic is not sent first even when the turn of changed values comes. *)
Theorem json_changed_priority_refuted :
  exists r, ok r /\ r_cnt r mod 4 <> 0 /\ s_chg (stat_at (r_stats r) 0) = true /\
    option_map message (writeJSON None false false (repeat 0 60) 60 r) = Some (json_object [member [64] (quoted [97]); member kL [51]]).
Proof.
  exists (Rot 4 [St kT 205 false true; St kL 3 false false] 0 (Some [97]) false 1). split; [|split; [cbn; lia|]].
  - constructor; cbn [r_stats r_cap r_last r_id r_cnt].
    + repeat (apply Forall_cons || apply Forall_nil); cbn; lia.
    + cbn. constructor; [intros [H | []]; discriminate|]. constructor; [intros []|constructor].
    + repeat (apply Forall_cons || apply Forall_nil); cbn; lia.
    + unfold Zlen; cbn; lia.
    + unfold byte; lia.
    + repeat (apply Forall_cons || apply Forall_nil); lia.
    + lia.
  - split; [reflexivity|]. vm_compute. reflexivity.
Qed.

(** A statistic that was only described is reported with a value nobody gave it. *)
Theorem json_unset_value_refuted :
  exists os r, Forall good_op os /\ run None os (rot_new 4) = Some r /\
    (forall o, In o os -> match o with OPut _ _ _ => False | _ => True end) /\
    option_map message (writeJSON None false false (repeat 0 60) 60 r) = Some (json_object [member [64] (quoted []); member kT [48]]).
Proof.
  exists [ODesc (Some kT) false]. eexists. split; [repeat constructor; cbn; unfold byte; try lia|]. split; [vm_compute; reflexivity|]. split.
  - intros o [<- | []]. exact I.
  - vm_compute. reflexivity.
Qed.

(** ** Starvation *)

Definition mentions (k : list Z) (msg : list Z) : bool :=
  existsb (fun i => key_eqb (firstn (length (quoted k)) (skipn i msg)) (quoted k)) (seq 0 (length msg)).

Fixpoint rep {A} (n : nat) (l : list A) : list A := match n with O => [] | S n => l ++ rep n l end.
Lemma run_log_app sys os1 os2 r r1 l1 r2 l2 : run_log sys os1 r = Some (r1, l1) -> run_log sys os2 r1 = Some (r2, l2) ->
  run_log sys (os1 ++ os2) r = Some (r2, l1 ++ l2).
Proof.
  revert r l1. induction os1 as [|o os1 IH]; intros r l1 E1 E2; cbn [app run_log] in *.
  - apply some_pair_inj in E1. destruct E1 as [-> <-]. exact E2.
  - destruct o as [k v low | k low | k | k | e | mx sp buf bs];
      try (match type of E1 with bind ?x _ = _ => destruct x as [q|] eqn:Q; [|discriminate] end; cbn [bind] in *; eapply IH; eauto; fail).
    destruct (writeJSON sys mx sp buf bs r) as [x|]; [|discriminate]. cbn [bind] in *.
    destruct (run_log sys os1 (fst (fst x))) as [[q lq]|] eqn:Q; [|discriminate]. cbn [bind] in E1. apply some_pair_inj in E1. destruct E1 as [-> <-].
    rewrite (IH _ _ Q E2). cbn [bind]. destruct (snd x =? 0); reflexivity.
Qed.
Lemma run_log_rep sys os r l n : run_log sys os r = Some (r, l) -> run_log sys (rep n os) r = Some (r, rep n l).
Proof. intros E. induction n as [|n IH]; [reflexivity|]. cbn [rep]. eapply run_log_app; eauto. Qed.
Lemma in_rep {A} n (l : list A) x : In x (rep n l) -> In x l.
Proof. induction n as [|n IH]; [intros []|]. cbn [rep]. intros H. apply in_app_or in H. destruct H; auto. Qed.

(** A low-priority statistic can wait for ever, with room in every message, if another one keeps changing. *)
Definition low_rot : rot := Rot 3 [St kT 7 true false; St kL 1 false false; St kV 1 false false] 1 (Some [97]) false 0.
Definition low_round (v : Z) : list op := [OPut (Some kV) v false; OWrite false false (repeat 0 60) 60].
Definition low_cycle : list op := low_round 0 ++ low_round 1 ++ low_round 0 ++ low_round 1 ++ low_round 0 ++ low_round 1 ++ low_round 0 ++ low_round 1.
Theorem json_low_starves_refuted n :
  Forall (busy_op None low_rot) low_cycle /\
  exists log, run_log None (rep n low_cycle) low_rot = Some (low_rot, log) /\ Zlen log = 8 * Z.of_nat n /\
    Forall (fun msg => mentions kT msg = false) log.
Proof.
  split.
  { assert (W : forall v, v = 0 \/ v = 1 -> Forall (busy_op None low_rot) (low_round v)).
    { intros v V. constructor; [split; [right; right; left; reflexivity|lia]|]. constructor; [|constructor].
      split; [unfold byte; lia|]. split; [vm_compute; congruence|]. split; [lia|].
      intros k [<- | [<- | [<- | []]]]; vm_compute; congruence. }
    unfold low_cycle. repeat (apply Forall_app; split); apply W; auto. }
  assert (E : exists l, run_log None low_cycle low_rot = Some (low_rot, l) /\ length l = 8%nat /\ forallb (fun msg => negb (mentions kT msg)) l = true).
  { eexists. split; [vm_compute; reflexivity|]. split; vm_compute; reflexivity. }
  destruct E as (l & E & L8 & M). exists (rep n l). split; [apply run_log_rep; exact E|]. split.
  - clear - L8. induction n as [|n IH]; [reflexivity|]. cbn [rep]. rewrite Zlen_app, IH. unfold Zlen. rewrite L8. lia.
  - rewrite Forall_forall. intros x X. apply in_rep in X. rewrite forallb_forall in M. specialize (M x X). destruct (mentions kT x); [discriminate|reflexivity].
Qed.

(** One statistic that never fits stops the rotation: those behind it are never sent again. *)
Definition stuck_rot : rot := Rot 3 [St kT 7 false false; St klong 1 false false; St kV 1 false false] 0 (Some [97]) false 0.
Definition stuck_cycle (mx : bool) : list op := repeat (OWrite mx false (repeat 0 40) 40) 8.
Theorem json_stuck_refuted mx n :
  exists log, run_log None (rep n (stuck_cycle mx)) stuck_rot = Some (stuck_rot, log) /\ Zlen log = 8 * Z.of_nat n /\
    Forall (fun msg => msg = json_object [member [64] (quoted [97])]) log.
Proof.
  assert (E : exists l, run_log None (stuck_cycle mx) stuck_rot = Some (stuck_rot, l) /\ l = repeat (json_object [member [64] (quoted [97])]) 8).
  { eexists. split; [destruct mx; vm_compute; reflexivity|]. vm_compute. reflexivity. }
  destruct E as (l & E & L8). exists (rep n l). split; [apply run_log_rep; exact E|]. split.
  - subst l. clear. induction n as [|n IH]; [reflexivity|]. cbn [rep]. rewrite Zlen_app, IH. rewrite Zlen_repeat. lia.
  - rewrite Forall_forall. intros x X. apply in_rep in X. subst l. apply repeat_spec in X. exact X.
Qed.

(** The hypotheses of the fairness theorem are met by ordinary use. *)
Example ex_fair : exists r log, run_log None (repeat (OWrite false false (repeat 0 60) 60) 8) ex_rot = Some (r, log) /\
  exists msg, In msg log /\ includes kT msg.
Proof.
  destruct (json_rotation_fair_partial None (repeat (OWrite false false (repeat 0 60) 60) 8) ex_rot 0 ex_ok) as (r & log & E & _ & M).
  - apply Forall_forall. intros o O. apply repeat_spec in O. subst o. split; [unfold byte; lia|]. split; [vm_compute; congruence|]. split; [lia|].
    intros k [<- | [<- | []]]; vm_compute; congruence.
  - vm_compute. split; congruence.
  - reflexivity.
  - vm_compute. congruence.
  - exists r, log. split; [exact E|exact M].
Qed.
