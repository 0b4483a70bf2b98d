(** SIM900 link: bounded attempts (C118), power pin timing (C119), restart after 255 messages
    (C120). *)
From Verif Require Import Base RtcModel Sim900Model Sim900Props Sim900Hist.

Lemma counted_step tr s v s' o : wf s -> counted tr s -> sim_step s v = Some (s', o) -> counted (tr ++ [(v, o)]) s'.
Proof.
  intros W HH H. unfold counted, since_pulse in *. rewrite fold_left_app. cbn [fold_left since1 snd].
  set (l := fold_left since1 tr []) in *. clearbody l. cbv zeta in *. unfold since1; cbn [snd].
  destruct v as [e|b|]; cbn [sim_step] in *.
  - destruct (poll_cases _ _ _ _ H) as [(H1 & -> & ->) | [(H1 & H2 & -> & ->) | [(_ & _ & _ & -> & ->) | (H1 & H2 & _ & s1 & HG & ->)]]];
      try (cbn [existsb]; rewrite app_nil_r).
    + destruct HH as [HA HB]. split; [exact HA|]. unfold retryLockOut. destruct (0 =? retries s); [exact I|].
      destruct (waited _ _ _); exact HB.
    + destruct HH as [HA HB]. split; [exact HA|exact I].
    + exact HH.
    + pose proof (bounds_goes _ _ _ _ _ _ _ _ _ _ W H1 H2 HG HH) as HX.
      destruct (existsb is_high o); [exact HX|]. rewrite !cnt_app. exact HX.
  - apply some_inj, pair_inj in H. destruct H as [<- <-]. cbn [existsb]. rewrite app_nil_r.
    unfold queueToSend. destruct b as [b|]; [|exact HH]. destruct (Zlen b >? 64); exact HH.
  - unfold sim_end in H. apply some_inj, pair_inj in H. destruct H as [<- <-]. cbn [existsb is_high orb].
    rewrite !cnt_app. unfold cnt at 2 4 6 8 10 12. cbn [filter is_cmd]. change (@Zlen SOut []) with 0. rewrite !Z.add_0_r. exact HH.
Qed.
Lemma counted_started : counted [] started.
Proof.
  unfold counted. cbv zeta. change (since_pulse []) with (@nil SOut). unfold bounds, cnt. cbn [filter]. change (@Zlen SOut []) with 0.
  split; [lia|exact I].
Qed.

(** A stretch of history in which the power pin is not raised. *)
Definition no_pulse (tr : list (SEv * list SOut)) : Prop := forall v o, In (v, o) tr -> ~ In (OPin true) o.
Definition outs (tr : list (SEv * list SOut)) : list SOut := flat_map snd tr.
Lemma no_high o : ~ In (OPin true) o -> existsb is_high o = false.
Proof.
  intros H. destruct (existsb is_high o) eqn:E; [|reflexivity]. apply existsb_exists in E. destruct E as ([| |[|]] & HI & HX); try discriminate. contradiction.
Qed.
Lemma since_outs : forall tr acc, no_pulse tr -> fold_left since1 tr acc = acc ++ outs tr.
Proof.
  induction tr as [|[v o] tr IH]; intros acc H; cbn [fold_left outs flat_map snd].
  - rewrite app_nil_r. reflexivity.
  - rewrite IH by (intros v' o' HI; apply (H v' o'); right; exact HI). unfold since1; cbn [snd].
    rewrite no_high by (apply (H v o); left; reflexivity). unfold outs. rewrite <- app_assoc. reflexivity.
Qed.
(** However the module answers, between one power pulse and the next the link asks for the PIN
    at most 10 times, for the registration at most 30, sets the access point at most 10, starts
    GPRS at most 10, opens the socket at most 10 and announces at most 255 messages. *)
Theorem sim_attempts : forall vs s tr tr1 tr2 tr3, sim_run started vs = Some (s, tr) -> tr = tr1 ++ tr2 ++ tr3 -> no_pulse tr2 ->
  cnt CPIN (outs tr2) <= 10 /\ cnt CREG (outs tr2) <= 30 /\ cnt CSTT (outs tr2) <= 10 /\ cnt CIICR (outs tr2) <= 10 /\
  cnt CIPSTART (outs tr2) <= 10 /\ cnt (CIPSEND 0) (outs tr2) <= 255.
Proof.
  intros vs s tr tr1 tr2 tr3 HR HE HN.
  assert (HC : exists s', counted (tr1 ++ tr2) s').
  { destruct (sim_run_inv counted counted_step vs [] started s tr wf_started counted_started HR) as [[_ HA] HX]. cbn [app] in *.
    destruct tr3 as [|[v o] tr3].
    - rewrite app_nil_r in HE. subst tr. eexists; exact HA.
    - rewrite app_assoc in HE. destruct (HX _ _ _ _ HE) as (a & _ & _ & Ha & _). eexists; exact Ha. }
  destruct HC as [s' HC]. unfold counted, since_pulse in HC. rewrite fold_left_app, since_outs in HC by exact HN.
  cbv zeta in HC. rewrite !cnt_app in HC. destruct HC as [HC _].
  repeat match goal with |- context[cnt ?c (outs tr2)] => pose proof (cnt_nonneg c (fold_left since1 tr1 [])); generalize dependent (cnt c (fold_left since1 tr1 [])); generalize dependent (cnt c (outs tr2)); intros end.
  lia.
Qed.
