(** Properties of the small utilities (C155-C157). *)
From Verif Require Import Base UtilModel.

(** ** Frame dumps (C155) *)

(** A reader of such lines, independent of the printer. *)
Definition digit_val (c : Z) : option Z := if (48 <=? c) && (c <=? 57) then Some (c - 48) else None.
Definition hex_val (c : Z) : option Z :=
  if (48 <=? c) && (c <=? 57) then Some (c - 48) else if (65 <=? c) && (c <=? 70) then Some (c - 55) else None.
(** A decimal number ended by a space. *)
Fixpoint read_dec (acc : Z) (l : list Z) : option (Z * list Z) :=
  match l with
  | [] => None
  | c :: r => if c =? 32 then Some (acc, r) else do d <- digit_val c ; read_dec (10 * acc + d) r
  end.
(** [n] bytes: a space and the character, or two hex digits; then CR LF. *)
Fixpoint read_cells (n : nat) (l : list Z) : option (list Z) :=
  match n with
  | O => match l with [c; d] => if (c =? 13) && (d =? 10) then Some [] else None | _ => None end
  | S n => match l with
           | c :: d :: r => do t <- read_cells n r ;
                            if c =? 32 then Some (d :: t) else do h <- hex_val c ; do v <- hex_val d ; Some (16 * h + v :: t)
           | _ => None
           end
  end.
Definition read_rx_line (l : list Z) : option (list Z) :=
  match l with
  | c :: r => if c =? 124 then do (n, r) <- read_dec 0 r ; read_cells (Z.to_nat n) r else None
  | [] => None
  end.

Definition cell_reads (b : Z) : bool :=
  match rx_cell b with
  | [c; d] => (if c =? 32 then d =? b else match hex_val c, hex_val d with Some h, Some v => 16 * h + v =? b | _, _ => false end)
              && (32 <=? c) && (c <=? 126) && (32 <=? d) && (d <=? 126)
  | _ => false
  end.
Lemma cell_reads_all : forall b, byte b -> cell_reads b = true.
Proof.
  assert (H : forallb cell_reads (map Z.of_nat (seq 0 256)) = true) by (vm_compute; reflexivity).
  intros b Hb. rewrite forallb_forall in H. apply H. apply in_map_iff. exists (Z.to_nat b). red in Hb. split; [lia|]. apply in_seq. lia.
Qed.
Definition dec_reads (n : Z) : bool :=
  match read_dec 0 (dec_print n ++ [32; 7]) with Some (m, [x]) => (m =? n) && (x =? 7) | _ => false end && forallb (fun c => (48 <=? c) && (c <=? 57)) (dec_print n).
Lemma dec_reads_all : forall n, byte n -> dec_reads n = true.
Proof.
  assert (H : forallb dec_reads (map Z.of_nat (seq 0 256)) = true) by (vm_compute; reflexivity).
  intros b Hb. rewrite forallb_forall in H. apply H. apply in_map_iff. exists (Z.to_nat b). red in Hb. split; [lia|]. apply in_seq. lia.
Qed.

Lemma read_dec_tail : forall d acc m r r', Forall (fun c => 48 <= c <= 57) d -> read_dec acc (d ++ 32 :: r) = Some (m, r) -> read_dec acc (d ++ 32 :: r') = Some (m, r').
Proof.
  induction d as [|c d IH]; intros acc m r r' HF E; cbn [app read_dec] in *.
  - replace (32 =? 32) with true in * by reflexivity. apply some_pair_inj in E as [-> _]. reflexivity.
  - inversion HF; subst. replace (c =? 32) with false in * by lia. unfold digit_val in *. replace ((48 <=? c) && (c <=? 57)) with true in * by lia. cbn [bind] in *.
    eapply IH; eauto.
Qed.
Lemma dec_ok : forall n r, byte n -> read_dec 0 (dec_print n ++ 32 :: r) = Some (n, r).
Proof.
  intros n r Hn. pose proof (dec_reads_all n Hn) as H. unfold dec_reads in H. apply andb_true_iff in H as [H1 H2].
  apply read_dec_tail with (r := [7]).
  - rewrite forallb_forall in H2. apply Forall_forall. intros c Hc. specialize (H2 c Hc). lia.
  - destruct (read_dec 0 (dec_print n ++ [32; 7])) as [[m [|x [|]]]|]; try discriminate. replace m with n by lia. replace x with 7 by lia. reflexivity.
Qed.

Lemma nth_skipn' : forall (n : nat) (l : list Z) i, nth i (skipn n l) 0 = nth (n + i) l 0.
Proof. induction n as [|n IH]; intros [|x l] i; cbn [skipn Nat.add nth]; [reflexivity | reflexivity | destruct i; reflexivity | apply IH]. Qed.
Lemma skipn_S' : forall (n : nat) (l : list Z), skipn (1 + n) l = skipn 1 (skipn n l).
Proof. induction n as [|n IH]; intros [|x l]; [reflexivity | reflexivity | reflexivity | apply (IH l)]. Qed.
Lemma cell_shape b : byte b -> exists c d, rx_cell b = [c; d] /\ 32 <= c <= 126 /\ 32 <= d <= 126 /\
  (if c =? 32 then d = b else exists h v, hex_val c = Some h /\ hex_val d = Some v /\ 16 * h + v = b).
Proof.
  intros Hb. pose proof (cell_reads_all b Hb) as H. unfold cell_reads in H.
  destruct (rx_cell b) as [|c [|d [|]]]; try discriminate. exists c, d. split; [reflexivity|]. split; [lia|]. split; [lia|].
  destruct (c =? 32); [lia|]. destruct (hex_val c) as [h|]; [|discriminate]. destruct (hex_val d) as [v|]; [|discriminate].
  exists h, v. split; [reflexivity|]. split; [reflexivity|]. lia.
Qed.

Lemma rx_cells_ok buf : Forall byte buf -> forall n i, 0 <= i -> i + Z.of_nat n <= Zlen buf ->
  exists out, rx_cells buf i n = Some out /\ read_cells n (out ++ [13; 10]) = Some (firstn n (skipn (Z.to_nat i) buf)) /\
    length out = (2 * n)%nat /\ Forall (fun c => 32 <= c <= 126) out.
Proof.
  intros HB. induction n as [|n IH]; intros i Hi H.
  - exists []. split; [reflexivity|]. split; [reflexivity|]. split; [reflexivity | constructor].
  - destruct (IH (i + 1) ltac:(lia) ltac:(lia)) as (out & E & ER & EL & EF).
    assert (Hb : byte (znth buf i)) by (apply znth_byte; exact HB).
    destruct (cell_shape _ Hb) as (c & d & Ec & Hc & Hd & HV).
    exists ([c; d] ++ out). cbn [rx_cells]. rewrite rd_some by lia. cbn [bind]. rewrite E. cbn [bind]. rewrite Ec. split; [reflexivity|].
    split; [|split; [cbn [app length]; lia | repeat (constructor; [assumption|]); exact EF]].
    cbn [app read_cells]. rewrite ER. cbn [bind].
    replace (firstn (S n) (skipn (Z.to_nat i) buf)) with (znth buf i :: firstn n (skipn (Z.to_nat (i + 1)) buf)).
    + destruct (c =? 32); [rewrite HV; reflexivity|]. destruct HV as (h & v & -> & -> & <-). reflexivity.
    + replace (Z.to_nat (i + 1)) with (S (Z.to_nat i)) by lia. assert (HL : (Z.to_nat i < length buf)%nat) by (unfold Zlen in H; lia).
      unfold znth. destruct (skipn (Z.to_nat i) buf) as [|x r] eqn:ES.
      * exfalso. pose proof (skipn_length (Z.to_nat i) buf) as G. rewrite ES in G. cbn in G. lia.
      * cbn [firstn]. assert (E1 : nth (Z.to_nat i) buf 0 = x) by (pose proof (nth_skipn' (Z.to_nat i) buf 0) as G; rewrite ES, Nat.add_0_r in G; symmetry; exact G).
        assert (E2 : skipn (S (Z.to_nat i)) buf = r) by (change (S (Z.to_nat i)) with (1 + Z.to_nat i)%nat; rewrite skipn_S', ES; reflexivity).
        rewrite E1, E2. reflexivity.
Qed.

(** The frame printed can be read back from the line, whatever its bytes, and
    the line is all printable characters; nothing outside the frame is read. *)
Theorem rx_line_faithful : forall buf len, Forall byte buf -> 0 <= len <= 255 -> len <= Zlen buf ->
  exists out, printRXMsg buf len = Some out /\ read_rx_line out = Some (firstn (Z.to_nat len) buf) /\
  exists text, out = text ++ [13; 10] /\ Forall (fun c => 32 <= c <= 126) text.
Proof.
  intros buf len HB HL HZ. destruct (rx_cells_ok buf HB (Z.to_nat len) 0 ltac:(lia) ltac:(lia)) as (cells & E & ER & _ & EF).
  unfold printRXMsg. rewrite E. cbn [bind]. eexists. split; [reflexivity|]. split.
  - cbn [app read_rx_line]. replace (124 =? 124) with true by reflexivity. rewrite dec_ok by (red; lia). cbn [bind]. exact ER.
  - exists (124 :: dec_print len ++ 32 :: cells). split; [rewrite !app_comm_cons, <- app_assoc; reflexivity|].
    constructor; [lia|]. apply Forall_app. split; [|constructor; [lia | exact EF]].
    pose proof (dec_reads_all len ltac:(red; lia)) as H. unfold dec_reads in H. apply andb_true_iff in H as [_ H]. rewrite forallb_forall in H.
    apply Forall_forall. intros c Hc. specialize (H c Hc). lia.
Qed.
(** So two different frames never give the same line. *)
Theorem rx_line_injective : forall b1 l1 b2 l2 out, Forall byte b1 -> Forall byte b2 -> 0 <= l1 <= 255 -> 0 <= l2 <= 255 -> l1 <= Zlen b1 -> l2 <= Zlen b2 ->
  printRXMsg b1 l1 = Some out -> printRXMsg b2 l2 = Some out -> firstn (Z.to_nat l1) b1 = firstn (Z.to_nat l2) b2.
Proof.
  intros b1 l1 b2 l2 out H1 H2 H3 H4 H5 H6 E1 E2.
  destruct (rx_line_faithful b1 l1 H1 H3 H5) as (o1 & F1 & R1 & _). destruct (rx_line_faithful b2 l2 H2 H4 H6) as (o2 & F2 & R2 & _). congruence.
Qed.

(** The documented rendering: a space and the character from 32 to 126, and two
    upper-case hexadecimal digits otherwise. *)
Definition hex_upper (d : Z) : Z := if d <? 10 then 48 + d else 65 + (d - 10).
Definition doc_cell (b : Z) : list Z := if (32 <=? b) && (b <=? 126) then [32; b] else [hex_upper (b / 16); hex_upper (b mod 16)].
Definition same_cell (b : Z) : bool :=
  match rx_cell b, doc_cell b with [a; c], [x; y] => (b =? 126) || ((a =? x) && (c =? y)) | _, _ => false end.
Lemma same_cell_all : forall b, byte b -> same_cell b = true.
Proof.
  assert (H : forallb same_cell (map Z.of_nat (seq 0 256)) = true) by (vm_compute; reflexivity).
  intros b Hb. rewrite forallb_forall in H. apply H. apply in_map_iff. exists (Z.to_nat b). red in Hb. split; [lia|]. apply in_seq. lia.
Qed.
Lemma cell_doc b : byte b -> b <> 126 -> rx_cell b = doc_cell b.
Proof.
  intros Hb Hne. pose proof (same_cell_all b Hb) as H. unfold same_cell in H. destruct (rx_cell b) as [|a [|c [|]]]; try discriminate.
  destruct (doc_cell b) as [|x [|y [|]]]; try discriminate. replace a with x by lia. replace c with y by lia. reflexivity.
Qed.
Theorem rx_line_documented_partial : forall buf, Forall byte buf -> Zlen buf <= 255 -> ~ In 126 buf ->
  printRXMsg buf (Zlen buf) = Some ([124] ++ dec_print (Zlen buf) ++ [32] ++ flat_map doc_cell buf ++ [13; 10]).
Proof.
  intros buf HB HL HN. unfold printRXMsg.
  assert (G : forall l p, buf = p ++ l -> rx_cells buf (Zlen p) (length l) = Some (flat_map doc_cell l)).
  { induction l as [|x l IH]; intros p E; [reflexivity|]. cbn [length rx_cells flat_map]. 
    assert (EL : Zlen buf = Zlen p + 1 + Zlen l) by (rewrite E, Zlen_app, Zlen_cons; lia).
    pose proof (Zlen_nonneg p). pose proof (Zlen_nonneg l). rewrite rd_some by lia. cbn [bind].
    assert (EX : znth buf (Zlen p) = x). { rewrite E. unfold znth, Zlen. rewrite Nat2Z.id, app_nth2 by lia. rewrite Nat.sub_diag. reflexivity. }
    assert (HX : In x buf) by (rewrite E; apply in_or_app; right; left; reflexivity).
    specialize (IH (p ++ [x])). rewrite Zlen_app in IH. change (Zlen [x]) with 1 in IH. rewrite IH by (rewrite <- app_assoc; exact E). cbn [bind].
    rewrite EX, cell_doc; [reflexivity | rewrite Forall_forall in HB; apply HB; exact HX | intros ->; contradiction]. }
  specialize (G buf [] eq_refl). change (Zlen []) with 0 in G. replace (Z.to_nat (Zlen buf)) with (length buf) by (unfold Zlen; lia). rewrite G. reflexivity.
Qed.
Example rx_line_case : printRXMsg [97; 123; 32; 129; 253] 5 = Some [124; 53; 32; 32; 97; 32; 123; 32; 32; 56; 49; 70; 68; 13; 10].
Proof. reflexivity. Qed.
(** The tilde, documented as printable, is printed in hexadecimal. *)
Theorem rx_line_tilde_refuted : rx_cell 126 = [55; 69] /\ doc_cell 126 = [32; 126].
Proof. split; reflexivity. Qed.
