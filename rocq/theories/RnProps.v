(** C141: what the RN2483 link sends to the module. *)
From Coq Require Import Ascii String.
From Verif Require Import Base RnModel.
Local Close Scope string_scope.

(** ** Specification *)

(** Hexadecimal text of bytes, upper case. *)
Definition hex_digits : list Z := chars "0123456789ABCDEF".
Definition hex_text (l : list Z) : list Z :=
  flat_map (fun b => [znth hex_digits (b / 16); znth hex_digits (b mod 16)]) l.

(** A command line of the module. *)
Definition command (text : list Z) : list Z := text ++ [13; 10].
Definition tx_command (frame : list Z) : list Z :=
  command (chars "mac tx uncnf 1 " ++ hex_text frame).

(** ** Proofs *)

Definition digit_chk (v : Z) : bool := rn_digit v =? znth hex_digits v.
Lemma digit_chk_all : below 16 digit_chk = true.
Proof. vm_compute. reflexivity. Qed.
Lemma rn_digit_spec v : 0 <= v < 16 -> rn_digit v = znth hex_digits v.
Proof. intros H. apply Z.eqb_eq. exact (below_spec 16 digit_chk digit_chk_all v H). Qed.

Lemma rn_wr_mid pre x rest v : wr (pre ++ x :: rest) (Zlen pre) v = Some (pre ++ v :: rest).
Proof.
  unfold wr. pose proof (Zlen_nonneg pre). pose proof (Zlen_nonneg rest).
  rewrite blit_some by (rewrite ?Zlen_app, ?Zlen_cons, ?Zlen_nil; lia).
  f_equal. rewrite Zlen_cons, Zlen_nil. unfold Zlen. rewrite Nat2Z.id.
  replace (Z.to_nat (Z.of_nat (List.length pre) + (1 + 0))) with (List.length pre + 1)%nat by lia.
  rewrite firstn_app, Nat.sub_diag, firstn_all. cbn [firstn]. rewrite app_nil_r.
  f_equal. rewrite skipn_app, skipn_all2 by lia.
  replace (List.length pre + 1 - List.length pre)%nat with 1%nat by lia. reflexivity.
Qed.

Lemma rn_rd_mid pre x (rest : list Z) : rd (pre ++ x :: rest) (Zlen pre) = Some x.
Proof.
  pose proof (Zlen_nonneg pre). pose proof (Zlen_nonneg rest).
  rewrite rd_some by (rewrite Zlen_app, Zlen_cons; lia). f_equal.
  unfold znth, Zlen. rewrite Nat2Z.id, app_nth2, Nat.sub_diag by lia. reflexivity.
Qed.

(** The loop writes the text of the next [n] input bytes. *)
Lemma rn_hex_ok : forall l fuel ipre irest opre omid orest,
  Forall byte l -> (List.length l <= fuel)%nat -> 2 * Zlen l <= 255 ->
  Zlen omid = 2 * Zlen l ->
  rn_hex fuel (ipre ++ l ++ irest) (opre ++ omid ++ orest) (Zlen ipre) (Zlen opre) (2 * Zlen l) =
    Some (opre ++ hex_text l ++ orest).
Proof.
  induction l as [|x l IH]; intros fuel ipre irest opre omid orest Hb Hf H255 Ho.
  - change (Zlen (@nil Z)) with 0 in *. destruct omid; [|rewrite Zlen_cons in Ho;
      pose proof (Zlen_nonneg omid); lia].
    destruct fuel; reflexivity.
  - rewrite Zlen_cons in *. pose proof (Zlen_nonneg l).
    destruct omid as [|a [|c omid]]; rewrite ?Zlen_cons, ?Zlen_nil in Ho; [lia | lia |].
    apply Forall_cons_iff in Hb. destruct Hb as [Hx Hb].
    destruct fuel as [|fuel]; cbn [List.length] in Hf; [lia|]. cbn [rn_hex].
    replace (2 * (1 + Zlen l) =? 0) with false by lia.
    cbn [app]. rewrite rn_rd_mid. cbn [bind]. rewrite rn_wr_mid. cbn [bind].
    set (d1 := rn_digit (x / 16)). set (d2 := rn_digit (Z.land x 15)).
    replace (opre ++ d1 :: c :: omid ++ orest) with ((opre ++ [d1]) ++ c :: omid ++ orest)
      by (rewrite <- app_assoc; reflexivity).
    replace (Zlen opre + 1) with (Zlen (opre ++ [d1])) by (rewrite Zlen_app; reflexivity).
    rewrite rn_wr_mid. cbn [bind].
    replace (u8 (2 * (1 + Zlen l) - 2)) with (2 * Zlen l) by (rewrite u8_id by (red; lia); lia).
    replace ((opre ++ [d1]) ++ d2 :: omid ++ orest) with ((opre ++ [d1; d2]) ++ omid ++ orest)
      by (rewrite <- !app_assoc; reflexivity).
    replace (ipre ++ x :: l ++ irest) with ((ipre ++ [x]) ++ l ++ irest)
      by (rewrite <- !app_assoc; reflexivity).
    replace (Zlen ipre + 1) with (Zlen (ipre ++ [x])) by (rewrite Zlen_app; reflexivity).
    replace (Zlen opre + 2) with (Zlen (opre ++ [d1; d2])) by (rewrite Zlen_app; reflexivity).
    rewrite IH; [| assumption | lia | lia | lia].
    f_equal. rewrite <- app_assoc. f_equal. unfold hex_text. cbn [flat_map]. unfold d1, d2.
    destruct Hx as [Hx0 Hx1].
    change 15 with (Z.ones 4). rewrite Z.land_ones by lia. change (2 ^ 4) with 16.
    rewrite !rn_digit_spec; [reflexivity | apply Z.mod_pos_bound; lia |].
    split; [apply Z.div_pos; lia | apply Z.div_lt_upper_bound; lia].
Qed.

Lemma Zlen_hex l : Zlen (hex_text l) = 2 * Zlen l.
Proof. induction l; [reflexivity|]. unfold hex_text in *. cbn [flat_map]. rewrite Zlen_app, IHl, !Zlen_cons. change (Zlen (@nil Z)) with 0. lia. Qed.

Lemma rn_cstr_some l : In 0 l -> exists t, cstr l = Some t /\ exists r, l = t ++ 0 :: r /\ ~ In 0 t.
Proof.
  induction l as [|c l IH]; intros H; [destruct H|]. cbn [cstr].
  destruct (Z.eqb_spec c 0) as [-> | Hc].
  - exists []. split; [reflexivity|]. exists l. split; [reflexivity | intros []].
  - destruct H as [H|H]; [contradiction|]. destruct (IH H) as (t & E & r & El & Hn).
    rewrite E. exists (c :: t). cbn [bind]. split; [reflexivity|]. exists r.
    split; [rewrite El; reflexivity|]. intros [H'|H']; [congruence | auto].
Qed.
Lemma rn_cstr_none l : ~ In 0 l -> cstr l = None.
Proof.
  induction l as [|c l IH]; intros H; [reflexivity|]. cbn [cstr].
  destruct (Z.eqb_spec c 0) as [-> | Hc]; [exfalso; apply H; left; reflexivity|].
  rewrite IH; [reflexivity|]. intros H'. apply H. right; exact H'.
Qed.

(** What sendRaw gives the module, for every length: the text of only the
    first [buflen mod 128] bytes. *)
Lemma rn_send_general buf buflen junk resp :
  0 <= buflen <= 255 -> buflen <= Zlen buf -> Forall byte buf -> Zlen junk = 2 * buflen ->
  rn_sendRaw buf buflen junk resp =
    do txt <- cstr (rn_read resp) ;
    Some (true, tx_command (firstn (Z.to_nat (buflen mod 128)) buf), txt).
Proof.
  intros Hn Hl Hb Hj. unfold rn_sendRaw, rn_getHex.
  set (k := buflen mod 128).
  assert (Hk : 0 <= k <= 127) by (pose proof (Z.mod_pos_bound buflen 128); unfold k; lia).
  assert (Hkn : k <= buflen) by (unfold k; apply Z.mod_le; lia).
  assert (Es : u8 (buflen * 2) = 2 * k).
  { unfold u8, k. rewrite Z.mul_comm. change 256 with (2 * 128).
    rewrite Z.mul_mod_distr_l by lia. reflexivity. }
  rewrite Es. set (l := firstn (Z.to_nat k) buf).
  assert (Hlen : Zlen l = k) by (unfold l; rewrite Zlen_firstn by lia; lia).
  pose proof (rn_hex_ok l 128 [] (skipn (Z.to_nat k) buf) [] (firstn (Z.to_nat (2 * k)) junk)
                (skipn (Z.to_nat (2 * k)) junk)) as H.
  cbn [app] in H. replace (l ++ skipn (Z.to_nat k) buf) with buf in H
    by (symmetry; apply firstn_skipn). rewrite firstn_skipn in H.
  change (Zlen (@nil Z)) with 0 in H. rewrite Hlen in H.
  rewrite H; clear H; cbn [bind].
  - rewrite sub_some.
    + cbn [bind]. f_equal. f_equal. f_equal. unfold tx_command, command.
      change (chars "mac tx uncnf 1 ") with (MAC_START ++ MAC_SEND). rewrite <- !app_assoc.
      f_equal. f_equal. f_equal.
      replace (Z.to_nat (2 * k)) with (List.length (hex_text l))
        by (pose proof (Zlen_hex l); unfold Zlen in *; lia).
      cbn [Z.to_nat skipn]. rewrite firstn_app, Nat.sub_diag, firstn_all. cbn [firstn].
      rewrite app_nil_r. reflexivity.
    + lia.
    + lia.
    + rewrite Zlen_app, Zlen_hex. pose proof (Zlen_nonneg (skipn (Z.to_nat (2 * k)) junk)). lia.
  - unfold l. rewrite Forall_forall in *. intros x Hx. apply Hb.
    rewrite <- (firstn_skipn (Z.to_nat k) buf). apply in_or_app. left; exact Hx.
  - unfold Zlen in Hlen. lia.
  - lia.
  - rewrite Zlen_firstn by lia. lia.
Qed.

(** C141 (partial).  For every frame of up to 127 bytes and every answer that
    fits the 16-byte buffer with its terminator, sendRaw gives the module
    exactly the transmit command with the frame in hexadecimal - nothing more
    and nothing of the stack - reads only the frame's bytes, and returns true. *)
Theorem rn_send_partial :
  forall (frame junk resp : list Z),
    Zlen frame <= 127 -> Forall byte frame -> Zlen junk = 2 * Zlen frame ->
    (Zlen resp < 16 \/ In 0 (firstn 16 resp)) ->
    exists txt,
      rn_sendRaw frame (Zlen frame) junk resp = Some (true, tx_command frame, txt).
Proof.
  intros frame junk resp Hl Hb Hj Hr. pose proof (Zlen_nonneg frame).
  rewrite rn_send_general by (try lia; assumption).
  rewrite Z.mod_small by lia.
  destruct (rn_cstr_some (rn_read resp)) as (t & -> & _).
  { unfold rn_read. apply in_or_app. destruct Hr as [Hr|Hr]; [right | left; exact Hr].
    unfold Zlen in Hr. rewrite firstn_all2 by lia.
    destruct (16 - List.length resp)%nat eqn:E; [lia|]. left; reflexivity. }
  cbn [bind]. exists t. f_equal. f_equal. f_equal. f_equal. apply firstn_all2. unfold Zlen. lia.
Qed.

(** The hexadecimal text determines the frame: two frames sent as the same
    command are the same. *)
Definition pair_chk (b c : Z) : bool :=
  (b =? c) || negb ((znth hex_digits (b / 16) =? znth hex_digits (c / 16)) &&
                    (znth hex_digits (b mod 16) =? znth hex_digits (c mod 16))).
Lemma pair_chk_all : below2 256 256 pair_chk = true.
Proof. vm_compute. reflexivity. Qed.

Theorem rn_command_determines_frame :
  forall f g, Forall byte f -> Forall byte g -> tx_command f = tx_command g -> f = g.
Proof.
  intros f g Hf Hg H. unfold tx_command, command in H.
  apply app_inv_tail in H. apply app_inv_head in H. revert g Hg H.
  induction f as [|b f IH]; intros [|c g] Hg H; try reflexivity; try discriminate.
  apply Forall_cons_iff in Hf. apply Forall_cons_iff in Hg. destruct Hf as [Hb Hf], Hg as [Hc Hg].
  unfold hex_text in H. cbn [flat_map app] in H. injection H as H1 H2 H3.
  assert (b = c).
  { pose proof (below2_spec 256 256 pair_chk pair_chk_all b c Hb Hc) as E.
    unfold pair_chk in E. rewrite H1, H2, !Z.eqb_refl in E. cbn in E.
    rewrite orb_false_r in E. lia. }
  subst c. f_equal. apply IH; assumption.
Qed.

Example rn_send_case :
  rn_sendRaw [0; 171; 9; 255] 4 (repeat 7 8) (chars "ok") =
    Some (true, command (chars "mac tx uncnf 1 00AB09FF"), chars "ok").
Proof. vm_compute. reflexivity. Qed.

(** A frame of 128 to 255 bytes is cut to its first [buflen - 128] bytes (to
    nothing at 128), and true is returned all the same. *)
Theorem rn_long_frame_refuted :
  forall frame junk resp,
    128 <= Zlen frame <= 255 -> Forall byte frame -> Zlen junk = 2 * Zlen frame ->
    Zlen resp < 16 ->
    exists txt, rn_sendRaw frame (Zlen frame) junk resp =
      Some (true, tx_command (firstn (Z.to_nat (Zlen frame - 128)) frame), txt) /\
      tx_command (firstn (Z.to_nat (Zlen frame - 128)) frame) <> tx_command frame.
Proof.
  intros frame junk resp Hl Hb Hj Hr.
  rewrite rn_send_general by (try lia; assumption).
  replace (Zlen frame mod 128) with (Zlen frame - 128)
    by (apply (Z.mod_unique _ _ 1); lia).
  destruct (rn_cstr_some (rn_read resp)) as (t & -> & _).
  { unfold rn_read. apply in_or_app. right.
    unfold Zlen in Hr. rewrite firstn_all2 by lia.
    destruct (16 - List.length resp)%nat eqn:E; [lia|]. left; reflexivity. }
  cbn [bind]. exists t. split; [reflexivity|]. intros E.
  apply rn_command_determines_frame in E; [|
    rewrite Forall_forall in *; intros x Hx; apply Hb;
    rewrite <- (firstn_skipn (Z.to_nat (Zlen frame - 128)) frame); apply in_or_app; left; exact Hx
    | exact Hb].
  assert (E' : Zlen (firstn (Z.to_nat (Zlen frame - 128)) frame) = Zlen frame) by (rewrite E; reflexivity).
  rewrite Zlen_firstn in E' by lia. lia.
Qed.

(** The answer is never looked at: true also when the module refuses. *)
Theorem rn_true_means_accepted_refuted :
  exists frame junk, Zlen frame = 3 /\
    rn_sendRaw frame 3 junk (chars "no_free_ch" ++ [13; 10]) =
      Some (true, tx_command frame, chars "no_free_ch" ++ [13; 10]).
Proof. exists [1; 2; 3], (repeat 0 6). vm_compute. split; reflexivity. Qed.

(** And every answer of 16 or more characters is printed as a string without
    a terminator, running past the end of the buffer: the module's
    "invalid_data_len" is one. *)
Theorem rn_answer_in_bounds_refuted :
  (forall buf buflen junk resp,
     0 <= buflen <= 255 -> buflen <= Zlen buf -> Forall byte buf -> Zlen junk = 2 * buflen ->
     16 <= Zlen resp -> ~ In 0 resp -> rn_sendRaw buf buflen junk resp = None) /\
  Zlen (chars "invalid_data_len") = 16.
Proof.
  split; [|reflexivity]. intros buf buflen junk resp H1 H2 H3 H4 H5 H6.
  rewrite rn_send_general by assumption. rewrite rn_cstr_none; [reflexivity|].
  unfold rn_read. rewrite firstn_length_le by (unfold Zlen in H5; lia).
  cbn [Nat.sub repeat]. rewrite app_nil_r. intros H. apply H6.
  rewrite <- (firstn_skipn 16 resp). apply in_or_app. left; exact H.
Qed.

(** begin() sends the synchronisation character and then these commands. *)
Theorem rn_begin_commands :
  rn_begin = chars "U" ++ flat_map (fun s => command (chars s))
    ["mac set devaddr 02011123"; "mac set appskey 2B7E151628AED2A6ABF7158809CF4F3C";
     "mac set nwkskey 2B7E151628AED2A6ABF7158809CF4F3C";
     "mac set ch drrange 0 1 5"; "mac set ch drrange 1 1 5"; "mac set ch drrange 2 1 5";
     "mac set adr on"; "mac join abp"; "mac get status"]%string.
Proof. vm_compute. reflexivity. Qed.

Print Assumptions rn_send_partial.
Print Assumptions rn_long_frame_refuted.
