(** The line the hub prints for a received statistics message, and the way of a set of
    statistics from the rotation of the valve to that line (C165). *)
From Verif Require Import Base JsonModel JsonBuf JsonSpec JsonWrite JsonMain JsonThm SmallModel ConcProps.
From Verif Require Import CrcSpec FrameModel FrameSpec SecureModel SecureSpec SecureProps SecureRawProps EepromModel EepromProofs AssocProps RxCtrModel RxCtrProofs RxCtrNormal RxCtrProps RxCtrCrash SecureRxModel SecureRxProps SecureTxProps MsgModel MsgProps MsgTop.

(** ** Model: serialFrameOperation, OTRadioLink_Messaging.h 110-118, with Print of
    OTV0P2BASE_ArduinoCompat.h 58-106 (each number printed with the fewest digits). *)
Fixpoint print_all (base : Z) (l : list Z) : option (list Z) :=
  match l with [] => Some [] | b :: l => do x <- printUnsigned b base; do r <- print_all base l; Some (x ++ r) end.
Definition hub_line (id : list Z) (seq : Z) (txt : list Z) : option (list Z) :=
  do hex <- print_all 16 id;                                                    (* 111 *)
  do s <- printUnsigned seq 10;                                                 (* 113 *)
  Some ([123; 34; 64; 34; 58; 34] ++ hex ++ [34; 44; 34; 43; 34; 58] ++ s ++ [44] ++ txt ++ [125; 13; 10]).

(** ** Specification *)
(** Two hexadecimal digits per byte, read back in pairs. *)
Definition hex_value (c : Z) : Z := if c <=? 57 then c - 48 else c - 55.
Fixpoint hex_bytes (l : list Z) : list Z :=
  match l with a :: b :: l => 16 * hex_value a + hex_value b :: hex_bytes l | _ => [] end.

(** ** Proofs *)
Definition two_hex (b : Z) : bool :=
  match printUnsigned b 16 with
  | Some [x; y] => (16 * hex_value x + hex_value y =? b) && (32 <=? x) && (x <=? 126) && negb (x =? 34) && negb (x =? 92) && (32 <=? y) && (y <=? 126) && negb (y =? 34) && negb (y =? 92)
  | _ => false end.
Definition two_hex_ok (b : Z) : bool := (b <? 16) || two_hex b.
Lemma two_hex_all : below 256 two_hex_ok = true. Proof. vm_compute. reflexivity. Qed.
Lemma two_hex_byte b : 16 <= b < 256 -> exists x y, printUnsigned b 16 = Some [x; y] /\ 16 * hex_value x + hex_value y = b /\ plain [x; y].
Proof.
  intros H. pose proof (below_spec 256 two_hex_ok two_hex_all b ltac:(lia)) as T. unfold two_hex_ok, two_hex in T.
  replace (b <? 16) with false in T by lia. cbn [orb] in T. destruct (printUnsigned b 16) as [[|x [|y [|z l]]]|]; try discriminate.
  exists x, y. split; [reflexivity|]. split; [lia|]. unfold plain. constructor; [lia|]. constructor; [lia|constructor].
Qed.
Lemma print_hex id : Forall (fun b => 16 <= b < 256) id -> exists hex, print_all 16 id = Some hex /\ hex_bytes hex = id /\ plain hex.
Proof.
  induction 1 as [|b l Hb _ (hex & E & R & P)]; [exists []; repeat split; constructor|].
  destruct (two_hex_byte b Hb) as (x & y & EB & V & PB). exists (x :: y :: hex). cbn [print_all]. rewrite EB. cbn [bind]. rewrite E. cbn [bind app].
  split; [reflexivity|]. split; [cbn [hex_bytes]; rewrite V, R; reflexivity|]. unfold plain in *. inversion PB as [|? ? H1 H2]; subst. inversion H2; subst. constructor; [assumption|]. constructor; assumption.
Qed.

Definition seq_ok (s : Z) : bool := match printUnsigned s 10 with Some l => if list_eq_dec Z.eq_dec l (dec s) then true else false | None => false end.
Lemma seq_all : below 16 seq_ok = true. Proof. vm_compute. reflexivity. Qed.
Lemma print_seq s : 0 <= s < 16 -> printUnsigned s 10 = Some (dec s).
Proof.
  intros H. pose proof (below_spec 16 seq_ok seq_all s H) as T. unfold seq_ok in T. destruct (printUnsigned s 10) as [l|]; [|discriminate].
  destruct (list_eq_dec Z.eq_dec l (dec s)) as [->|]; [reflexivity|discriminate].
Qed.

(** The line is a JSON object: the sender under "@", two digits a byte, the sequence number under "+", then the
    members of the message, followed by CR LF. *)
Theorem hub_line_json : forall id seq ms,
  Forall (fun b => 16 <= b < 256) id -> 0 <= seq < 16 -> ms <> [] ->
  exists hex, hub_line id seq (join ms) = Some (json_object (member [64] (quoted hex) :: member [43] (dec seq) :: ms) ++ [13; 10]) /\
    hex_bytes hex = id /\ plain hex /\ decimal seq (dec seq).
Proof.
  intros id seq ms HI HS HM. destruct (print_hex id HI) as (hex & E & R & P). exists hex. unfold hub_line. rewrite E, (print_seq seq HS). cbn [bind].
  split; [|split; [exact R|split; [exact P|apply json_decimal; lia]]]. destruct ms as [|m ms]; [congruence|]. f_equal.
  cbn [join]. unfold json_object, member, quoted. cbn [app join]. rewrite <- ?app_assoc. cbn [app]. rewrite <- ?app_assoc. cbn [app]. rewrite <- ?app_assoc. reflexivity.
Qed.

(** Full statement, for every ID: the line says who sent the message.  Refuted: bytes below 16 are printed with one
    digit, so two senders can be printed alike. *)
Theorem hub_line_sender_refuted : exists id1 id2 seq txt,
  id1 <> id2 /\ Zlen id1 = 8 /\ Zlen id2 = 8 /\ Forall byte id1 /\ Forall byte id2 /\
  hub_line id1 seq txt = hub_line id2 seq txt /\ hub_line id1 seq txt <> None.
Proof.
  exists [1; 35; 128; 129; 130; 131; 132; 133], [18; 3; 128; 129; 130; 131; 132; 133], 7, [34; 97; 34; 58; 49].
  split; [discriminate|]. split; [reflexivity|]. split; [reflexivity|].
  split; [repeat (constructor; [red; lia|]); constructor|]. split; [repeat (constructor; [red; lia|]); constructor|].
  split; [vm_compute; reflexivity|]. vm_compute. discriminate.
Qed.

(** *** From the valve to the line *)
Lemma plain_nz s : plain s -> Forall (fun c => c <> 0) s.
Proof. apply Forall_impl. intros c H. lia. Qed.
Lemma decimal_nz v l : decimal v l -> Forall (fun c => c <> 0) l.
Proof.
  assert (N : forall n r, numeral n r -> Forall (fun c => c <> 0) r).
  { intros n r (D & _). revert D. apply Forall_impl. unfold is_digit. intros; lia. }
  unfold decimal. destruct (v <? 0); [intros (r & -> & H); constructor; [lia|eapply N; exact H]|apply N].
Qed.
Lemma join_nz ms : Forall (Forall (fun c => c <> 0)) ms -> Forall (fun c => c <> 0) (join ms).
Proof.
  induction 1 as [|m ms H _ IH]; [constructor|]. cbn [join]. destruct ms; [exact H|]. apply Forall_app. split; [exact H|]. constructor; [lia|exact IH].
Qed.
Lemma join_empty ms : Forall (fun m : list Z => m <> []) ms -> join ms = [] -> ms = [].
Proof. intros H E. destruct H as [|m ms Hm H]; [reflexivity|]. cbn [join] in E. destruct ms; [congruence|]. destruct m; [congruence|discriminate]. Qed.

Theorem stats_to_line_partial : forall (S : Type) (getID : S -> option (list Z)) getCtr (t t' : S) e p0 p1 out n il pc txs key idb ctr
    d o1 hs ss m c rest sys maximise suppress buf bufSize r r' buf' k,
  (* the statistics are written behind the two leading bytes of the plaintext buffer *)
  ok r -> match sys with Some (a, b) => byte a /\ byte b | None => True end ->
  30 <= Zlen buf -> 0 <= bufSize <= 32 -> bufSize <= Zlen buf ->
  lead_members sys r <> [] \/ fit_alone (bufSize - 3) (r_stats r) ->
  writeJSON sys maximise suppress buf bufSize r = Some (r', buf', k) -> 2 < k ->
  (* the transmitter *)
  enc_sized e -> getID t = Some idb -> getCtr t = (Some ctr, t') ->
  Zlen idb = 8 -> Forall (fun b => 16 <= b < 256) idb -> Zlen ctr = 6 -> Forall byte ctr ->
  0 <= il <= 5 -> byte pc -> 59 + il <= n <= Zlen out -> 284 <= txs ->
  (forall body, Zlen body = 32 ->
     e (txs - 12) key (firstn 6 idb ++ ctr) (frame_header true 79 (znth ctr 5) (firstn (Z.to_nat il) idb) 32 23) (Some body) <> None) ->
  (* the hub *)
  dec_sized d -> dec_inverts e d (ss - 74) -> 74 <= ss -> bytes_mem (mem hs) ->
  first_match (mem hs) (firstn (Z.to_nat il) idb) idb -> holds (mem hs) idb c -> be c + 16 < 2 ^ 48 -> be c < be ctr ->
  Forall byte rest -> junk_ok (hm_junk m) -> hm_powered m -> o1 = OpNull \/ o1 = OpBoiler ->
  exists rr t2 p2 o, encodeValveFrame S getID getCtr t e (Some (p0 :: p1 :: buf')) (Some out) n il pc txs (Some key) = Some (rr, t2, p2, Some o) /\
    (hm_buf m = firstn (Z.to_nat rr) o ++ rest ->
     exists hs' txt hex is acts, hub d (Some key) ss o1 OpSerial hs m = Some (hs', acts ++ [ASerial idb (znth ctr 5 mod 16) txt]) /\
       acts = (if match o1 with OpBoiler => pc <=? 100 | _ => false end then [ABoiler pc (hm_minute m)] else []) /\
       written maximise suppress (lead_members sys r) bufSize r r' buf' k is /\
       hub_line idb (znth ctr 5 mod 16) txt =
         Some (json_object (member [64] (quoted hex) :: member [43] (dec (znth ctr 5 mod 16)) :: lead_members sys r ++ sent_members r is) ++ [13; 10]) /\
       hex_bytes hex = idb).
Proof.
  intros S getID getCtr t t' e p0 p1 out n il pc txs key idb ctr d o1 hs ss m c rest sys maximise suppress buf bufSize r r' buf' k
    OK SY LB BS BL LF W K2 He HgI HgC HI8 HIb HC6 HCb Hil Hpc Hn Htx Henc Hd Hinv Hss HM HFM HH Hmax Hlt Hrest HJ HPw HO1.
  destruct (json_write_partial sys maximise suppress buf bufSize r OK ltac:(red; lia) BL LF) as (r2 & b2 & n2 & E2 & LB2 & _ & R).
  rewrite E2 in W. apply some_inj in W. apply pair_inj in W. destruct W as [W ->]. apply pair_inj in W. destruct W as [-> ->].
  destruct ((bufSize <? 10) || (bufSize <? Zlen (json_object (lead_members sys r)) + 2)); [destruct R as (_ & -> & _); lia|].
  destruct R as (is & WR). pose proof WR as (N1 & TX & NUL & _ & RG & _).
  set (ms := lead_members sys r ++ sent_members r is) in *. set (j := json_object ms) in *.
  assert (MM := json_members sys r is OK SY RG). fold ms in MM.
  assert (NZ : Forall (Forall (fun c => c <> 0)) ms /\ Forall (fun m => m <> []) ms).
  { split; (eapply Forall_impl; [|exact MM]); intros x (nm & v & -> & PN & V).
    - unfold member, quoted. cbn [app]. constructor; [lia|]. apply Forall_app. split; [apply Forall_app; split; [apply plain_nz; exact PN|constructor; [lia|constructor]]|].
      constructor; [lia|]. destruct V as [(tx & -> & PT)|(v0 & _ & D)]; [|eapply decimal_nz; exact D].
      unfold quoted. constructor; [lia|]. apply Forall_app. split; [apply plain_nz; exact PT|constructor; [lia|constructor]].
    - unfold member, quoted. discriminate. }
  destruct NZ as [NZ NE].
  assert (JL : Zlen j = k) by (rewrite <- TX, Zlen_firstn; lia).
  assert (J2 : Zlen j = Zlen (join ms) + 2) by (unfold j, json_object; rewrite Zlen_cons, Zlen_app; change (Zlen [125]) with 1; lia).
  assert (MS : ms <> []) by (intros X; rewrite X in J2; change (Zlen (join [])) with 0 in J2; lia).
  assert (HST : holds_stats (p0 :: p1 :: buf') (Some j)).
  { split; [reflexivity|]. split; [unfold j, json_object; constructor; [lia|]; apply Forall_app; split; [apply join_nz; exact NZ|constructor; [lia|constructor]]|].
    exists (skipn (Z.to_nat (k + 1)) buf'). cbn [skipn]. rewrite <- TX. rewrite <- (firstn_skipn (Z.to_nat k) buf') at 1. f_equal.
    rewrite <- NUL. unfold znth. unfold Zlen in LB2, BL. assert (LK : (Z.to_nat k < length buf')%nat) by lia.
    replace (Z.to_nat (k + 1)) with (Datatypes.S (Z.to_nat k)) by lia. clear -LK. revert LK. generalize (Z.to_nat k). induction buf' as [|x l IH]; intros q L; [cbn in L; lia|].
    destruct q; [reflexivity|]. cbn [skipn nth]. rewrite IH by (cbn in L; lia). reflexivity. }
  assert (VB : Zlen (valve_body pc (Some j)) <= 31).
  { unfold valve_body. rewrite !Zlen_cons. unfold Zlen in *. rewrite firstn_length. lia. }
  assert (HIB : Forall byte idb) by (eapply Forall_impl; [|exact HIb]; intros x Hx; cbn beta in Hx; red; lia).
  assert (P32 : 32 <= Zlen (p0 :: p1 :: buf')) by (rewrite !Zlen_cons; lia).
  assert (PD : Zlen (padded (valve_body pc (Some j))) = 32).
  { unfold padded. rewrite !Zlen_app. change (Zlen [31 - Zlen (valve_body pc (Some j))]) with 1. unfold Zlen in *. rewrite repeat_length. lia. }
  destruct (valve_to_hub S getID getCtr t t' e (p0 :: p1 :: buf') (Some j) out n il pc txs key idb ctr d o1 OpSerial hs ss m c rest He HgI HgC HI8 HIB HC6 HCb Hil Hpc Hn P32 HST VB Htx (Henc _ PD)
    Hd Hinv Hss HM HFM HH Hmax Hlt Hrest HJ HPw) as (rr & t2 & p2 & o & E & _ & HH2).
  exists rr, t2, p2, o. split; [exact E|]. cbv zeta in HH2. intros HB. destruct (HH2 HB) as (hs' & EH & _).
  assert (TXT : firstn (length j - 2) (skipn 1 j) = join ms).
  { unfold j, json_object. cbn [length skipn]. rewrite app_length. cbn [length]. replace (Datatypes.S (length (join ms) + 1) - 2)%nat with (length (join ms)) by lia.
    rewrite firstn_app, Nat.sub_diag, firstn_all, firstn_O, app_nil_r. reflexivity. }
  destruct (hub_line_json idb (znth ctr 5 mod 16) ms HIb ltac:(apply Z.mod_pos_bound; lia) MS) as (hex & HL & HX & _).
  exists hs', (join ms), hex, is.
  exists (if match o1 with OpBoiler => pc <=? 100 | _ => false end then [ABoiler pc (hm_minute m)] else []).
  split; [|split; [reflexivity|split; [exact WR|split; [exact HL|exact HX]]]].
  rewrite EH. cbn [report_acts]. replace (Zlen j >? 2) with true by lia. rewrite TXT. destruct HO1 as [-> | ->]; cbn [report_acts]; reflexivity.
Qed.

(** The hypotheses are met: a valve with two statistics, the toy cipher and the hub of [valve_to_hub_nonvacuous]. *)
Definition hl_rot : rot := Rot 4 [St [84; 124; 67; 49; 54] 297 false true; St [72] (-5) false true] 255 (Some []) false 0.
Example stats_to_line_nonvacuous :
  ok hl_rot /\ fit_alone (32 - 3) (r_stats hl_rot) /\ Forall (fun b => 16 <= b < 256) nodeA /\
  match writeJSON None true false (repeat 0 32) 32 hl_rot with
  | Some (_, buf', k) =>
    2 < k /\
    match encodeValveFrame unit (fun _ => Some nodeA) (fun u => (Some c1000, u)) tt enc_demo (Some (0 :: 0 :: buf')) (Some (repeat 0 64)) 64 4 60 300 (Some (repeat 7 16)) with
    | Some (r, _, _, Some o) =>
      match hub dec_demo (Some (repeat 7 16)) 200 OpBoiler OpSerial freshA (mkHm (firstn (Z.to_nat r) o ++ [5; 6]) (repeat 9 31) 17 18) with
      | Some (_, [ABoiler 60 17; ASerial id seq txt]) =>
        (* {"@":"8081828384858687","+":8,"T|C16":297,"H":-5} *)
        hub_line id seq txt = Some (json_object [member [64] (quoted [56; 48; 56; 49; 56; 50; 56; 51; 56; 52; 56; 53; 56; 54; 56; 55]); member [43] [56];
                                                 member [84; 124; 67; 49; 54] [50; 57; 55]; member [72] [45; 53]] ++ [13; 10])
      | _ => False end
    | _ => False end
  | None => False end.
Proof.
  split.
  - split; cbn [hl_rot r_stats r_cap r_last r_id r_cnt map].
    + repeat (constructor; [unfold plain; cbn [s_key]; repeat (constructor; [lia|]); constructor|]). constructor.
    + repeat constructor; cbn; intuition discriminate.
    + repeat (constructor; [cbn [s_val]; lia|]). constructor.
    + change (Zlen _) with 2 at 1. lia.
    + red; lia.
    + constructor.
    + lia.
  - split; [|split; [repeat (constructor; [lia|]); constructor|vm_compute; split; reflexivity]].
    intros j Hj. change (Zlen (r_stats hl_rot)) with 2 in Hj. assert (j = 0 \/ j = 1) as [-> | ->] by lia; vm_compute; discriminate.
Qed.
