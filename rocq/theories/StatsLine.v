(** OTV0P2BASE_SystemStatsLine.h: the serial status line, and C143 about it. *)
From Verif Require Import Base JsonModel JsonBuf JsonSpec JsonWrite JsonMain JsonThm JsonMap JsonFair.

(** Tags: SensorSHT21.h 69, SensorAmbientLight.h 99, SensorOccupancy.h 137. *)
Definition kH : list Z := [72; 124; 37].            (* H|% *)
Definition kL : list Z := [76].                     (* L *)
Definition kO : list Z := [111; 99; 99; 124; 37].   (* occ|% *)

(** What one report is about: the mode, and the values behind the optional
    pointers, None for NULL. *)
Record Report := mkReport {
  sl_warm : bool; sl_bake : bool; sl_valve : option Z; sl_temp : option Z;
  sl_hum : option Z; sl_light : option Z; sl_occ : option Z }.

(** ArduinoCompat.h 60-80 with base 16, for 0 to 15: one digit, A to F in
    upper case. *)
Definition sl_hex (d : Z) : Z := if d <=? 9 then 48 + d else 65 + d - 10.

(** SystemStatsLine.h 190-219: up to the temperature ('=' is
    SERLINE_START_CHAR_STATS). *)
Definition sl_head (p : Report) : list Z :=
  [61] ++ [if sl_warm p then (if sl_bake p then 66 else 87) else 70] ++
  (match sl_valve p with Some v => dec v ++ [37] | None => [] end) ++
  (match sl_temp p with
   | Some t => [64] ++ dec (Z.shiftr t 4) ++ [67] ++ [sl_hex (Z.land t 15)]
   | None => []
   end).

(** JSONStats.h 185-186: put(sensor); a NULL sensor is undefined behaviour. *)
Definition sl_put (k : list Z) (v : option Z) (r : rot) : option rot :=
  match v with None => None | Some v => Some (fst (put (Some k) v false r)) end.

(** print of a C string: up to the first NUL; None if there is none. *)
Fixpoint sl_cstr (l : list Z) : option (list Z) :=
  match l with
  | [] => None
  | c :: l => if c =? 0 then Some [] else do r <- sl_cstr l ; Some (c :: r)
  end.

(** SystemStatsLine.h 171-346: serialStatusReport(); [js] =
    enableTrailingJSONStats, [junk] the uninitialised buf[40], [sys] the
    node's ID bytes.  New state of the rotation and the text printed; waking
    and flushing the port are not modelled. *)
Definition sl_report (sys : option (Z * Z)) (js : bool) (junk : list Z) (p : Report) (r : rot)
  : option (rot * list Z) :=
  if js then
    do r1 <- sl_put kH (sl_hum p) r ;
    do r2 <- sl_put kL (sl_light p) r1 ;
    do r3 <- sl_put kO (sl_occ p) r2 ;
    do x <- writeJSON sys true false junk 40 r3 ;
    let '(r4, buf, wrote) := x in
    do txt <- (if wrote =? 0 then Some [] else sl_cstr buf) ;
    Some (r4, sl_head p ++ [59] ++ txt ++ [13; 10])
  else Some (r, sl_head p ++ [13; 10]).

(** Reports one after another; [junk] can be different each time. *)
Fixpoint sl_reports (sys : option (Z * Z)) (js : bool) (ps : list (list Z * Report)) (r : rot)
  : option (rot * list (list Z)) :=
  match ps with
  | [] => Some (r, [])
  | (junk, p) :: ps =>
      do (r1, line) <- sl_report sys js junk p r ;
      do (r2, lines) <- sl_reports sys js ps r1 ;
      Some (r2, line :: lines)
  end.

(** ** Specification: a reader of status lines *)

Fixpoint span_digits (l : list Z) : list Z * list Z :=
  match l with
  | [] => ([], [])
  | c :: l' => if (48 <=? c) && (c <=? 57) then let (d, r) := span_digits l' in (c :: d, r) else ([], l)
  end.
Definition read_number (l : list Z) : Z * list Z :=
  match l with
  | [] => (0, [])
  | c :: l' =>
      if c =? 45 (* - *) then let (d, r) := span_digits l' in (- digits_value d, r)
      else let (d, r) := span_digits l in (digits_value d, r)
  end.
Definition hex_value (c : Z) : Z := if c <=? 57 then c - 48 else c - 55.

(** Mode letter, valve percentage if there is one, temperature in C/16 if
    there is one, and the rest of the line. *)
Definition read_temperature (l : list Z) : option (option Z * list Z) :=
  match l with
  | [] => Some (None, l)
  | c :: l' =>
      if c =? 64 (* @ *) then
        let (whole, r) := read_number l' in
        match r with
        | d :: h :: r => if d =? 67 (* C *) then Some (Some (16 * whole + hex_value h), r) else None
        | _ => None
        end
      else Some (None, l)
  end.
Definition read_line (l : list Z) : option (Z * option Z * option Z * list Z) :=
  match l with
  | eq :: mode :: l =>
      if negb (eq =? 61 (* = *)) then None else
      let '(valve, l) :=
        match l with
        | c :: _ => if (48 <=? c) && (c <=? 57) then
                      let (v, r) := read_number l in (Some v, skipn 1 (* % *) r)
                    else (None, l)
        | [] => (None, l)
        end in
      do (temp, l) <- read_temperature l ;
      Some (mode, valve, temp, l)
  | _ => None
  end.

(** What a report should be about. *)
Definition mode_letter (p : Report) : Z :=
  if sl_warm p then (if sl_bake p then 66 else 87) else 70.
Definition report_ok (p : Report) : Prop :=
  match sl_valve p with Some v => byte v | None => True end /\
  match sl_temp p with Some t => -32768 <= t < 32768 | None => True end.
Definition sensors_ok (p : Report) : Prop :=
  exists h l o, sl_hum p = Some h /\ sl_light p = Some l /\ sl_occ p = Some o /\
    byte h /\ byte l /\ byte o.
(** The members the JSON part may have. *)
Definition current (p : Report) (m : list Z) : Prop :=
  exists v, (sl_hum p = Some v /\ m = member kH (dec v)) \/
            (sl_light p = Some v /\ m = member kL (dec v)) \/
            (sl_occ p = Some v /\ m = member kO (dec v)).

(** ** Proofs: reading back *)

Lemma span_digits_app d c r : Forall is_digit d -> ~ is_digit c ->
  span_digits (d ++ c :: r) = (d, c :: r).
Proof.
  induction 1 as [|x d Hx Hd IH]; intros Hc; cbn [app span_digits].
  - unfold is_digit in Hc. destruct ((48 <=? c) && (c <=? 57)) eqn:E; [lia | reflexivity].
  - unfold is_digit in Hx. replace ((48 <=? x) && (x <=? 57)) with true by lia.
    rewrite (IH Hc). reflexivity.
Qed.

Lemma read_number_dec v c r : -32768 <= v < 32768 -> ~ is_digit c ->
  read_number (dec v ++ c :: r) = (v, c :: r).
Proof.
  intros Hv Hc. destruct (json_decimal v Hv) as [D _]. unfold decimal in D.
  destruct (v <? 0) eqn:N.
  - destruct D as (l & -> & (Hl & Hval & _)). cbn [app read_number].
    change (45 =? 45) with true. cbv iota.
    rewrite span_digits_app by assumption. rewrite Hval. f_equal. lia.
  - destruct D as (Hl & Hval & Hne). set (l := dec v) in *. clearbody l.
    assert (E : read_number (l ++ c :: r) = let (d, r) := span_digits (l ++ c :: r) in (digits_value d, r)).
    { destruct l as [|x l]; [destruct Hne as [H|(d & q & H & _)]; discriminate|].
      inversion Hl as [|? ? Hx _]; subst. unfold is_digit in Hx. cbn [app]. unfold read_number.
      replace (x =? 45) with false by lia. reflexivity. }
    rewrite E, span_digits_app by assumption. rewrite Hval. reflexivity.
Qed.

Lemma dec_digit v : 0 <= v < 32768 -> exists c l, dec v = c :: l /\ is_digit c.
Proof.
  intros Hv. destruct (json_decimal v ltac:(lia)) as [D _]. unfold decimal in D.
  replace (v <? 0) with false in D by lia. destruct D as (Hl & _ & Hne).
  destruct (dec v) as [|c l]; [destruct Hne as [H|(d & q & H & _)]; discriminate|].
  inversion Hl; subst. eauto.
Qed.

Definition hex_chk (d : Z) : bool := hex_value (sl_hex d) =? d.
Lemma hex_chk_all : below 16 hex_chk = true.
Proof. vm_compute. reflexivity. Qed.

Lemma read_temp t rest : -32768 <= t < 32768 ->
  let (whole, l) := read_number (dec (Z.shiftr t 4) ++ [67] ++ [sl_hex (Z.land t 15)] ++ rest) in
  exists h, l = 67 :: h :: rest /\ 16 * whole + hex_value h = t.
Proof.
  intros Ht. change ([67] ++ [sl_hex (Z.land t 15)] ++ rest) with (67 :: sl_hex (Z.land t 15) :: rest).
  assert (Hs : Z.shiftr t 4 = t / 16) by (rewrite Z.shiftr_div_pow2 by lia; reflexivity).
  assert (Hm : Z.land t 15 = t mod 16)
    by (change 15 with (Z.ones 4); rewrite Z.land_ones by lia; reflexivity).
  pose proof (Z.mod_pos_bound t 16 ltac:(lia)). pose proof (Z.div_mod t 16 ltac:(lia)).
  rewrite read_number_dec; [|lia | unfold is_digit; lia].
  eexists. split; [reflexivity|].
  pose proof (below_spec 16 hex_chk hex_chk_all (t mod 16) ltac:(lia)) as E. unfold hex_chk in E.
  apply Z.eqb_eq in E. rewrite Hm, E. lia.
Qed.

(** C143, reading.  Every line can be read back: whatever the mode, the valve
    opening (0 to 255) and the temperature (any 16-bit value, negative ones
    too), the reader above gets exactly those, and then the rest of the line,
    provided that does not look like a temperature or a digit. *)
Lemma read_head p rest : report_ok p ->
  match rest with c :: _ => ~ is_digit c /\ c <> 64 | [] => False end ->
  read_line (sl_head p ++ rest) = Some (mode_letter p, sl_valve p, sl_temp p, rest).
Proof.
  intros [Hv Ht] Hr. unfold sl_head.
  set (tp := match sl_temp p with
       | Some t => [64] ++ dec (Z.shiftr t 4) ++ [67] ++ [sl_hex (Z.land t 15)] | None => [] end).
  fold (mode_letter p). rewrite <- !app_assoc. cbn [app]. unfold read_line.
  destruct rest as [|c rest]; [destruct Hr|]. destruct Hr as [Hd Hc].
  assert (T : read_temperature (tp ++ c :: rest) = Some (sl_temp p, c :: rest)).
  { unfold tp. destruct (sl_temp p) as [t|].
    - rewrite <- !app_assoc. change ([64] ++ ?x) with (64 :: x). unfold read_temperature.
      change (64 =? 64) with true. cbv iota.
      pose proof (read_temp t (c :: rest) Ht) as R.
      destruct (read_number _) as [w l]. destruct R as (h & -> & R).
      change (67 =? 67) with true. cbv iota. rewrite R. reflexivity.
    - cbn [app]. unfold read_temperature. replace (c =? 64) with false by lia. reflexivity. }
  assert (NT : match tp ++ c :: rest with x :: _ => ~ is_digit x | [] => False end).
  { unfold tp. destruct (sl_temp p); cbn [app]; [unfold is_digit; lia | exact Hd]. }
  change (negb (61 =? 61)) with false. cbv iota.
  destruct (sl_valve p) as [v|].
  - destruct (dec_digit v) as (d & l & E & Hdig); [unfold byte in Hv; lia|].
    rewrite E. rewrite <- ?app_assoc. cbn [app]. rewrite <- ?app_assoc. cbn [app].
    unfold is_digit in Hdig. replace ((48 <=? d) && (d <=? 57)) with true by lia.
    replace (d :: l ++ 37 :: tp ++ c :: rest) with (dec v ++ 37 :: tp ++ c :: rest)
      by (rewrite E; reflexivity).
    rewrite read_number_dec; [|unfold byte in Hv; lia | unfold is_digit; lia].
    cbn [skipn]. rewrite T. reflexivity.
  - cbn [app]. destruct (tp ++ c :: rest) as [|x y] eqn:E; [destruct NT|].
    unfold is_digit in NT. replace ((48 <=? x) && (x <=? 57)) with false by lia. rewrite T. reflexivity.
Qed.

(** ** Proofs: the JSON part *)

Record linv (r : rot) : Prop := {
  li_ok : ok r; li_cap : r_cap r = 3; li_id : r_id r = None; li_en : r_en r = false;
  li_st : r_stats r = [] \/ exists a b c ca cb cc,
    r_stats r = [St kH a false ca; St kL b false cb; St kO c false cc] }.

Lemma linv_new : linv (rot_new 3).
Proof. constructor; try reflexivity; [apply ok_new; lia | left; reflexivity]. Qed.

Lemma sl_puts r h l o : linv r -> byte h -> byte l -> byte o ->
  exists r3, (do r1 <- sl_put kH (Some h) r ; do r2 <- sl_put kL (Some l) r1 ; sl_put kO (Some o) r2) = Some r3 /\
    ok r3 /\ r_cap r3 = 3 /\ r_id r3 = None /\ r_en r3 = false /\
    exists ca cb cc, r_stats r3 = [St kH h false ca; St kL l false cb; St kO o false cc].
Proof.
  intros [OK CP ID EN ST] Hh Hl Ho. unfold sl_put. cbn [bind].
  eexists. split; [reflexivity|].
  assert (B : forall v, byte v -> -32768 <= v < 32768) by (intros v [? ?]; lia).
  assert (KH : Forall byte kH) by (repeat (apply Forall_cons; [red; lia|]); apply Forall_nil).
  assert (KL : Forall byte kL) by (repeat (apply Forall_cons; [red; lia|]); apply Forall_nil).
  assert (KO : Forall byte kO) by (repeat (apply Forall_cons; [red; lia|]); apply Forall_nil).
  assert (P1 : ok (fst (put (Some kH) h false r))).
  { pose proof (json_put (Some kH) h false r OK (B h Hh) KH) as P. destruct (put _ _ _ _); apply P. }
  assert (P2 : ok (fst (put (Some kL) l false (fst (put (Some kH) h false r))))).
  { pose proof (json_put (Some kL) l false _ P1 (B l Hl) KL) as P. destruct (put (Some kL) _ _ _); apply P. }
  split.
  { pose proof (json_put (Some kO) o false _ P2 (B o Ho) KO) as P. destruct (put (Some kO) _ _ _); apply P. }
  clear P1 P2 OK.
  destruct r as [cap st last id en cnt]. cbn [r_cap r_id r_en r_stats] in *. subst cap id en.
  destruct ST as [-> | (a & b & c & ca & cb & cc & ->)].
  - cbn. split; [reflexivity|]. split; [reflexivity|]. split; [reflexivity|]. do 3 eexists. reflexivity.
  - assert (S1 : forall a b c ca cb cc, fst (put (Some kH) h false (Rot 3 [St kH a false ca; St kL b false cb; St kO c false cc] last None false cnt)) =
      Rot 3 [St kH h false (if a =? h then ca else true); St kL b false cb; St kO c false cc] last None false cnt).
    { intros. unfold put. change (negb (validKey (Some kH))) with false. cbv iota. cbn [r_stats].
      match goal with |- context[findByKey kH ?s] => change (findByKey kH s) with (Some 0%nat) end.
      cbn [update set_stats fst s_val s_key s_low r_cap r_last r_id r_en r_cnt r_stats set_val].
      destruct (Z.eqb_spec a0 h) as [-> | _]; reflexivity. }
    assert (S2 : forall a b c ca cb cc, fst (put (Some kL) l false (Rot 3 [St kH a false ca; St kL b false cb; St kO c false cc] last None false cnt)) =
      Rot 3 [St kH a false ca; St kL l false (if b =? l then cb else true); St kO c false cc] last None false cnt).
    { intros. unfold put. change (negb (validKey (Some kL))) with false. cbv iota. cbn [r_stats].
      match goal with |- context[findByKey kL ?s] => change (findByKey kL s) with (Some 1%nat) end.
      cbn [update set_stats fst s_val s_key s_low r_cap r_last r_id r_en r_cnt r_stats set_val].
      destruct (Z.eqb_spec b0 l) as [-> | _]; reflexivity. }
    assert (S3 : forall a b c ca cb cc, fst (put (Some kO) o false (Rot 3 [St kH a false ca; St kL b false cb; St kO c false cc] last None false cnt)) =
      Rot 3 [St kH a false ca; St kL b false cb; St kO o false (if c =? o then cc else true)] last None false cnt).
    { intros. unfold put. change (negb (validKey (Some kO))) with false. cbv iota. cbn [r_stats].
      match goal with |- context[findByKey kO ?s] => change (findByKey kO s) with (Some 2%nat) end.
      cbn [update set_stats fst s_val s_key s_low r_cap r_last r_id r_en r_cnt r_stats set_val].
      destruct (Z.eqb_spec c0 o) as [-> | _]; reflexivity. }
    rewrite S1, S2, S3. cbn [r_cap r_id r_en r_stats].
    split; [reflexivity|]. split; [reflexivity|]. split; [reflexivity|]. do 3 eexists. reflexivity.
Qed.

Lemma sl_cstr_app t r : Forall (fun c => c <> 0) t -> sl_cstr (t ++ 0 :: r) = Some t.
Proof.
  induction 1 as [|c t Hc Ht IH]; cbn [app sl_cstr]; [reflexivity|].
  replace (c =? 0) with false by lia. rewrite IH. reflexivity.
Qed.

Lemma plain_nz s : plain s -> Forall (fun c => c <> 0) s.
Proof. apply Forall_impl. intros; lia. Qed.
Lemma decimal_nz v s : decimal v s -> Forall (fun c => c <> 0) s.
Proof.
  assert (D : forall l, Forall is_digit l -> Forall (fun c => c <> 0) l)
    by (intros l; apply Forall_impl; unfold is_digit; intros; lia).
  unfold decimal. destruct (v <? 0).
  - intros (r & -> & H & _). constructor; [lia | auto].
  - intros (H & _). auto.
Qed.
Lemma object_nz ms : Forall (fun m => exists name value, m = member name value /\ plain name /\
            ((exists t, value = quoted t /\ plain t) \/ (exists v, -32768 <= v < 32768 /\ decimal v value))) ms ->
  Forall (fun c => c <> 0) (json_object ms).
Proof.
  intros H. unfold json_object. constructor; [lia|]. apply Forall_app. split; [|constructor; [lia|constructor]].
  induction H as [|m ms Hm Hms IH]; [constructor|].
  assert (M : Forall (fun c => c <> 0) m).
  { destruct Hm as (n & v & -> & Hn & Hv). unfold member, quoted.
    constructor; [lia|]. apply Forall_app. split.
    - apply Forall_app. split; [apply plain_nz, Hn | constructor; [lia|constructor]].
    - constructor; [lia|]. destruct Hv as [(t & -> & Ht) | (x & _ & Hx)].
      + unfold quoted. constructor; [lia|]. apply Forall_app.
        split; [apply plain_nz, Ht | constructor; [lia|constructor]].
      + eapply decimal_nz, Hx. }
  cbn [join]. destruct ms as [|m2 ms]; [exact M|].
  apply Forall_app. split; [exact M|]. constructor; [lia | exact IH].
Qed.

Lemma firstn_nth_split (l : list Z) n : 0 <= n < Zlen l -> znth l n = 0 ->
  l = firstn (Z.to_nat n) l ++ 0 :: skipn (S (Z.to_nat n)) l.
Proof.
  intros Hn H0. rewrite <- (firstn_skipn (Z.to_nat n) l) at 1. f_equal.
  unfold znth in H0. destruct (skipn (Z.to_nat n) l) as [|x r] eqn:E.
  - apply (f_equal (@length Z)) in E. rewrite skipn_length in E. unfold Zlen in Hn. cbn in E. lia.
  - assert (x = 0).
    { rewrite <- (firstn_skipn (Z.to_nat n) l), E in H0.
      rewrite app_nth2 in H0; rewrite firstn_length_le in * by (unfold Zlen in Hn; lia); [|lia].
      rewrite Nat.sub_diag in H0. exact H0. }
    subst x. f_equal. clear - E. revert l E. induction (Z.to_nat n) as [|k IH]; intros l E.
    + cbn [skipn] in E. subst l. reflexivity.
    + destruct l as [|y l]; [rewrite skipn_nil in E; discriminate|]. cbn [skipn] in E.
      rewrite (IH l E). reflexivity.
Qed.

Lemma sl_report_ok sys junk p r :
  linv r -> Zlen junk = 40 -> sensors_ok p ->
  match sys with Some (a, b) => byte a /\ byte b | None => True end ->
  exists r' ms, sl_report sys true junk p r =
      Some (r', sl_head p ++ [59] ++ json_object (member [64] (quoted (id_text sys None)) :: ms) ++ [13; 10]) /\
    linv r' /\ Forall (current p) ms /\ NoDup ms /\
    exists h l o r3 buf' n, sl_hum p = Some h /\ sl_light p = Some l /\ sl_occ p = Some o /\
      (do r1 <- sl_put kH (Some h) r ; do r2 <- sl_put kL (Some l) r1 ; sl_put kO (Some o) r2) = Some r3 /\
      writeJSON sys true false junk 40 r3 = Some (r', buf', n) /\ n <> 0 /\
      firstn (Z.to_nat n) buf' = json_object (member [64] (quoted (id_text sys None)) :: ms).
Proof.
  intros I Hj (h & l & o & Eh & El & Eo & Hh & Hl & Ho) Hs.
  destruct (sl_puts r h l o I Hh Hl Ho) as (r3 & E3 & OK & CP & ID & EN & ca & cb & cc & ST).
  assert (E3' := E3). remember (sl_put kH (Some h) r) as q1 eqn:Q1. unfold sl_report. rewrite Eh, El, Eo.
  rewrite <- Q1. destruct q1 as [r1|]; [|discriminate]. cbn [bind] in E3 |- *.
  destruct (sl_put kL (Some l) r1) as [r2|]; [|discriminate]. cbn [bind] in E3 |- *.
  rewrite E3. cbn [bind].
  assert (LD : lead_members sys r3 = [member [64] (quoted (id_text sys None))]).
  { unfold lead_members. rewrite ID, EN. reflexivity. }
  destruct (json_write_partial sys true false junk 40 r3 OK ltac:(red; lia) ltac:(lia)) as (r' & buf' & n & EW & EL & _ & W).
  { left. rewrite LD. discriminate. }
  destruct (write_keeps sys true false junk 40 r3 OK ltac:(red; lia) ltac:(lia)) as (r'' & b2 & n2 & EW2 & OK' & MK & CP').
  rewrite EW2 in EW. apply some_inj in EW. apply pair_inj in EW. destruct EW as [EW <-].
  apply pair_inj in EW. destruct EW as [<- <-].
  rewrite EW2. cbn [bind].
  rewrite LD in W.
  assert (LEN : Zlen (json_object [member [64] (quoted (id_text sys None))]) <= 12).
  { destruct sys as [[a b]|]; cbn [id_text]; unfold json_object, join, member, quoted;
      repeat (rewrite ?Zlen_cons, ?Zlen_app); change (Zlen (@nil Z)) with 0; lia. }
  replace ((40 <? 10) || (40 <? Zlen (json_object [member [64] (quoted (id_text sys None))]) + 2))
    with false in W by lia.
  destruct W as (is & W1 & W2 & W3 & W4 & W5 & W6 & W7 & W8 & W9 & W10 & W11 & _).
  cbn [app] in W2. set (ms := sent_members r3 is) in *.
  replace (n2 =? 0) with false by lia.
  assert (NZ : Forall (fun c => c <> 0) (json_object (member [64] (quoted (id_text sys None)) :: ms))).
  { apply object_nz. pose proof (json_members sys r3 is OK Hs W5) as J. rewrite LD in J. exact J. }
  assert (EC : sl_cstr b2 = Some (json_object (member [64] (quoted (id_text sys None)) :: ms))).
  { rewrite (firstn_nth_split b2 n2); [| rewrite EL; lia | exact W3]. rewrite W2. apply sl_cstr_app, NZ. }
  rewrite EC. cbn [bind].
  assert (CUR : Forall (current p) ms).
  { unfold ms, sent_members. apply Forall_map. rewrite Forall_forall. intros i Hi.
    specialize (W5 i Hi). rewrite ST in W5 |- *. rewrite !Zlen_cons in W5. change (Zlen (@nil stat)) with 0 in W5.
    assert (i = 0 \/ i = 1 \/ i = 2) as [-> | [-> | ->]] by lia; unfold current.
    - exists h. left. split; [exact Eh | reflexivity].
    - exists l. right; left. split; [exact El | reflexivity].
    - exists o. right; right. split; [exact Eo | reflexivity]. }
  assert (ND : NoDup ms).
  { unfold ms, sent_members. rewrite ST in W5 |- *. rewrite !Zlen_cons in W5. change (Zlen (@nil stat)) with 0 in W5.
    clear - W4 W5. induction W4 as [|i is Hni Hnd IH]; [constructor|]. cbn [map]. constructor.
    - intros Hin. apply in_map_iff in Hin. destruct Hin as (j & Ej & Hj).
      assert (i = j); [|subst; contradiction].
      assert (A : 0 <= i < 3) by (specialize (W5 i (or_introl eq_refl)); lia).
      assert (B : 0 <= j < 3) by (specialize (W5 j (or_intror Hj)); lia).
      assert (i = 0 \/ i = 1 \/ i = 2) as [-> | [-> | ->]] by lia;
      assert (j = 0 \/ j = 1 \/ j = 2) as [-> | [-> | ->]] by lia; try reflexivity;
      exfalso; unfold stat_member, member, quoted in Ej; cbn in Ej; discriminate.
    - apply IH. intros j Hj. apply W5. right; exact Hj. }
  exists r'', ms. split; [reflexivity|]. split.
  { constructor; [exact OK' | congruence | congruence | congruence |]. right.
    rewrite ST in MK. cbn [map s_key s_val s_low] in MK.
    destruct (r_stats r'') as [|[k1 v1 l1 c1] [|[k2 v2 l2 c2] [|[k3 v3 l3 c3] [|? ?]]]]; try discriminate.
    cbn [map s_key s_val s_low] in MK. injection MK as -> -> -> -> -> -> -> -> ->.
    do 6 eexists. reflexivity. }
  split; [exact CUR|]. split; [exact ND|].
  exists h, l, o, r3, b2, n2. split; [reflexivity|]. split; [reflexivity|]. split; [reflexivity|].
  split; [rewrite <- Q1; exact E3'|]. split; [exact EW2|]. split; [lia | exact W2].
Qed.

(** C143.  For every sequence of reports, from the first: every line is
    produced without touching memory outside the buffer; it can be read back
    to exactly the mode, the valve opening and the temperature reported; and
    what follows is ';', a JSON object with the node's ID and then different
    members each naming one of the sensors with its current value, and CR LF. *)
Theorem stats_line_truthful :
  forall (sys : option (Z * Z)) (ps : list (list Z * Report)),
    match sys with Some (a, b) => byte a /\ byte b | None => True end ->
    Forall (fun jp => Zlen (fst jp) = 40 /\ report_ok (snd jp) /\ sensors_ok (snd jp)) ps ->
    exists r lines, sl_reports sys true ps (rot_new 3) = Some (r, lines) /\
      Forall2 (fun jp line => exists ms,
        read_line line = Some (mode_letter (snd jp), sl_valve (snd jp), sl_temp (snd jp),
          [59] ++ json_object (member [64] (quoted (id_text sys None)) :: ms) ++ [13; 10]) /\
        Forall (current (snd jp)) ms /\ NoDup ms) ps lines.
Proof.
  intros sys ps Hs. generalize (rot_new 3), linv_new.
  induction ps as [|[junk p] ps IH]; intros r I H.
  - exists r, []. split; [reflexivity | constructor].
  - apply Forall_cons_iff in H. destruct H as [(Hj & Hr & Hp) H]. cbn [fst snd] in *.
    destruct (sl_report_ok sys junk p r I Hj Hp Hs) as (r1 & ms & E & I1 & C & N & _).
    cbn [sl_reports]. rewrite E. cbn [bind].
    destruct (IH r1 I1 H) as (r2 & lines & E2 & F). rewrite E2. cbn [bind].
    eexists _, _. split; [reflexivity|]. constructor; [|exact F].
    exists ms. cbn [snd]. split; [|split; assumption].
    apply read_head; [exact Hr|]. cbn [app]. unfold is_digit. lia.
Qed.

(** Without the JSON part the line is just the first section. *)
Theorem stats_line_plain :
  forall sys junk p r, report_ok p ->
    exists line, sl_report sys false junk p r = Some (r, line) /\
      read_line line = Some (mode_letter p, sl_valve p, sl_temp p, [13; 10]).
Proof.
  intros. eexists. split; [reflexivity|]. apply read_head; [assumption|]. unfold is_digit. lia.
Qed.

(** No sensor is left out for long: of any 12 reports in a row at least one
    shows it. *)
Definition shows (k line : list Z) : Prop :=
  exists pre ms1 ms2 v, line = pre ++ [59] ++ json_object (ms1 ++ member k (dec v) :: ms2) ++ [13; 10].

Theorem stats_line_shows_all_partial :
  forall (sys : option (Z * Z)) (ps qs : list (list Z * Report)) (k : list Z),
    match sys with Some (a, b) => byte a /\ byte b | None => True end ->
    Forall (fun jp => Zlen (fst jp) = 40 /\ report_ok (snd jp) /\ sensors_ok (snd jp)) (ps ++ qs) ->
    (12 <= length qs)%nat -> In k [kH; kL; kO] ->
    exists r lines1 lines2, sl_reports sys true (ps ++ qs) (rot_new 3) = Some (r, lines1 ++ lines2) /\
      length lines2 = length qs /\ exists line, In line lines2 /\ shows k line.
Proof.
  intros sys ps qs k Hs Hall Hlen Hk.
  (* the reports before *)
  assert (A : forall ps r qs, linv r ->
     Forall (fun jp => Zlen (fst jp) = 40 /\ report_ok (snd jp) /\ sensors_ok (snd jp)) ps ->
     exists r1 lines, linv r1 /\ sl_reports sys true (ps ++ qs) r =
       do (r2, l2) <- sl_reports sys true qs r1 ; Some (r2, lines ++ l2)).
  { clear - Hs. induction ps as [|[junk p] ps IH]; intros r qs I H.
    - exists r, []. split; [exact I|]. cbn [app]. destruct (sl_reports _ _ _ _) as [[? ?]|]; reflexivity.
    - apply Forall_cons_iff in H. destruct H as [(Hj & Hr & Hp) H]. cbn [fst snd] in *.
      destruct (sl_report_ok sys junk p r I Hj Hp Hs) as (r1 & ms & E & I1 & _).
      cbn [app sl_reports]. rewrite E. cbn [bind].
      destruct (IH r1 qs I1 H) as (r2 & lines & I2 & E2). exists r2, ((sl_head p ++ [59] ++ json_object (member [64] (quoted (id_text sys None)) :: ms) ++ [13; 10]) :: lines).
      split; [exact I2|].
      rewrite E2. destruct (sl_reports sys true qs r2) as [[? ?]|]; reflexivity. }
  apply Forall_app in Hall. destruct Hall as [Hps Hqs].
  destruct (A ps (rot_new 3) qs linv_new Hps) as (r & lines1 & I & ->). clear A Hps ps.
  (* the first of the 12, to have the statistics in place *)
  destruct qs as [|[junk p] qs]; [cbn in Hlen; lia|].
  pose proof Hqs as Hqs0. apply Forall_cons_iff in Hqs. destruct Hqs as [(Hj & Hr & Hp) Hqs]. cbn [fst snd] in *.
  destruct Hp as (h & l & o & Eh & El & Eo & Hh & Hl & Ho).
  destruct (sl_puts r h l o I Hh Hl Ho) as (r3 & E3 & OK3 & CP3 & ID3 & EN3 & ca & cb & cc & ST3).
  (* operations of the JSON model that follow *)
  set (opsof := fun jp : list Z * Report =>
     [OPut (Some kH) (match sl_hum (snd jp) with Some v => v | None => 0 end) false;
      OPut (Some kL) (match sl_light (snd jp) with Some v => v | None => 0 end) false;
      OPut (Some kO) (match sl_occ (snd jp) with Some v => v | None => 0 end) false;
      OWrite true false (fst jp) 40]).
  assert (RUN : forall qs r, linv r ->
     Forall (fun jp => Zlen (fst jp) = 40 /\ report_ok (snd jp) /\ sensors_ok (snd jp)) qs ->
     exists r2 lines, sl_reports sys true qs r = Some (r2, lines) /\ length lines = length qs /\
       forall rl log, run_log sys (flat_map opsof qs) r = Some (rl, log) ->
         rl = r2 /\ Forall2 (fun line msg => exists pre, line = pre ++ [59] ++ msg ++ [13; 10]) lines log).
  { clear - Hs. induction qs as [|[junk p] qs IH]; intros r I H.
    - exists r, []. split; [reflexivity|]. split; [reflexivity|]. intros rl log E. cbn in E.
      apply some_pair_inj in E. destruct E as [<- <-]. split; [reflexivity | constructor].
    - apply Forall_cons_iff in H. destruct H as [(Hj & Hr & Hp) H]. cbn [fst snd] in *.
      destruct (sl_report_ok sys junk p r I Hj Hp Hs)
        as (r1 & ms & E & I1 & _ & _ & h & l & o & r3 & buf' & n & Eh & El & Eo & E3 & EW & Hn & Hf).
      destruct (IH r1 I1 H) as (r2 & lines & E2 & L2 & R2).
      cbn [sl_reports]. rewrite E. cbn [bind]. rewrite E2. cbn [bind].
      eexists r2, (_ :: lines). split; [reflexivity|]. split; [cbn; lia|].
      intros rl log ER. cbn [flat_map opsof app fst snd] in ER. rewrite Eh, El, Eo in ER.
      cbn [run_log step bind] in ER. unfold sl_put in E3. cbn [bind] in E3. apply some_inj in E3.
      rewrite E3 in ER. rewrite EW in ER. cbn [bind fst snd] in ER.
      replace (n =? 0) with false in ER by lia. cbn [message] in ER. rewrite Hf in ER.
      destruct (run_log sys (flat_map opsof qs) r1) as [[rl' log']|] eqn:EL; [|discriminate].
      cbn [bind] in ER. apply some_pair_inj in ER. destruct ER as [<- <-].
      destruct (R2 rl' log' eq_refl) as [-> F]. split; [reflexivity|]. constructor; [|exact F].
      eexists. reflexivity. }
  destruct (RUN ((junk, p) :: qs) r I Hqs0) as (r2 & lines & E2 & L2 & R2).
  rewrite E2. cbn [bind]. exists r2, lines1, lines. split; [reflexivity|]. split; [exact L2|].
  (* the fairness theorem from r3 *)
  set (os := OWrite true false junk 40 :: flat_map opsof qs).
  assert (KEYS : map s_key (r_stats r3) = [kH; kL; kO]) by (rewrite ST3; reflexivity).
  assert (LL : lead_len sys r3 <= 12).
  { unfold lead_len, lead_members. rewrite ID3, EN3. cbn [has_id app].
    destruct sys as [[a b]|]; cbn [id_text]; unfold json_object, join, member, quoted;
      repeat (rewrite ?Zlen_cons, ?Zlen_app); change (Zlen (@nil Z)) with 0; lia. }
  assert (BW : forall j, Zlen j = 40 -> busy_op sys r3 (OWrite true false j 40)).
  { intros j Hj'. cbn [busy_op]. split; [red; lia|]. split; [lia|]. split; [lia|]. rewrite KEYS.
    intros k' Hk'. assert (Zlen k' <= 5).
    { destruct Hk' as [<- | [<- | [<- | []]]]; vm_compute; discriminate. } lia. }
  assert (BO : Forall (busy_op sys r3) os).
  { unfold os. constructor; [apply BW, Hj|]. clear - Hqs BW KEYS opsof.
    induction Hqs as [|[j q] qs (Hj & _ & (h & l & o & Eh & El & Eo & Hh & Hl & Ho)) _ IH]; [constructor|].
    cbn [flat_map opsof app fst snd] in *. rewrite Eh, El, Eo.
    assert (B : forall k v, In k [kH; kL; kO] -> byte v -> busy_op sys r3 (OPut (Some k) v false)).
    { intros k v Hk [? ?]. cbn [busy_op]. rewrite KEYS. split; [exact Hk | lia]. }
    constructor; [apply B; [left; reflexivity | exact Hh]|].
    constructor; [apply B; [right; left; reflexivity | exact Hl]|].
    constructor; [apply B; [right; right; left; reflexivity | exact Ho]|].
    constructor; [apply BW, Hj | exact IH]. }
  assert (WR : 12 <= writes os).
  { assert (G : forall qs, writes (flat_map opsof qs) = Z.of_nat (length qs)).
    { clear. induction qs as [|[j q] qs IH]; [reflexivity|].
      unfold writes in *. cbn [flat_map opsof app filter length]. rewrite Zlen_cons, IH. lia. }
    unfold os, writes. cbn [filter]. rewrite Zlen_cons. fold (writes (flat_map opsof qs)).
    rewrite G. cbn [length] in Hlen. lia. }
  assert (IX : exists i, 0 <= i < Zlen (r_stats r3) /\ s_low (stat_at (r_stats r3) i) = false /\
                         s_key (stat_at (r_stats r3) i) = k).
  { rewrite ST3. rewrite !Zlen_cons. change (Zlen (@nil stat)) with 0.
    destruct Hk as [<- | [<- | [<- | []]]]; [exists 0 | exists 1 | exists 2];
      (split; [lia|]; split; reflexivity). }
  destruct IX as (i & Hi & Hlow & Hkey).
  assert (L3 : Zlen (r_stats r3) = 3) by (rewrite ST3; reflexivity).
  destruct (json_rotation_fair_partial sys os r3 i OK3 BO Hi Hlow ltac:(rewrite L3; lia))
    as (rl & log & ER & _ & msg & Hin & Hinc).
  (* the same messages as the reports *)
  destruct (R2 rl log) as [_ F].
  { cbn [flat_map opsof app fst snd]. rewrite Eh, El, Eo. cbn [run_log step bind].
    unfold sl_put in E3. cbn [bind] in E3. apply some_inj in E3. rewrite E3. exact ER. }
  rewrite Hkey in Hinc. destruct Hinc as (ms1 & ms2 & v & _ & ->).
  clear - F Hin. induction F as [|line msg lines log (pre & ->) F IH]; [destruct Hin|].
  destruct Hin as [E | Hin].
  - eexists. split; [left; reflexivity|]. rewrite E. exists pre, ms1, ms2, v. reflexivity.
  - destruct (IH Hin) as (line' & H1 & H2). exists line'. split; [right; exact H1 | exact H2].
Qed.

(** Case: "=W20%@-3C9;{"@":"abcd",...}": -2.4375 C = -39/16. *)
Example stats_line_case :
  let p := mkReport true false (Some 20) (Some (-39)) (Some 55) (Some 180) (Some 0) in
  report_ok p /\ sensors_ok p /\
  sl_head p = [61; 87; 50; 48; 37; 64; 45; 51; 67; 57] /\
  read_line (sl_head p ++ [13; 10]) = Some (87, Some 20, Some (-39), [13; 10]) /\
  exists r line, sl_report (Some (171, 205)) true (repeat 0 40) p (rot_new 3) = Some (r, line) /\
    Zlen line = 42.
Proof.
  split; [split; cbn; unfold byte; lia|].
  split; [exists 55, 180, 0; repeat split; lia|].
  split; [reflexivity|]. split; [vm_compute; reflexivity|].
  eexists _, _. split; [vm_compute; reflexivity | reflexivity].
Qed.

(** The sensors are documented as optional, each can be NULL (and NULL is the
    default), but with the JSON part on (also the default) they are used
    unconditionally. *)
Theorem stats_line_optional_refuted :
  forall sys junk warm bake v t l o r,
    sl_report sys true junk (mkReport warm bake v t None l o) r = None.
Proof. reflexivity. Qed.

(** "Truncated": -2.4375 C is shown as "-3C9", whole degrees towards minus
    infinity (the reader above adds the sixteenths back), not towards zero. *)
Theorem stats_line_truncated_refuted :
  exists p, sl_temp p = Some (-39) /\ sl_head p = [61; 70; 64; 45; 51; 67; 57] /\ Z.quot (-39) 16 = -2.
Proof. exists (mkReport false false None (Some (-39)) None None None). split; [reflexivity|]. split; vm_compute; reflexivity. Qed.

Print Assumptions stats_line_truthful.
Print Assumptions stats_line_shows_all_partial.
