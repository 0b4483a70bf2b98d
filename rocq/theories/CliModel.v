(** Model of the serial command-line interface:
    /repo/content/OTRadioLink/utility/OTV0P2BASE_CLI.{h,cpp} (the AVR build), the hex
    parsing of OTV0P2BASE_Util.{h,cpp}, ensureIDCreated of OTV0P2BASE_Security.cpp and the
    FHT8V house-code command of OTRadValve_FHT8VRadValve.cpp 783-812.

    Characters are integers.  A command line is the list of the characters delivered by the
    reader, i.e. without the terminating NUL; it never contains NUL itself (the reader drops
    everything outside 32..126), which is why tokens are simply sub-lists.
    Not modelled: the echo of typed characters, the prompt, flushing and the entropy pool. *)
From Coq Require Import String.
From Verif Require Import Base EepromModel RtcModel StatsModel FhtSyncModel.
Local Close Scope string_scope.

Definition str := list Z.

(** ** Parsing helpers *)

(** parseHexDigit, Util.h 99-105. *)
Definition parseHexDigit (c : Z) : Z :=
  if (48 <=? c) && (c <=? 57) then c - 48
  else if (97 <=? c) && (c <=? 102) then c - 97 + 10
  else if (65 <=? c) && (c <=? 70) then c - 65 + 10
  else -1.
(** parseHexByte, Util.cpp 35-48; [None] is a NULL pointer. *)
Definition parseHexByte (t : option str) : Z :=
  match t with
  | None => -1                                                        (* 37 *)
  | Some [] => -1                                                     (* 39 *)
  | Some (c0 :: r) =>
      let d0 := parseHexDigit c0 in
      if d0 =? -1 then -1 else                                        (* 41 *)
      match r with
      | [] => d0                                                      (* 44 *)
      | c1 :: _ => let d1 := parseHexDigit c1 in
                   if d1 =? -1 then -1                                (* 46 *)
                   else Z.lor (Z.shiftl d0 4) d1                      (* 47 *)
      end
  end.
(** hexDigit / hexDigits, Util.h 87, 91. *)
Definition hexDigit (v : Z) : Z := let v := Z.land 15 v in if v <? 10 then 48 + v else 97 + (v - 10).
Definition hexDigits (v : Z) : str := [hexDigit (Z.shiftr v 4); hexDigit v].
(** validIDByte, Security.h 65. *)
Definition validIDByte (v : Z) : bool := let v := u8 v in negb (0 =? Z.land 128 v) && negb (255 =? v).

(** strtok_r with the delimiter " " (avr-libc): the next token and what follows the
    delimiter ending it; [None] when only spaces are left. *)
Fixpoint skip_sp (s : str) : str :=
  match s with [] => [] | c :: r => if c =? 32 then skip_sp r else s end.
Fixpoint tok_split (s : str) : str * str :=
  match s with
  | [] => ([], [])
  | c :: r => if c =? 32 then ([], r) else let '(t, q) := tok_split r in (c :: t, q)
  end.
Definition strtok (s : str) : option str * str :=
  match skip_sp s with
  | [] => (None, [])
  | s' => let '(t, r) := tok_split s' in (Some t, r)
  end.

(** atoi (avr-libc): optional white space and sign, then decimal digits, in 16-bit
    arithmetic that wraps around. *)
Fixpoint skip_ws (s : str) : str :=
  match s with [] => [] | c :: r => if (c =? 32) || ((9 <=? c) && (c <=? 13)) then skip_ws r else s end.
Fixpoint atoi_digits (acc : Z) (s : str) : Z :=
  match s with
  | [] => acc
  | c :: r => if (48 <=? c) && (c <=? 57) then atoi_digits (i16 (acc * 10 + (c - 48))) r else acc
  end.
Definition atoi (s : str) : Z :=
  match skip_ws s with
  | [] => 0
  | c :: r => if c =? 45 then i16 (- atoi_digits 0 r)
              else if c =? 43 then atoi_digits 0 r
              else atoi_digits 0 (c :: r)
  end.

(** ** What a command prints (items, not characters) *)
Inductive Item := TStr (s : string) | TDec (z : Z) | THex (z : Z) | TNl.
Definition Invalid : Item := TStr "Invalid, ignored."%string.        (* CLI.cpp 47 *)
(** A command's result: does the caller print the status line, and the output. *)
Definition Res := (bool * list Item)%type.

(** ** SetNodeAssoc::doCommand, CLI.cpp 216-295 *)

(** The token loops of 271-280 and 437-446.  [id] starts as the uninitialised local array;
    [None] is the "abrupt exit".  Position [i] is left as it was if there is no token. *)
Fixpoint parse_id (n : nat) (tok : option str) (rest : str) (id : list Z) (i : Z) : option (list Z) :=
  match n with
  | O => Some id
  | S n' =>
      match tok with
      | Some t =>
          let ib := parseHexByte (Some t) in
          if (-1 =? ib) || negb (validIDByte ib) then None
          else let '(tok', rest') := strtok rest in
               parse_id n' tok' rest' (firstn (Z.to_nat i) id ++ [u8 ib] ++ skipn (S (Z.to_nat i)) id) (i + 1)
      | None => let '(tok', rest') := strtok rest in parse_id n' tok' rest' id (i + 1)
      end
  end.

(** 227-241: the listing for "A ?". *)
Fixpoint list_assocs (i : Z) (n : nat) : M (list Item) :=
  match n with
  | O => ret []
  | S n' =>
      run o <- getNodeAssociation i;
      let id := match o with Some id => id | None => repeat 0 8 end in
      run r <- list_assocs (i + 1) n';
      ret ([THex (znth id 0); TStr " "; THex (znth id 1); TStr " ... "; THex (znth id 7); TNl] ++ r)
  end.

Definition cmd_assoc (junk : list Z) (line : str) : M Res :=
  let buflen := Zlen line in
  match (if buflen >=? 3 then strtok (skipn 2 line) else (None, [])) with
  | (Some tok1, last) =>
      if 63 =? znth tok1 0 then                                       (* 224 '?' *)
        run nn <- countNodeAssociations;
        run ls <- list_assocs 0 (Z.to_nat nn);
        match strtok last with                                        (* 243 *)
        | (Some tok2, _) =>
            let p1 := parseHexByte (Some tok2) in
            if -1 =? p1 then ret (false, TStr "IDs:" :: ls)
            else run o <- getNextMatchingNodeID 0 (Some [u8 p1]) 1;
                 ret (false, TStr "IDs:" :: ls ++
                        [TDec (match o with Some (j, _) => j | None => -1 end); TNl])
        | (None, _) => ret (false, TStr "IDs:" :: ls)
        end
      else if 42 =? znth tok1 0 then                                  (* 256 '*' *)
        run _ <- clearAllNodeAssociations; ret (false, [TStr "Cleared"])
      else if buflen >=? 25 then                                      (* 262 *)
        match parse_id 8 (Some tok1) last junk 0 with
        | None => ret (false, [Invalid])                              (* 277 *)
        | Some id =>
            run index <- addNodeAssociation id;                       (* 282 *)
            if index >=? 0 then ret (false, [TStr "Index "; TDec index])
            else ret (false, [Invalid])                               (* 289 *)
        end
      else ret (false, [Invalid])
  | (None, _) => ret (false, [Invalid])
  end.

(** ** DumpStats::doCommand, CLI.cpp 300-374 *)
Definition dump_label (setN : Z) : string :=
  if (setN =? 0) || (setN =? 1) then "C" else if (setN =? 2) || (setN =? 3) then "ambl"
  else if (setN =? 4) || (setN =? 5) then "occ%" else if (setN =? 6) || (setN =? 7) then "RH%"
  else if (setN =? 10) || (setN =? 11) then "u" else "?".
Fixpoint dump_hours (setN thisHH hh : Z) (n : nat) : M (list Item) :=
  match n with
  | O => ret []
  | S n' =>
      run v <- ee_getStat setN hh;
      run r <- dump_hours setN thisHH (hh + 1) n';
      ret ([if 255 =? v then TStr "-"
            else if (setN =? 0) || (setN =? 1) then TDec (Z.shiftr (expandTempC16 v + 8) 4)
            else TDec v]
           ++ (if hh =? thisHH then [TStr "<"] else []) ++ [TStr " "] ++ r)
  end.
Definition cmd_dump (thisHH : Z) (line : str) : M Res :=
  match (if Zlen line >=? 3 then strtok (skipn 2 line) else (None, [])) with
  | (Some tok1, _) =>
      let setN := u8 (atoi tok1) in
      run hs <- dump_hours setN thisHH 0 24;
      ret (false, [TStr (dump_label setN); TStr " ";
                   TStr (if negb (Z.land setN 1 =? 0) then "smoothed" else "last"); TStr " "] ++ hs ++ [TNl])
  | (None, _) => ret (false, [])
  end.

(** ** GenericParam::doCommand, CLI.cpp 377-405 *)
Definition RAW_START := 32.            (* EEPROM.h 150 *)
Definition RAW_LEN := 32.              (* EEPROM.h 152 *)
Definition cmd_param (line : str) : M Res :=
  match (if Zlen line >=? 3 then strtok (skipn 2 line) else (None, [])) with
  | (Some tok1, last) =>
      let paramN := u8 (atoi tok1) in
      if paramN >? RAW_LEN then ret (false, [Invalid])                (* 386 *)
      else match strtok last with
      | (None, _) => run v <- ee_read (RAW_START + paramN); ret (true, [TDec v; TNl])
      | (Some tok2, _) =>
          let v := atoi tok2 in
          if (v <? 0) || (v >? 255) then ret (false, [Invalid])       (* 398 *)
          else run _ <- smart_update (RAW_START + paramN) (u8 v); ret (true, [])
      end
  | (None, _) => ret (false, [Invalid])
  end.

(** ** ensureIDCreated, Security.cpp 56-95 *)
(** [draw]: the inner loop 70-80; [rnds] are the bytes getSecureRandomByte will deliver.
    [None]: all of them were rejected and it is still drawing. *)
Fixpoint draw (rnds : list Z) : option (Z * list Z) :=
  match rnds with
  | [] => None
  | r :: q => let v := Z.lor 128 r in if 255 =? v then draw q else Some (v, q)
  end.
(** Result: [None] still drawing; [Some b] as returned. *)
Fixpoint ensure_loop (force : bool) (i : Z) (n : nat) (rnds : list Z) : M (option bool) :=
  match n with
  | O => ret (Some true)
  | S n' =>
      run v <- ee_read (ID_START + i);
      run q <- (if force || (255 =? v) then
                  match draw rnds with
                  | None => ret None
                  | Some (new, q) => run _ <- smart_update (ID_START + i) new; ret (Some q)
                  end
                else ret (Some rnds));
      match q with
      | None => ret None
      | Some q => run v2 <- ee_read (ID_START + i);
                  if negb (validIDByte v2) then ret (Some false)       (* 82-91 *)
                  else ensure_loop force (i + 1) n' q
      end
  end.
Definition ensureIDCreated (force : bool) (rnds : list Z) : M (option bool) := ensure_loop force 0 8 rnds.

(** ** NodeID::doCommand, CLI.cpp 408-420, and NodeIDWithSet::doCommand, 423-456 *)
Definition show_id (id : list Z) : list Item := TStr "ID:" :: flat_map (fun b => [TStr " "; THex b]) id ++ [TNl].
(** [None]: still drawing random bytes. *)
Definition cmd_id (rnds : list Z) (line : str) : M (option Res) :=
  run o <- (if (3 =? Zlen line) && (42 =? znth line 2) then ensureIDCreated true rnds else ret (Some true));
  match o with
  | None => ret None
  | Some _ => run id <- read_block ID_START 8; ret (Some (true, show_id id))
  end.
Definition cmd_id_set (junk rnds : list Z) (line : str) : M (option Res) :=
  match (if Zlen line >=? 25 then strtok (skipn 2 line) else (None, [])) with
  | (Some tok1, last) =>
      match parse_id 8 (Some tok1) last junk 0 with
      | None => ret (Some (false, [Invalid]))
      | Some id => run _ <- update_bytes ID_START id; ret (Some (true, [TNl]))
      end
  | (None, _) => cmd_id rnds line
  end.

(** ** SetSecretKey::doCommand, CLI.cpp 464-534.  [kc]: the keysCleared callback, if any. *)
Definition toupper (c : Z) : Z := if (97 <=? c) && (c <=? 122) then c - 32 else c.
Fixpoint parse_key (n : nat) (rest : str) : option (list Z) :=        (* 505-511 *)
  match n with
  | O => Some []
  | S n' => let '(tok, rest') := strtok rest in
            let ib := parseHexByte tok in
            if -1 =? ib then None
            else match parse_key n' rest' with Some l => Some (u8 ib :: l) | None => None end
  end.
Definition cmd_key (kc : option (M bool)) (line : str) : M Res :=
  let buflen := Zlen line in
  match (if buflen >=? 5 then strtok (skipn 2 line) else (None, [])) with
  | (Some tok1, last) =>
      if 66 =? toupper (znth tok1 0) then                             (* 'B' *)
        match strtok last with
        | (Some tok2, last2) =>
            if znth tok2 0 =? 42 then                                 (* '*' *)
              run _ <- setKey None;
              run _ <- (match kc with Some f => f | None => ret true end);
              ret (false, [TStr "B clear"])
            else if buflen >=? 35 then
              let k0 := u8 (parseHexByte (Some tok2)) in              (* 503: not checked *)
              match parse_key 15 last2 with
              | None => ret (false, [Invalid])                        (* 509 *)
              | Some ks => run ok <- setKey (Some (k0 :: ks));
                           ret (false, [TStr (if ok then "B set" else "!B")])
              end
            else ret (false, [Invalid])
        | (None, _) => ret (false, [Invalid])
        end
      else ret (false, [Invalid])
  | (None, _) => ret (false, [Invalid])
  end.

(** ** SetTime::doCommand, CLI.cpp 537-554 (the int arguments are converted to uint8_t). *)
Definition cmd_time (c : Clock) (line : str) : M (Clock * Res) :=
  match (if Zlen line >=? 5 then strtok (skipn 2 line) else (None, [])) with
  | (Some tok1, last) =>
      match strtok last with
      | (Some tok2, _) =>
          run (c', ok) <- setHoursMinutesLT c (u8 (atoi tok1)) (u8 (atoi tok2));
          ret (c', (true, if ok then [] else [Invalid]))
      | (None, _) => ret (c, (true, []))
      end
  | (None, _) => ret (c, (true, []))
  end.

(** ** SetTXPrivacy::doCommand, CLI.cpp 558-569 *)
Definition TX_ENABLE := 28.           (* EEPROM.h 136 *)
Definition cmd_priv (line : str) : M Res :=
  match (if Zlen line >=? 3 then strtok (skipn 2 line) else (None, [])) with
  | (Some tok1, _) => run _ <- smart_update TX_ENABLE (u8 (atoi tok1)); ret (true, [])
  | (None, _) => ret (true, [])
  end.

(** ** ZapStats::doCommand, CLI.cpp 573-581; [ms]: msRemainingThisBasicCycle(). *)
Definition cmd_zap (ms : Z) (line : str) : M Res :=
  run done <- zapStats (u16 (Z.max 1 (Z.quot ms 2 - 20)));
  ret (false, [TStr (if done then "Zapped." else "Not finished.")]).

(** ** SetHouseCode::doCommand, FHT8VRadValve.cpp 783-812; [None]: no valve attached.
    The two EEPROM bytes are the [nv1], [nv2] fields of the valve state. *)
Definition cmd_house (v : option fv) (line : str) : option fv * Res :=
  match v with
  | None => (None, (false, [Invalid]))
  | Some s =>
      match (if Zlen line >=? 5 then strtok (skipn 2 line) else (None, [])) with
      | (Some tok1, last) =>
          match strtok last with
          | (Some tok2, _) =>
              let hc1 := atoi tok1 in let hc2 := atoi tok2 in
              if (hc1 <? 0) || (hc1 >? 99) || (hc2 <? 0) || (hc2 >? 99) then (Some s, (true, [Invalid]))
              else (Some (nvSetHC2 (nvSetHC1 s (u8 hc1)) (u8 hc2)), (true, []))
          | (None, _) => (Some s, (true, []))
          end
      | (None, _) => (Some (if Zlen line <? 2 then nvClearHC s else s), (true, []))
      end
  end.

(** ** promptAndReadCommandLine, CLI.cpp 84-201 *)
Definition MIN_CLI_POLL_SCT := 25.    (* .h 68: 200 / SUBCYCLE_TICK_MS_RN (8) *)
(** What one turn of the reading loop finds: a received character, or none, and then the
    sub-cycle time it reads. *)
Inductive Poll := PRx (c : Z) | PIdle (sct : Z).
(** [OUB]: access outside the buffer; [OWait]: still in the loop when the polls run out. *)
Inductive ReadOut := OUB | OWait | ODone (n : Z) (buf : list Z).

Definition read_done (n : Z) (buf : list Z) : ReadOut :=
  if n >? 0 then                                                      (* 170 *)
    match rd buf 0 with
    | None => OUB
    | Some c =>
        if negb ((c >? 32) && (c <=? 122)) then ODone 0 buf           (* 173-180 *)
        else match blit buf n [0] with Some b => ODone n b | None => OUB end   (* 184 *)
    end
  else ODone n buf.
Fixpoint read_loop (maxSCT bufsize : Z) (polls : list Poll) (n : Z) (buf : list Z) : ReadOut :=
  if negb (n <? bufsize - 1) then read_done n buf else                (* 109 *)
  match polls with
  | [] => OWait
  | PRx ic :: ps =>
      if (13 =? ic) || (10 =? ic) then read_done n buf                (* 115 *)
      else if (ic <? 32) || (ic >? 126) then read_loop maxSCT bufsize ps n buf    (* 130 *)
      else
        let ic := if 0 =? n then toupper ic else ic in                (* 135 *)
        if (0 =? n) && negb (43 =? ic) && negb (63 =? ic) && ((ic <? 65) || (ic >? 90))
        then read_loop maxSCT bufsize ps n buf                        (* 136 *)
        else match blit buf n [ic] with
             | Some b => read_loop maxSCT bufsize ps (n + 1) b        (* 139 *)
             | None => OUB
             end
  | PIdle sct :: ps =>
      if sct >=? maxSCT then read_done 0 buf                          (* 147-151 *)
      else read_loop maxSCT bufsize ps n buf
  end.
(** [buf]: the scratch space ([None]: NULL); [sct0]: the sub-cycle time on entry. *)
Definition read_line (maxSCT sct0 : Z) (buf : option (list Z)) (polls : list Poll) : ReadOut :=
  match buf with
  | None => ODone 0 []                                                (* 86 *)
  | Some b =>
      let bufsize := Zlen b in
      if bufsize <? 2 then ODone 0 b else
      let target := if maxSCT <=? MIN_CLI_POLL_SCT then 0 else u8 (maxSCT - 1 - MIN_CLI_POLL_SCT) in
      if sct0 >=? target then ODone 0 b                               (* 93 *)
      else read_loop maxSCT bufsize polls 0 b
  end.

(** ** The CLI activity timer, CLI.cpp 54-67, and safeDecIfNZWeak, Concurrency.h 209-215.
    The decrement is a load followed by a compare-and-exchange; [isr] is whatever other
    threads or interrupts store in between ([None]: nothing). *)
Definition CLI_TIMEOUT_M := 2.
Definition cli_reset (t : Z) : Z := CLI_TIMEOUT_M.
Definition cli_off (t : Z) : Z := 0.
Definition cli_active (t : Z) : bool := negb (0 =? t).
Definition cli_count (isr : option Z) (t : Z) : Z :=
  let o := t in
  let t := match isr with Some v => v | None => t end in
  if 0 =? o then t else if t =? o then u8 (o - 1) else t.
