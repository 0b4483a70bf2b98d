(** Model of the JSON statistics rotation.
    content/OTRadioLink/utility/OTV0P2BASE_JSONStats.cpp lines 172-559 and
    content/OTRadioLink/utility/OTV0P2BASE_JSONStats.h lines 90-352;
    printing of numbers: content/OTRadioLink/utility/OTV0P2BASE_ArduinoCompat.h lines 57-97.
    Strings are lists of characters without the terminating zero; the output buffer is a list of
    bytes and [None] an access outside it. *)
From Verif Require Import Base.

(** ** BufPrint, .h 131-164 *)

Record bp := BP { b_mem : list Z; b_cap : Z; b_size : Z; b_mark : Z }.
(** Constructor, .h 144-145. *)
Definition bp_new (buf : list Z) (bufSize : Z) : option bp :=
  do m <- wr buf 0 0 ; Some (BP m (u8 (bufSize - 1)) 0 0).
(** write, .h 147-151. *)
Definition bp_write (c : Z) (b : bp) : option bp :=
  if b_size b <? b_cap b then
    do m <- wr (b_mem b) (b_size b) c ;
    let n := u8 (b_size b + 1) in
    do m <- wr m n 0 ; Some (BP m (b_cap b) n (b_mark b))
  else Some b.
(** isFull, setMark, rewind, .h 153-159. *)
Definition bp_full (b : bp) : bool := b_size b =? b_cap b.
Definition bp_setMark (b : bp) : bp := BP (b_mem b) (b_cap b) (b_size b) (b_size b).
Definition bp_rewind (b : bp) : option bp :=
  do m <- wr (b_mem b) (b_mark b) 0 ; Some (BP m (b_cap b) (b_mark b) (b_mark b)).
(** Print::print of a string or several characters: one write each (a failed write stops a string
    print, but then all later writes fail too). *)
Fixpoint bp_puts (l : list Z) (b : bp) : option bp :=
  match l with
  | [] => Some b
  | c :: l => do b <- bp_write c b ; bp_puts l b
  end.

(** printUnsigned, ArduinoCompat.h 60-80, base 10: digits, most significant first. *)
Fixpoint udigits (fuel : nat) (n : Z) (acc : list Z) : list Z :=
  let acc := (48 + n mod 10) :: acc in                       (* 72-73 *)
  match fuel with
  | O => acc
  | S fuel => if n / 10 >? 0 then udigits fuel (n / 10) acc else acc (* 74-75 *)
  end.
(** printSigned, 81-86, for a 16-bit value (at most 5 digits). *)
Definition dec (v : Z) : list Z :=
  if v <? 0 then 45 :: udigits 5 (- v) [] else udigits 5 v [].
(** hexDigit, OTV0P2BASE_Util.h 87. *)
Definition hexDigit (v : Z) : Z := let v := Z.land 15 v in if v <? 10 then 48 + v else 97 + (v - 10).

(** ** The rotation *)

(** DescValueTuple, .h 277-302. *)
Record stat := St { s_key : list Z; s_val : Z; s_low : bool; s_chg : bool }.
Definition set_val s v := St (s_key s) v (s_low s) true.
Definition set_low s l := St (s_key s) (s_val s) l (s_chg s).
Definition clear s := St (s_key s) (s_val s) (s_low s) false.

(** Members, .h 305-348; r_stats are the nStats slots in use. *)
Record rot := Rot { r_cap : Z; r_stats : list stat; r_last : Z; r_id : option (list Z); r_en : bool; r_cnt : Z }.
Definition rot_new (cap : Z) : rot := Rot cap [] 255 None false 0.
Definition set_stats r st := Rot (r_cap r) st (r_last r) (r_id r) (r_en r) (r_cnt r).

(** isValidSimpleStatsKey, .cpp 175-194. *)
Definition badchar (c : Z) : bool := (i8 c <? 32) || (i8 c >? 126) || (c =? 34) || (c =? 92).
Definition validKey (k : option (list Z)) : bool :=
  match k with None => false | Some k => forallb (fun c => negb (badchar c)) k end.

Fixpoint key_eqb (a b : list Z) : bool :=
  match a, b with
  | [], [] => true
  | x :: a, y :: b => (x =? y) && key_eqb a b
  | _, _ => false
  end.
(** findByKey, .cpp 198-225: index of the first match. *)
Fixpoint findByKey (k : list Z) (st : list stat) : option nat :=
  match st with
  | [] => None
  | s :: st => if key_eqb (s_key s) k then Some O else option_map S (findByKey k st)
  end.
Fixpoint update (i : nat) (f : stat -> stat) (st : list stat) : list stat :=
  match st, i with
  | [], _ => []
  | s :: st, O => f s :: st
  | s :: st, S i => s :: update i f st
  end.

(** put, .cpp 268-314. *)
Definition put (k : option (list Z)) (v : Z) (low : bool) (r : rot) : rot * bool :=
  if negb (validKey k) then (r, false) else
  match k with
  | None => (r, false)
  | Some k =>
      match findByKey k (r_stats r) with
      | Some i => (set_stats r (update i (fun s => if s_val s =? v then s else set_val s v) (r_stats r)), true) (* 285-289 *)
      | None => if Zlen (r_stats r) <? r_cap r
                then (set_stats r (r_stats r ++ [St k v low true]), true) (* 296-305 *)
                else (r, false)
      end
  end.
(** putDescriptor, .cpp 245-262. *)
Definition putDescriptor (k : option (list Z)) (low : bool) (r : rot) : rot * bool :=
  if negb (validKey k) then (r, false) else
  match k with
  | None => (r, false)
  | Some k =>
      match findByKey k (r_stats r) with
      | Some i => (set_stats r (update i (fun s => set_low s low) (r_stats r)), true)
      | None => if Zlen (r_stats r) <? r_cap r
                then (set_stats r (r_stats r ++ [St k 0 low false]), true)
                else (r, false)
      end
  end.
(** remove, .cpp 229-241: the last item is moved into the slot. *)
Definition remove (k : list Z) (r : rot) : rot * bool :=
  match findByKey k (r_stats r) with
  | None => (r, false)
  | Some i =>
      let st := r_stats r in
      let st := match rev st with
                | [] => st
                | l :: _ => if Nat.eqb i (length st - 1) then st else update i (fun _ => l) st
                end in
      (set_stats r (removelast st), true)
  end.
(** setID, .h 212-216; enableCount, .h 231. *)
Definition setID (k : option (list Z)) (r : rot) : rot * bool :=
  if validKey k then (Rot (r_cap r) (r_stats r) (r_last r) k (r_en r) (r_cnt r), true) else (r, false).
Definition enableCount (e : bool) (r : rot) : rot := Rot (r_cap r) (r_stats r) (r_last r) (r_id r) e (r_cnt r).

(** changedValue, .cpp 333-339: examines [--i] slots from the end; i is uint8_t, so with no slots in
    use it starts below the array ([None]). *)
Definition anychg (n : nat) (st : list stat) : bool := (* the n last of st *)
  existsb s_chg (skipn (length st - n) st).
Definition changedValue (r : rot) : option bool :=
  match r_stats r with
  | [] => None
  | st => Some (anychg (length st - 1) st)
  end.

(** ** writeJSON, .cpp 367-559 *)

(** print, .cpp 317-330: the characters of one field. *)
Definition field (comma : bool) (s : stat) : list Z :=
  (if comma then [44] else []) ++ [34] ++ s_key s ++ [34] ++ [58] ++
  (if (s_val s >=? 0) && (s_val s <=? 9) then [48 + s_val s] else dec (s_val s)).

(** State of the loops: buffer, commaPending, the slots, the last index tried and the last index
    that fitted. *)
Record ws := WS { w_bp : bp; w_comma : bool; w_st : list stat; w_tried : Z; w_sent : Z }.

(** ++next, wrapped, .cpp 444, 476, 516. *)
Definition wrap (n next : Z) : Z := let x := u8 (next + 1) in if x >=? n then 0 else x.

(** The three loops of .cpp 441-464, 473-503 and 513-535 have one shape: visit all slots once from
    the one after [next]; pass over some ([skip]); print the others, and if over length
    ([maxlen]) rewind and go on or stop ([stopfail]), else mark, clear the flag ([clr]) and go on or
    stop ([stopok]). *)
Fixpoint loop (skip : Z -> stat -> bool) (stopfail stopok clr : bool) (maxlen : Z) (n : nat) (next : Z) (w : ws)
  : option ws :=
  match n with
  | O => Some w
  | S n =>
      let next := wrap (Zlen (w_st w)) next in
      match nth_error (w_st w) (Z.to_nat next) with
      | None => None
      | Some s =>
          if skip next s then loop skip stopfail stopok clr maxlen n next w else
          do b <- bp_puts (field (w_comma w) s) (w_bp w) ;
          if b_size b >? maxlen then
            do b <- bp_rewind b ;
            let w := WS b true (w_st w) next (w_sent w) in
            if stopfail then Some w else loop skip stopfail stopok clr maxlen n next w
          else
            let st := if clr then update (Z.to_nat next) clear (w_st w) else w_st w in
            let w := WS (bp_setMark b) true st next next in
            if stopok then Some w else loop skip stopfail stopok clr maxlen n next w
      end
  end.

(** The ID and count fields, .cpp 383-421; [sys] = the first two bytes of the node ID where the
    platform has them (V0P2BASE_EE_START_ID). *)
Definition id_text (sys : option (Z * Z)) (id : option (list Z)) : list Z :=
  match id with
  | Some t => t
  | None => match sys with
            | Some (a, b) => [hexDigit (Z.shiftr a 4); hexDigit a; hexDigit (Z.shiftr b 4); hexDigit b]
            | None => []
            end
  end.
Definition has_id (id : option (list Z)) : bool := match id with Some [] => false | _ => true end. (* 387-393 *)
Definition header (sys : option (Z * Z)) (r : rot) : list Z * bool :=
  let '(h, comma) := if has_id (r_id r)
                     then ([34; 64; 34; 58; 34] ++ id_text sys (r_id r) ++ [34], true) else ([], false) in
  if r_en r then (h ++ (if comma then [44] else []) ++ [34; 43; 34; 58] ++ dec (r_cnt r), true) (* 415-421 *)
  else (h, comma).

(** writeJSON with a non-NULL buffer: new rotation state, buffer contents and result. *)
Definition writeJSON (sys : option (Z * Z)) (maximise suppress : bool) (buf : list Z) (bufSize : Z) (r : rot)
  : option (rot * list Z * Z) :=
  if bufSize <? 10 then Some (r, buf, 0) else                (* 373 *)
  do b <- bp_new buf bufSize ;                               (* 376 *)
  let maxlen := u8 (bufSize - 3) in                          (* 378 *)
  let '(h, comma) := header sys r in
  do b <- bp_puts (123 :: h) b ;                             (* 384-421 *)
  let b := bp_setMark b in                                   (* 424 *)
  let st := r_stats r in
  let n := length st in
  do (w, last) <-
    (if Nat.eqb n 0 then Some (WS b comma st 255 (r_last r), r_last r) else
     do chg <- changedValue r ;
     let doFirst := negb (Z.land (r_cnt r) 3 =? 0) && chg in (* 430 *)
     do w <- (if doFirst
              then loop (fun _ s => negb (s_chg s)) false true (negb suppress) maxlen n (r_last r) (WS b comma st 255 255)
              else Some (WS b comma st 255 255)) ;           (* 437-465 *)
     let hi := w_tried w in
     do w <- loop (fun i s => (hi =? i) || (s_low s && negb (s_chg s) && doFirst)) true (negb maximise) (negb suppress)
               maxlen n (r_last r) (WS (w_bp w) (w_comma w) (w_st w) 255 (r_last r)) ; (* 472-503 *)
     let last := w_sent w in
     do w <- (if maximise && negb suppress && (b_size (w_bp w) <=? bufSize - (6 + 3))
              then loop (fun _ s => negb (s_chg s)) false false true maxlen n last w
              else Some w) ;                                 (* 510-536 *)
     Some (w, last)) ;
  do b <- bp_write 125 (w_bp w) ;                            (* 540 *)
  let r' cnt := Rot (r_cap r) (w_st w) last (r_id r) (r_en r) cnt in
  if bp_full b then
    do m <- wr (b_mem b) 0 0 ; Some (r' (r_cnt r), m, 0)     (* 547-553 *)
  else Some (r' (Z.land (r_cnt r + 1) 7), b_mem b, b_size b). (* 556-558 *)
