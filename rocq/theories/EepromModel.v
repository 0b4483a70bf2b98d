(** Model of EEPROM access on the ATmega328P (V0P2BASE_EEPROM_SPLIT_ERASE_WRITE
    defined): /repo/content/OTRadioLink/utility/OTV0P2BASE_EEPROM.{h,cpp}, the
    unary codecs of OTV0P2BASE_Stats.{h,cpp}, and the key / node-association
    functions of OTV0P2BASE_Security.{h,cpp}.

    A program is run against an EEPROM and a *budget*: the number of physical
    EEPROM operations (erase / write / erase+write of one byte) that complete
    before the power fails.  Each such byte operation is atomic; a program whose
    budget runs out stops there ([None]), leaving the EEPROM as it then is.
    With enough budget there is no power failure. *)
From Verif Require Import Base.

Inductive EvKind := KErase | KWrite | KEraseWrite.
(** Content, and the physical operations performed so far (newest first). *)
Record EE := mkEE { mem : Z -> Z; evs : list (EvKind * Z) }.

Definition M (A : Type) := EE -> nat -> EE * option (A * nat).
Definition ret {A} (a : A) : M A := fun s f => (s, Some (a, f)).
Definition mbind {A B} (m : M A) (k : A -> M B) : M B := fun s f =>
  match m s f with
  | (s', Some (a, f')) => k a s' f'
  | (s', None) => (s', None)
  end.
Notation "'run' x <- m ; e" := (mbind m (fun x => e))
  (at level 200, x pattern, m at level 100, e at level 200).

Definition upd (m : Z -> Z) (p v : Z) : Z -> Z := fun q => if q =? p then v else m q.

(** Effect of the three physical operations on one byte: erase sets all bits,
    write-only can only clear bits, erase+write stores the value. *)
Definition phys (k : EvKind) (old v : Z) : Z :=
  match k with KErase => 255 | KWrite => Z.land old v | KEraseWrite => v end.
Definition ee_op (k : EvKind) (p v : Z) : M unit := fun s f =>
  match f with
  | O => (s, None)
  | S f' => (mkEE (upd (mem s) p (phys k (mem s p) v)) ((k, p) :: evs s), Some (tt, f'))
  end.
(** eeprom_read_byte (avr-libc). *)
Definition ee_read (p : Z) : M Z := fun s f => (s, Some (mem s p, f)).

(** eeprom_smart_erase_byte, OTV0P2BASE_EEPROM.cpp 64-108 (split erase/write). *)
Definition smart_erase (p : Z) : M bool :=
  run old <- ee_read p;                                              (* 84-85 *)
  if negb (255 =? old) then                                          (* 86 *)
    run _ <- ee_op KErase p 255; ret true                            (* 91-104 *)
  else ret false.                                                    (* 106 *)

(** eeprom_smart_clear_bits, OTV0P2BASE_EEPROM.cpp 117-165. *)
Definition smart_clear_bits (p mask : Z) : M bool :=
  run old <- ee_read p;                                              (* 139-140 *)
  let new := Z.land old mask in                                      (* 141 *)
  if negb (old =? new) then                                          (* 142 *)
    run _ <- ee_op KWrite p new; ret true                            (* 145-161 *)
  else ret false.                                                    (* 163 *)

(** eeprom_smart_update_byte, OTV0P2BASE_EEPROM.cpp 44-56. *)
Definition smart_update (p value : Z) : M bool :=
  if 255 =? value then smart_erase p else                            (* 47 *)
  run old <- ee_read p;                                              (* 49 *)
  if value =? old then ret false else                                (* 50 *)
  if value =? Z.land value old then smart_clear_bits p value else    (* 52 *)
  run _ <- ee_op KEraseWrite p value; ret true.                      (* 54-55 *)

(** eeprom_read_block: [n] bytes from [p]. *)
Fixpoint read_block (p : Z) (n : nat) : M (list Z) :=
  match n with
  | O => ret []
  | S n' => run b <- ee_read p; run r <- read_block (p + 1) n'; ret (b :: r)
  end.

(** ** Unary codecs: OTV0P2BASE_Stats.h 568-577, .cpp 192-214. *)
Definition unary1_encode (n : Z) : Z := if n >=? 8 then 0 else u8 (Z.shiftl 255 n).       (* .h 570 *)
Definition unary2_encode (n : Z) : Z := if n >=? 16 then 0 else u16 (Z.shiftl 65535 n).   (* .h 571 *)
Definition unary1_decode (v : Z) : Z :=                                        (* .cpp 192-207 *)
  if v =? 255 then 0 else if v =? 254 then 1 else if v =? 252 then 2 else
  if v =? 248 then 3 else if v =? 240 then 4 else if v =? 224 then 5 else
  if v =? 192 then 6 else if v =? 128 then 7 else if v =? 0 then 8 else -1.
Definition unary2_decode (vm vl : Z) : Z :=                                    (* .cpp 209-214 *)
  if 255 =? vm then unary1_decode vl
  else if 0 =? vl then i8 (unary1_decode vm + 8)
  else -1.

(** ** Security store: OTV0P2BASE_Security.cpp *)
Definition KEY_START := 112.        (* OTV0P2BASE_EEPROM.h 177 *)
Definition KEY_LEN := 16%nat.       (* .h 178 *)
Definition ASSOC_START := 768.      (* .h 216 *)
Definition ASSOC_SIZE := 32.        (* .h 217 *)
Definition ASSOC_MAX := 8.          (* .h 233 *)
Definition ID_START := 20.          (* .h 131 *)
Definition row_addr (i : Z) : Z := ASSOC_START + i * ASSOC_SIZE.

(** The loop "for j: eeprom_smart_update_byte(p++, *src++)". *)
Fixpoint update_bytes (p : Z) (l : list Z) : M unit :=
  match l with
  | [] => ret tt
  | b :: r => run _ <- smart_update p b; update_bytes (p + 1) r
  end.
(** The loop "for j: eeprom_smart_erase_byte(p++)". *)
Fixpoint erase_bytes (p : Z) (n : nat) : M unit :=
  match n with
  | O => ret tt
  | S n' => run _ <- smart_erase p; erase_bytes (p + 1) n'
  end.

(** checkPrimaryBuilding16ByteSecretKey, 131-137. *)
Fixpoint check_bytes (p : Z) (l : list Z) : M bool :=
  match l with
  | [] => ret true
  | b :: r => run v <- ee_read p; run ok <- check_bytes (p + 1) r; ret ((b =? v) && ok)
  end.

(** setPrimaryBuilding16ByteSecretKey, 107-126 ([key] has 16 bytes). *)
Definition setKey (key : option (list Z)) : M bool :=
  match key with
  | None => run _ <- erase_bytes KEY_START KEY_LEN; ret true         (* 110-115 *)
  | Some k => run _ <- update_bytes KEY_START k;                     (* 119-121 *)
              check_bytes KEY_START k                                (* 124 *)
  end.

(** getPrimaryBuilding16ByteSecretKey, 144-154: (key bytes read, result). *)
Definition getKey : M (list Z * bool) :=
  run k <- read_block KEY_START KEY_LEN;                             (* 147-149 *)
  ret (k, existsb (fun b => negb (255 =? b)) k).                     (* 150-153 *)

(** clearAllNodeAssociations, 160-172. *)
Fixpoint clear_rows (i : Z) (n : nat) : M unit :=
  match n with
  | O => ret tt
  | S n' => run _ <- smart_erase (row_addr i); clear_rows (i + 1) n'
  end.
Definition clearAllNodeAssociations : M unit := clear_rows 0 8.

(** countNodeAssociations, 177-185. *)
Fixpoint count_rows (i : Z) (n : nat) : M Z :=
  match n with
  | O => ret ASSOC_MAX                                               (* 184 *)
  | S n' => run b <- ee_read (row_addr i);
            if 255 =? b then ret i else count_rows (i + 1) n'        (* 183 *)
  end.
Definition countNodeAssociations : M Z := count_rows 0 8.

(** getNodeAssociation, 192-199 (nodeID non-NULL). *)
Definition getNodeAssociation (index : Z) : M (option (list Z)) :=
  run c <- countNodeAssociations;
  if index >=? c then ret None else                                  (* 194 *)
  run id <- read_block (row_addr index) 8; ret (Some id).            (* 195-198 *)

(** addNodeAssociation, 208-227 ([id] has 8 bytes): index or -1. *)
Fixpoint add_rows (id : list Z) (i : Z) (n : nat) : M Z :=
  match n with
  | O => ret (-1)                                                    (* 226 *)
  | S n' =>
      run b <- ee_read (row_addr i);
      if b =? 255 then                                               (* 213 *)
        run _ <- update_bytes (row_addr i) id;                       (* 215-216 *)
        run _ <- erase_bytes (row_addr i + 8) 24;                    (* 217-220 *)
        ret i                                                        (* 222 *)
      else add_rows id (i + 1) n'                                    (* 224 *)
  end.
Definition addNodeAssociation (id : list Z) : M Z := add_rows id 0 8.

(** getNextMatchingNodeID, OTV0P2BASE_Security.h 236-270; NodeAssociationTableV0p2::get,
    Security.cpp 272-278 (reads nothing and leaves the zero-initialised buffer if
    index >= maxSets).  Result: index and ID, [None] for -1. *)
Definition list_eqb (a b : list Z) : bool :=
  (Zlen a =? Zlen b) && forallb (fun p => fst p =? snd p) (combine a b).
Definition table_get (index : Z) : M (list Z) :=
  if index >=? ASSOC_MAX then ret (repeat 0 8)                       (* .cpp 274 *)
  else read_block (row_addr index) 8.                                (* .cpp 276-277 *)
Fixpoint match_rows (prefix : list Z) (i : Z) (n : nat) : M (option (Z * list Z)) :=
  match n with
  | O => ret None                                                    (* .h 269 *)
  | S n' =>
      run temp <- table_get i;                                       (* 252-253 *)
      if 255 =? znth temp 0 then ret None else                       (* 255 *)
      if (Zlen prefix =? 0) || list_eqb (firstn (length prefix) temp) prefix  (* 259 *)
      then ret (Some (i, temp))                                      (* 261-264 *)
      else match_rows prefix (i + 1) n'                              (* 251: ++index *)
  end.
(** [prefix]: a buffer of at least prefixLen bytes (callers pass 8-byte buffers);
    None = NULL pointer. *)
Definition getNextMatchingNodeID (index : Z) (prefix : option (list Z)) (prefixLen : Z)
    : M (option (Z * list Z)) :=
  if index >=? ASSOC_MAX then ret None else                          (* 244 *)
  if prefixLen >? 8 then ret None else                               (* 245 *)
  match prefix with
  | None => if negb (0 =? prefixLen) then ret None                   (* 246 *)
            else match_rows [] index (Z.to_nat (ASSOC_MAX - index))
  | Some p => match_rows (firstn (Z.to_nat prefixLen) p) index
                (Z.to_nat (ASSOC_MAX - index))                       (* 251-266 *)
  end.
