(** Model of the radio receive queues.
    content/OTRadioLink/utility/OTRadioLink_ISRRXQueue.h lines 143-368 and
    content/OTRadioLink/utility/OTRadioLink_ISRRXQueue.cpp lines 33-55 (AVR build),
    driven as in content/OTRadioLink/utility/OTRFM23BLink_OTRFM23BLink.h lines 776-807.
    Concurrency: one application thread, plus an interrupt routine that runs to
    completion and may run between any two of the application's steps.
    Application-side operations that are not wrapped in an atomic block are
    split into one step per volatile access. *)
From Verif Require Import Base.

(** ** Variable-length-message queue: configuration *)

(** Template parameters maxRXBytes and targetISRRXMinQueueCapacity
    (ISRRXQueue.h 348-351). *)
Record cfg := Cfg { maxRX : Z; target : Z }.

(** ISRRX_BUFSIZ = fnmin(256, maxRXBytes * (1+(int)target)), ISRRXQueue.h 355. *)
Definition bufsiz (c : cfg) : Z := Z.min 256 (maxRX c * (1 + target c)).
(** bsm1 = (uint8_t)(ISRRX_BUFSIZ-1), ISRRXQueue.h 240, 362. *)
Definition bsm1 (c : cfg) : Z := u8 (bufsiz c - 1).
(** lui = bsm - maxFrame, as a uint8_t, ISRRXQueue.h 242, 248. *)
Definition lui (c : cfg) : Z := u8 (bsm1 c - maxRX c).
(** MinQueueCapacityMsgs, ISRRXQueue.h 364: what getRXCapacity() reports (366-367). *)
Definition minQueueCapacityMsgs (c : cfg) : Z := u8 (bufsiz c / (maxRX c + 1)).

(** Object state: buf, oldest, next, queuedRXedMessageCount (ISRRXQueue.h 53, 245, 360). *)
Record vq := VQ { vbuf : list Z; oldest : Z; next : Z; count : Z }.

(** Constructor, ISRRXQueue.h 56, 247-249, 362.  buf is left uninitialised there:
    its initial contents are a parameter. *)
Definition vq_init (junk : list Z) : vq := VQ junk 0 0 0.

(** getRXMsgsQueued / isEmpty, ISRRXQueue.h 65, 70. *)
Definition isEmpty (q : vq) : bool := count q =? 0.

(** _isFull, ISRRXQueue.h 253-267. *)
Definition isFull (c : cfg) (q : vq) : bool :=
  let n := next q in let o := oldest q in
  if n >? o then false                                   (* 260 *)
  else if n =? o then negb (isEmpty q)                   (* 262 *)
  else let spaceBeforeOldest := u8 (o - n) in            (* 265 *)
       spaceBeforeOldest <=? maxRX c.                    (* 266 *)

(** newIndex, ISRRXQueue.h 272-277. *)
Definition newIndex (c : cfg) (prev len : Z) : Z :=
  let ni := u16 (1 + prev + len) in                      (* 274 *)
  if ni >? lui c then 0 else u8 ni.                      (* 275-276 *)

(** _getRXBufForInbound, ISRRXQueue.h 292-298: index of the frame area, or NULL. *)
Definition getRXBufForInbound (c : cfg) (q : vq) : option Z :=
  if isFull c q then None else Some (next q + 1).

(** _loadedBuf, ISRRXQueue.h 305-315.  [None] is a write outside buf. *)
Definition loadedBuf (c : cfg) (len : Z) (q : vq) : option vq :=
  if len =? 0 then Some q else                           (* 308 *)
  let n := next q in                                     (* 310 *)
  do b <- wr (vbuf q) n len ;                            (* 311 *)
  Some (VQ b (oldest q) (newIndex c n len) (u8 (count q + 1))). (* 312-313 *)

(** Result of one inbound frame at the interrupt routine. *)
Inductive arrival := Queued (f : list Z) | Abandoned | Dropped.

(** The driver's interrupt routine, OTRFM23BLink.h 779-807: ask for a buffer; if there is
    none count a drop; else copy the radio FIFO into it, and queue the frame (possibly
    shortened, or abandoned with length 0, by the frame filter).  [data] is what is written
    into the buffer, [len] the length finally given to _loadedBuf.  Runs to completion. *)
Definition isr (c : cfg) (data : list Z) (len : Z) (q : vq) : option (vq * arrival) :=
  match getRXBufForInbound c q with
  | None => Some (q, Dropped)
  | Some p =>
      do b <- blit (vbuf q) p data ;
      do q' <- loadedBuf c len (VQ b (oldest q) (next q) (count q)) ;
      Some (q', if len =? 0 then Abandoned else Queued (firstn (Z.to_nat len) data))
  end.

(** removeRXMsg after its emptiness test, the body of the atomic block,
    ISRRXQueue.cpp 46-54. *)
Definition remove_body (c : cfg) (q : vq) : option vq :=
  let o := oldest q in                                   (* 51 *)
  do l <- rd (vbuf q) o ;
  Some (VQ (vbuf q) (newIndex c o l) (next q) (u8 (count q - 1))). (* 52-53 *)

(** ** The system: application thread and interrupt routine *)

(** Where the application thread is: between calls, past the isEmpty() test inside
    peekRXMsg (ISRRXQueue.h 330-333), holding the pointer that peekRXMsg returned, or past
    the isEmpty() test inside removeRXMsg (ISRRXQueue.cpp 44-46). *)
Inductive pc := Idle | InPeek | Holding (p : Z) | InRemove.

(** One step of the system.  [EFrame data len]: an interrupt delivers a frame.  The others
    are the application's individual steps; [EByte i] reads, through the pointer returned
    by peekRXMsg, the length byte (i = 0) or message byte i-1 (the application does not
    read beyond the length it finds there). *)
Inductive event :=
| EFrame (data : list Z) (len : Z)
| EPeekTest | EPeekPtr | EByte (i : Z) | ERemoveTest | ERemoveBody | ECount.

(** What is observed. *)
Inductive obs :=
| OQueued (f : list Z)       (* frame accepted from the radio *)
| ODropped                   (* frame discarded: no room *)
| OAbandoned                 (* frame rejected by the filter *)
| OPeekNull                  (* peekRXMsg returned NULL *)
| OPeekMsg                   (* peekRXMsg returned a message *)
| OByte (i v : Z)            (* byte i of (length :: message) read as v *)
| ORemoveNone                (* removeRXMsg found nothing *)
| ORemoved                   (* removeRXMsg removed the oldest *)
| OCount (n : Z).            (* getRXMsgsQueued *)

Record sys := Sys { sq : vq; spc : pc }.

(** Steps that the application cannot take where it is (e.g. reading a message without
    holding a pointer) have no effect; [None] is an access outside buf. *)
Definition step (c : cfg) (e : event) (s : sys) : option (sys * list obs) :=
  match e with
  | EFrame data len =>
      do (q, r) <- isr c data len (sq s) ;
      Some (Sys q (spc s),
            match r with Queued f => [OQueued f] | Dropped => [ODropped] | Abandoned => [OAbandoned] end)
  | EPeekTest =>                                          (* ISRRXQueue.h 330 *)
      match spc s with
      | Idle | Holding _ =>
          if isEmpty (sq s) then Some (Sys (sq s) Idle, [OPeekNull]) else Some (Sys (sq s) InPeek, [])
      | _ => Some (s, [])
      end
  | EPeekPtr =>                                           (* ISRRXQueue.h 333 *)
      match spc s with
      | InPeek => Some (Sys (sq s) (Holding (oldest (sq s) + 1)), [OPeekMsg])
      | _ => Some (s, [])
      end
  | EByte i =>
      match spc s with
      | Holding p =>
          do l <- rd (vbuf (sq s)) (p - 1) ;
          if (0 <=? i) && (i <=? l)
          then do v <- rd (vbuf (sq s)) (p - 1 + i) ; Some (s, [OByte i v]) else Some (s, [])
      | _ => Some (s, [])
      end
  | ERemoveTest =>                                        (* ISRRXQueue.cpp 44 *)
      match spc s with
      | Idle | Holding _ =>
          if isEmpty (sq s) then Some (Sys (sq s) Idle, [ORemoveNone]) else Some (Sys (sq s) InRemove, [])
      | _ => Some (s, [])
      end
  | ERemoveBody =>
      match spc s with
      | InRemove => do q <- remove_body c (sq s) ; Some (Sys q Idle, [ORemoved])
      | _ => Some (s, [])
      end
  | ECount => Some (s, [OCount (count (sq s))])
  end.

Fixpoint run (c : cfg) (es : list event) (s : sys) : option (sys * list obs) :=
  match es with
  | [] => Some (s, [])
  | e :: es =>
      do (s1, o1) <- step c e s ;
      do (s2, o2) <- run c es s1 ;
      Some (s2, o1 ++ o2)
  end.

(** ** 1-deep queue, ISRRXQueue.h 147-223 *)

Record q1 := Q1 { fullBuf : list Z; cnt1 : Z }.

(** _getRXBufForInbound 175-180, _loadedBuf 187-194, called as by the driver above. *)
Definition isr1 (mx : Z) (data : list Z) (len : Z) (q : q1) : option (q1 * arrival) :=
  if negb (cnt1 q =? 0) then Some (q, Dropped) else       (* 178 *)
  do b <- blit (fullBuf q) 1 data ;
  if len =? 0 then Some (Q1 b (cnt1 q), Abandoned) else    (* 189 *)
  let len' := if len >? mx then mx else len in             (* 191 *)
  do b' <- wr b 0 len' ;                                   (* 192 *)
  Some (Q1 b' 1, Queued (firstn (Z.to_nat len) data)).     (* 193 *)

(** peekRXMsg 207-212 and removeRXMsg 218-222 each make a single volatile access. *)
Record sys1 := Sys1 { sq1 : q1; held1 : bool }.
Definition step1 (mx : Z) (e : event) (s : sys1) : option (sys1 * list obs) :=
  match e with
  | EFrame data len =>
      do (q, r) <- isr1 mx data len (sq1 s) ;
      Some (Sys1 q (held1 s),
            match r with Queued f => [OQueued f] | Dropped => [ODropped] | Abandoned => [OAbandoned] end)
  | EPeekTest =>
      if cnt1 (sq1 s) =? 0 then Some (Sys1 (sq1 s) false, [OPeekNull])
      else Some (Sys1 (sq1 s) true, [OPeekMsg])
  | EByte i =>
      if held1 s then
        do l <- rd (fullBuf (sq1 s)) 0 ;
        if (0 <=? i) && (i <=? l)
        then do v <- rd (fullBuf (sq1 s)) i ; Some (s, [OByte i v]) else Some (s, [])
      else Some (s, [])
  | ERemoveBody =>
      Some (Sys1 (Q1 (fullBuf (sq1 s)) 0) false,
            [if cnt1 (sq1 s) =? 0 then ORemoveNone else ORemoved])
  | ECount => Some (s, [OCount (cnt1 (sq1 s))])
  | EPeekPtr | ERemoveTest => Some (s, [])
  end.

Fixpoint run1 (mx : Z) (es : list event) (s : sys1) : option (sys1 * list obs) :=
  match es with
  | [] => Some (s, [])
  | e :: es =>
      do (s1, o1) <- step1 mx e s ;
      do (s2, o2) <- run1 mx es s1 ;
      Some (s2, o1 ++ o2)
  end.
