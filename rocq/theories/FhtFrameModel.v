(** Model of the transmit buffer of the FHT8V driver: preamble, bit stream, trailer.
    content/OTRadioLink/utility/OTRadValve_FHT8VRadValve.h lines 217-245, 480-590 and
    content/OTRadioLink/utility/OTRadValve_FHT8VRadValve.cpp lines 382-392, 554-571.
    AVR build, no address byte sent. *)
From Verif Require Import Base FhtModel RxFilter.

(** appendToTXBufferFF_t, .h 224: a function of the application, given the buffer, the place in it
    and the room there; [None]: writes outside; [Some (b, false)]: NULL returned. *)
Definition trailer_fn := list Z -> Z -> Z -> option (list Z * bool).

(** Size of FHT8VTXCommandArea, .h 493, and FHT8V_APPROX_MAX_TX_MS, .h 497: both uint8_t. *)
Definition frame_size (pb tb : Z) : Z := u8 (pb + 46 + tb).
Definition approx_max_tx_ms (pb tb : Z) : Z := u8 (((frame_size pb tb - 1) * 8 + 4) / 5).

(** FHT8VCreateValveSetCmdFrame, .h 512-566: [pb] preamble bytes [pbyte]; [lvl]: the statistics level
    allows insecure transmission (530); [force]: forceExtraPreamble.  The function pointer is read at
    529 as *trailerFn, which is taken to have no effect if it is NULL. *)
Definition create_frame (pb pbyte : Z) (tf : option trailer_fn) (lvl force : bool) (h1 h2 pc : Z) (buf : list Z) : option (list Z) :=
  let command := Msg h1 h2 0 0x26 (percentTo255 pc) in                     (* 514-526 *)
  let doTrailer := match tf with Some _ => lvl | None => false end in      (* 529-530 *)
  let doHeader := force || doTrailer in                                    (* 535 *)
  do (b, p) <- (if doHeader : bool then do b <- blit buf 0 (repeat pbyte (Z.to_nat pb)) ; Some (b, pb) else Some (buf, 0)) ; (* 537-546 *)
  do (b, q) <- create false b p command ;                                  (* 550 *)
  match tf with
  | None => Some b
  | Some f =>
      if lvl then                                                          (* 553 *)
        do (b', ok) <- f b q (u8 (Zlen buf - q)) ;                         (* 555 *)
        if ok : bool then Some b' else wr b' q 255                         (* 557 *)
      else Some b
  end.

(** FHT8VTXFHTQueueAndSendCmd, .cpp 382-392: the bytes handed to the radio (which is set), if any. *)
Definition frame_sent (buf : list Z) : option (option (list Z)) :=
  do v <- rd buf 0 ;
  if v =? 255 then Some None else                                          (* 384 *)
  do n <- frameLenFF buf ;                                                 (* 388 *)
  do l <- sub buf 0 n ;
  Some (Some l).                                                           (* 389 *)

(** The driver as far as the buffer goes: the target, house codes (given, fixed) and the buffer. *)
Record fst_ := FS { f_value : Z; f_buf : list Z }.
Inductive fev :=
| FSet (v : Z)               (* set(), .h 579-587 *)
| FSyncFinal.                (* end of synchronisation, .cpp 554-571 *)
(** Constructor, .h 572-574: the area is otherwise not initialised. *)
Definition f_init (area : list Z) : option fst_ := do b <- wr area 0 255 ; Some (FS 0 b).
Definition f_step (pb pbyte : Z) (tf : option trailer_fn) (lvl : bool) (h1 h2 : Z) (s : fst_) (e : fev) : option (fst_ * list (list Z)) :=
  match e with
  | FSet v =>
      if 100 <? v then Some (s, []) else                                   (* 581 *)
      do b <- create_frame pb pbyte tf lvl (10 <=? v) h1 h2 v (f_buf s) ;  (* 584; getMinPercentOpen, .h 79, 363 *)
      Some (FS v b, [])
  | FSyncFinal =>
      do (b, q) <- create false (f_buf s) 0 (Msg h1 h2 0 0x20 0) ;         (* .cpp 555-561 *)
      do tx <- frame_sent b ;                                              (* 563 *)
      do b <- create_frame pb pbyte tf lvl false h1 h2 (f_value s) b ;     (* 581; default argument, .h 512 *)
      Some (FS (f_value s) b, match tx with Some l => [l] | None => [] end)
  end.
Fixpoint f_run (pb pbyte : Z) (tf : option trailer_fn) (lvl : bool) (h1 h2 : Z) (s : fst_) (es : list fev) : option fst_ :=
  match es with
  | [] => Some s
  | e :: es => do (s', _) <- f_step pb pbyte tf lvl h1 h2 s e ; f_run pb pbyte tf lvl h1 h2 s' es
  end.
