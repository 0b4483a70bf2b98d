(** Model of the RFM23B radio link, OTRFM23BLink_OTRFM23BLink.{h,cpp}, and the part of its base class it
    uses, OTRadioLink_OTRadioLink.h (all in content/OTRadioLink/utility/; AVR build; line numbers
    are of the .h of the driver unless marked).  The chip is a register file with two FIFOs that
    behaves as its data sheet says, as far as the driver uses it; frames and flags from outside are
    inputs.  SPI power and select lines, delays and debugging prints are not modelled.
    Interrupts: the routine runs to completion, and can run wherever the code is not in an atomic
    block ([point]s below).  RFM23B_IRQ_CONTROL is not defined. *)
From Verif Require Import Base RxQueueModel.

Notation bit := Z.testbit.
Definition upd (f : Z -> Z) (r v : Z) : Z -> Z := fun x => if x =? r then v else f x.

(** ** The chip *)
(** Registers; interrupt status 1 and 2; what a 64-byte burst read of the RX FIFO would give; TX FIFO;
    power-on register values; frames put on the air so far, each with the registers at the time. *)
Record chip := Chip { regs : Z -> Z; st1 : Z; st2 : Z; rxf : list Z; txf : list Z; por : Z -> Z; air : list ((Z -> Z) * list Z) }.
Definition set_regs f c := Chip f (st1 c) (st2 c) (rxf c) (txf c) (por c) (air c).
Definition clearst c := Chip (regs c) 0 0 (rxf c) (txf c) (por c) (air c).
(** What would be sent: with the packet handler (0x30 bit 3) as many bytes as register 0x3e says. *)
Definition payload (c : chip) : list Z := if bit (regs c 48) 3 then firstn (Z.to_nat (regs c 62)) (txf c) else txf c.
(** Writing a register.  7: bit 7 resets, bit 3 (TXON) sends; 8: bits 1 and 0 clear the RX and TX FIFO
    when they go from 1 to 0; 0x7f: into the TX FIFO of 64 bytes. *)
Definition wreg (r v : Z) (c : chip) : chip :=
  if r =? 7 then
    (if bit v 7 then Chip (por c) 0 0 (repeat 0 64) [] (por c) (air c)
     else if bit v 3 then Chip (upd (regs c) 7 v) (st1 c) (st2 c) (rxf c) (txf c) (por c) (air c ++ [(regs c, payload c)])
     else set_regs (upd (regs c) 7 v) c)
  else if r =? 8 then
    Chip (upd (regs c) 8 v) (st1 c) (st2 c)
      (if bit (regs c 8) 1 && negb (bit v 1) then repeat 0 64 else rxf c)
      (if bit (regs c 8) 0 && negb (bit v 0) then [] else txf c) (por c) (air c)
  else if r =? 127 then
    (if Zlen (txf c) <? 64 then Chip (regs c) (st1 c) (st2 c) (rxf c) (txf c ++ [v]) (por c) (air c)
     else Chip (regs c) (Z.lor (st1 c) 128) (st2 c) (rxf c) (txf c) (por c) (air c))
  else set_regs (upd (regs c) r v) c.
(** Interrupt line (active low) active. *)
Definition irq (c : chip) : bool := negb (Z.land (st1 c) (regs c 5) =? 0) || negb (Z.land (st2 c) (regs c 6) =? 0).
(** What can happen to the chip from outside.  Receiving (register 7 bit 2): a frame, of length [fst]
    with the FIFO contents [snd], or just flags (preamble, CRC error, overflow).  Sending: completion. *)
Record env := Env { e_rx : option (Z * list Z); e_st1 : Z; e_st2 : Z; e_done : bool }.
Definition happen (e : env) (c : chip) : chip :=
  let s2 := Z.lor (st2 c) (e_st2 e) in
  let other := Z.lor (st1 c) (Z.land (e_st1 e) 104) in
  if bit (regs c 7) 2 then
    match e_rx e with
    | Some (len, d) =>
        if bit (regs c 48) 7 then Chip (upd (upd (regs c) 75 len) 7 (Z.land (regs c 7) (-5))) (Z.lor other 2) s2 d (txf c) (por c) (air c)
        else Chip (regs c) (Z.lor other 16) s2 d (txf c) (por c) (air c)
    | None => Chip (regs c) (Z.lor other (Z.land (e_st1 e) (if bit (regs c 48) 7 then 145 else 129))) s2 (rxf c) (txf c) (por c) (air c)
    end
  else if bit (regs c 7) 3 then
    (if e_done e then Chip (upd (regs c) 7 (Z.land (regs c 7) (-9))) (Z.lor other 4) s2 (rxf c) (txf c) (por c) (air c)
     else Chip (regs c) other s2 (rxf c) (txf c) (por c) (air c))
  else Chip (regs c) other s2 (rxf c) (txf c) (por c) (air c).

(** ** The driver's state *)
Definition block := list (Z * Z).
(** The chip; RX queue with the application's place in it; _currentChannel, listenChannel; the channels'
    configurations; counters; lastRXErr; maxTypicalFrameBytes; the RX filter, given buffer and length, whether
    there is an interrupt line; what is still to happen; what was observed at the queue (ghost). *)
Record link := Link { ch : chip; qs : sys; cur : Z; lis : Z; cfgs : list block; dropped : Z; filtered : Z; err : Z;
  maxTyp : Z; filt : option (list Z -> Z -> bool * Z); hasIRQ : bool; todo : list env; seen : list obs }.
Definition on f s := Link (f (ch s)) (qs s) (cur s) (lis s) (cfgs s) (dropped s) (filtered s) (err s) (maxTyp s) (filt s) (hasIRQ s) (todo s) (seen s).
Definition set_cur x s := Link (ch s) (qs s) x (lis s) (cfgs s) (dropped s) (filtered s) (err s) (maxTyp s) (filt s) (hasIRQ s) (todo s) (seen s).
Definition set_lis x s := Link (ch s) (qs s) (cur s) x (cfgs s) (dropped s) (filtered s) (err s) (maxTyp s) (filt s) (hasIRQ s) (todo s) (seen s).
Definition set_err x s := Link (ch s) (qs s) (cur s) (lis s) (cfgs s) (dropped s) (filtered s) x (maxTyp s) (filt s) (hasIRQ s) (todo s) (seen s).
Definition set_max x s := Link (ch s) (qs s) (cur s) (lis s) (cfgs s) (dropped s) (filtered s) (err s) x (filt s) (hasIRQ s) (todo s) (seen s).
Definition set_filt x s := Link (ch s) (qs s) (cur s) (lis s) (cfgs s) (dropped s) (filtered s) (err s) (maxTyp s) x (hasIRQ s) (todo s) (seen s).
Definition set_todo x s := Link (ch s) (qs s) (cur s) (lis s) (cfgs s) (dropped s) (filtered s) (err s) (maxTyp s) (filt s) (hasIRQ s) x (seen s).
(** nChannels: OTRadioLink.h 138, 195-201. *)
Definition nCh (s : link) : Z := Zlen (cfgs s).
(** Queue of the default capacity, 368-382. *)
Definition QC : cfg := Cfg 64 3.

(** _modeStandbyAndClearState 500-520 (atomic) *)
Definition standbyClear (c : chip) : chip :=
  clearst (wreg 6 0 (wreg 5 0 (wreg 8 0 (wreg 8 3 (wreg 7 0 c))))).
(** _registerBlockSetup, .cpp 80-103 (atomic) *)
Definition writeBlock (b : block) (c : chip) : chip := fold_left (fun c rv => wreg (fst rv) (snd rv) c) b c.
(** _setChannel, .cpp 361-380 *)
Definition setChannel (channel : Z) (s : link) : link :=
  let c := u8 channel in
  if cur s =? c then s
  else if nCh s <=? c then s
  else set_cur c (on (writeBlock (nth (Z.to_nat c) (cfgs s) [])) s).
(** _enableIRQLine 553-568 *)
Definition enableIRQLine (mx : Z) (c : chip) : chip :=
  if bit (regs c 48) 7 then
    let c1 := wreg 6 0 (wreg 5 2 c) in
    if bit (regs c1 51) 3 then wreg 62 mx c1 else c1
  else wreg 6 0 (wreg 5 16 c).
(** _dolistenNonVirtual 697-717, the last atomic block *)
Definition startRX (mx : Z) (c : chip) : chip :=
  wreg 7 5 (clearst (enableIRQLine mx (wreg 126 mx (wreg 8 0 (wreg 8 3 c))))).
(** _RXFIFO 640-684 (atomic): the [n] bytes read, and the chip after. *)
Definition rxFIFO (n : Z) (c : chip) : list Z * chip :=
  let c1 := wreg 7 0 c in
  (firstn (Z.to_nat n) (rxf c1), clearst (wreg 6 0 (wreg 5 0 (wreg 8 0 (wreg 8 3 c1))))).
(** _dolistenNonVirtual 687-718 with interrupts off, as called by _poll *)
Definition dolistenA (s : link) : link :=
  let s1 := on standbyClear s in
  if lis s1 =? -1 then s1
  else let s2 := setChannel (lis s1) s1 in on (startRX (maxTyp s2)) s2.
Definition see o s := Link (ch s) (qs s) (cur s) (lis s) (cfgs s) (dropped s) (filtered s) (err s) (maxTyp s) (filt s) (hasIRQ s) (todo s) (seen s ++ o).
Definition with_q q s := Link (ch s) q (cur s) (lis s) (cfgs s) (dropped s) (filtered s) (err s) (maxTyp s) (filt s) (hasIRQ s) (todo s) (seen s).
Definition count_drop s := Link (ch s) (qs s) (cur s) (lis s) (cfgs s) (u8 (dropped s + 1)) (filtered s) 4 (maxTyp s) (filt s) (hasIRQ s) (todo s) (seen s).
Definition count_filt s := Link (ch s) (qs s) (cur s) (lis s) (cfgs s) (dropped s) (u8 (filtered s + 1)) (err s) (maxTyp s) (filt s) (hasIRQ s) (todo s) (seen s).
(** _poll 776-813 and 845-876: a frame of stated length [len]; [room] false if it is too long. *)
Definition rxFrame (len : Z) (room : bool) (s : link) : option link :=
  match (if room then getRXBufForInbound QC (sq (qs s)) else None) with
  | Some p =>
      let (d, c1) := rxFIFO 64 (ch s) in                                   (* 783 / 852 *)
      let q := sq (qs s) in
      do b <- blit (vbuf q) p d ;
      let q1 := VQ b (oldest q) (next q) (count q) in
      let (ok, l) := match filt s with Some f => f d len | None => (true, len) end in   (* 785-786 *)
      if ok then do q2 <- loadedBuf QC l q1 ;                              (* 796 *)
        Some (dolistenA (see (if l =? 0 then [] else [OQueued (firstn (Z.to_nat l) d)]) (with_q (Sys q2 (spc (qs s))) (on (fun _ => c1) s))))
      else do q2 <- loadedBuf QC 0 q1 ;                                    (* 789-791 *)
        Some (dolistenA (see [OAbandoned] (count_filt (with_q (Sys q2 (spc (qs s))) (on (fun _ => c1) s)))))
  | None =>                                                                (* 800-806 *)
      let (_, c1) := rxFIFO 1 (ch s) in
      Some (dolistenA (see [ODropped] (count_drop (on (fun _ => c1) s))))
  end.
(** _poll 740-894 (not re-entrant, interrupts off) *)
Definition poll0 (s : link) : option link :=
  if lis s =? -1 then Some s                                               (* 751 *)
  else
    let f1 := st1 (ch s) in let s1 := on clearst s in                      (* 755 *)
    if bit (regs (ch s1) 48) 7 then
      (if bit f1 1 then
         let len := if bit (regs (ch s1) 51) 3 then regs (ch s1) 62 else regs (ch s1) 75 in   (* 769-774 *)
         rxFrame len (len <=? 64) s1
       else Some s1)
    else if bit f1 7 then Some (dolistenA (set_err 2 s1))                  (* 834-843 *)
    else if bit f1 4 then rxFrame 64 true s1                               (* 845-878 *)
    else Some s1.
(** interruptLineIsEnabledAndInactive 547; poll 915-918; _handleInterruptNonVirtual 950-957: all allow RX *)
Definition poll (s : link) : option link := if hasIRQ s && negb (irq (ch s)) then Some s else poll0 s.
(** Something happens outside; then if the line is active the interrupt routine runs. *)
Definition outside (e : env) (s : link) : option link :=
  let s1 := on (happen e) s in if hasIRQ s1 then poll s1 else Some s1.
(** A place where interrupts are on. *)
Definition point (s : link) : option link :=
  match todo s with [] => Some s | e :: r => outside e (set_todo r s) end.
(** _dolistenNonVirtual 687-718 with interrupts on *)
Definition dolisten (s : link) : option link :=
  do s1 <- point (on standbyClear s) ;
  if lis s1 =? -1 then Some s1
  else do s2 <- point (setChannel (lis s1) s1) ; Some (on (startRX (maxTyp s2)) s2).

(** _queueFrameInTXFIFO, .cpp 107-138 (atomic) *)
Definition queueFrame (buf : list Z) (c : chip) : chip :=
  fold_left (fun c v => wreg 127 v c) buf (wreg 8 0 (wreg 8 1 c)).
(** _TXFIFO, .cpp 142-186: up to MAX_TX_ms looks at the status *)
Definition txStart (c : chip) : chip := wreg 7 9 (clearst (wreg 6 0 (wreg 5 0 c))).
Fixpoint txWait (n : nat) (s : link) : option (bool * link) :=
  match n with
  | O => Some (false, s)
  | S n => do s1 <- point s ;
           let f := st1 (ch s1) in
           let s2 := on (fun c => Chip (regs c) 0 (st2 c) (rxf c) (txf c) (por c) (air c)) s1 in
           if bit f 2 then Some (true, s2) else txWait n s2
  end.
Definition txFIFO (s : link) : option (bool * link) := txWait 1000 (on txStart s).
(** sendRaw, .cpp 213-263; [power] 4 is TXmax *)
Definition sendRaw (buf : list Z) (channel power : Z) (s : link) : option (bool * link) :=
  do s1 <- point (on standbyClear s) ;
  do s2 <- point (setChannel channel s1) ;
  do s3 <- point (on (queueFrame buf) s2) ;
  let m := regs (ch s3) 48 in
  do s4 <- point s3 ;
  let s5 := if bit m 3 then on (wreg 62 (Zlen buf)) s4 else s4 in
  do s6 <- point s5 ;
  do (r1, s7) <- txFIFO s6 ;
  do s8 <- point s7 ;
  do (r, s9) <- (if 4 <=? power then do (r2, t) <- txFIFO s8 ; Some (r1 && r2, t) else Some (r1, s8)) ;
  do s10 <- dolisten s9 ;
  Some (r, s10).
(** listen, OTRadioLink.h 246-254 *)
Definition listen (active : bool) (channel : Z) (s : link) : option link :=
  let new := if negb active then -1 else if channel <=? -1 then -1 else if nCh s <=? channel then nCh s - 1 else channel in
  let old := lis s in
  do s1 <- point (set_lis new s) ;
  if (new =? -1) || negb (old =? new) then dolisten s1 else Some s1.
(** begin, .cpp 427-449; end, 454-458; preinit and panicShutdown, .h 526-536, 905, OTRadioLink.h 184;
    setMaxTypicalFrameBytes, .cpp 42-45; getRXErr, .h 308 *)
Definition begin (s : link) : bool * link :=
  if (regs (ch s) 0 =? 8) && (regs (ch s) 1 =? 6) then (true, on standbyClear (on (writeBlock (nth 0 (cfgs s) [])) s)) else (false, s).
Definition end_ (s : link) : link := on standbyClear s.
Definition preinit (s : link) : link := on (fun c => wreg 7 0 (wreg 7 128 c)) s.
Definition setMaxTypicalFrameBytes (n : Z) (s : link) : link := set_max (Z.max 1 (Z.min n 63)) s.
Definition getRXErr (s : link) : Z * link := (err s, set_err 0 s).
