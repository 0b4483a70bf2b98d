(** Model of the SIM900 GSM/GPRS link:
    /repo/content/OTRadioLink/utility/OTSIM900Link_OTSIM900Link.h (as configured there:
    OTSIM900LINK_SPLIT_SEND_TEST defined, line 53; OTSIM900LINK_SUBCYCLE_SEND_TIMEOUT_TEST
    not, line 57).

    The module is the environment: for each command it is told, it answers with the list of
    characters delivered before the serial read times out.  Characters are integers.
    Real time is in seconds; the clock read by the code is that modulo 60.
    [None] is an out-of-bounds read (undefined behaviour).
    Not modelled: configuration strings kept in EEPROM or Flash (the text of the commands),
    the unused commands (getSignalStrength, isNetworkCorrect, verbose, setPIN, shutGPRS,
    isModulePresent), debug output; config must have been set. *)
From Verif Require Import Base RtcModel.

(** OTSIM900LinkState, 156-175. *)
Inductive SSt := INIT | GET_STATE | WAIT_PWR_HIGH | WAIT_PWR_LOW | START_UP | CHECK_PIN
  | WAIT_FOR_REGISTRATION | SET_APN | START_GPRS | GET_IP | OPEN_UDP | IDLE | WAIT_FOR_UDP
  | INIT_SEND | WRITE_PACKET | RESET | PANIC.
Definition SSt_eqb (a b : SSt) : bool :=
  match a, b with
  | INIT, INIT | GET_STATE, GET_STATE | WAIT_PWR_HIGH, WAIT_PWR_HIGH | WAIT_PWR_LOW, WAIT_PWR_LOW
  | START_UP, START_UP | CHECK_PIN, CHECK_PIN | WAIT_FOR_REGISTRATION, WAIT_FOR_REGISTRATION
  | SET_APN, SET_APN | START_GPRS, START_GPRS | GET_IP, GET_IP | OPEN_UDP, OPEN_UDP | IDLE, IDLE
  | WAIT_FOR_UDP, WAIT_FOR_UDP | INIT_SEND, INIT_SEND | WRITE_PACKET, WRITE_PACKET
  | RESET, RESET | PANIC, PANIC => true
  | _, _ => false
  end.

(** Commands (.cpp 30-46 and their uses in the .h), frames and the power pin. *)
Inductive ACmd := AT | CPIN | CREG | CSTT | CIPSTATUS | CIICR | CIFSR | CIPSTART | CIPSEND (n : Z) | CIPCLOSE.
Inductive SOut := OCmd (c : ACmd) | OFrame (b : list Z) | OPin (high : bool).

(** Members, 549-563, 1040-1044. *)
Record Sim := mkSim {
  st : SSt; oldst : SSt; avail : bool; powerT : Z; msgCtr : Z; retries : Z; retryT : Z;
  queue : Z; msgLen : Z; txq : list Z }.
Definition set_st (s : Sim) (x : SSt) : Sim :=
  mkSim x (oldst s) (avail s) (powerT s) (msgCtr s) (retries s) (retryT s) (queue s) (msgLen s) (txq s).
Definition set_old (s : Sim) (x : SSt) : Sim :=
  mkSim (st s) x (avail s) (powerT s) (msgCtr s) (retries s) (retryT s) (queue s) (msgLen s) (txq s).
Definition set_avail (s : Sim) (x : bool) : Sim :=
  mkSim (st s) (oldst s) x (powerT s) (msgCtr s) (retries s) (retryT s) (queue s) (msgLen s) (txq s).
Definition set_power (s : Sim) (x : Z) : Sim :=
  mkSim (st s) (oldst s) (avail s) x (msgCtr s) (retries s) (retryT s) (queue s) (msgLen s) (txq s).
Definition set_ctr (s : Sim) (x : Z) : Sim :=
  mkSim (st s) (oldst s) (avail s) (powerT s) x (retries s) (retryT s) (queue s) (msgLen s) (txq s).
Definition set_retry (s : Sim) (r t : Z) : Sim :=
  mkSim (st s) (oldst s) (avail s) (powerT s) (msgCtr s) r t (queue s) (msgLen s) (txq s).
Definition set_queue (s : Sim) (q l : Z) (b : list Z) : Sim :=
  mkSim (st s) (oldst s) (avail s) (powerT s) (msgCtr s) (retries s) (retryT s) q l b.

(** The object as constructed (txQueue starts as anything, here [q]), 279, 549-563, 1040-1044. *)
Definition sim0 (q : list Z) : Sim := mkSim INIT INIT false 0 0 0 (-1) 0 0 q.

(** What a poll sees: the time of its (only) reading of the clock, whether it is near the
    start of the major cycle, and the module's answer to each command. *)
Record SEnv := mkSEnv { now : Z; near : bool; ans : ACmd -> list Z }.
Definition secs (t : Z) : Z := t mod 60.

(** readMany, 612-631: the buffer afterwards. *)
Definition readMany (len : Z) (resp : list Z) : list Z :=
  firstn (Z.to_nat len) (resp ++ repeat 0 (Z.to_nat len)).
(** getResponse, 937-947: offset of the returned pointer, [None] for NULL. *)
Fixpoint getResponse (data : list Z) (c : Z) : option Z :=
  match data with
  | [] => None
  | x :: r => if x =? c then Some 1
              else match getResponse r c with Some k => Some (k + 1) | None => None end
  end.

(** isSIM900Replying, 1012-1018. *)
Definition isReplying (a : list Z) : option bool :=
  bind (rd (readMany 16 a) 0) (fun c => Some (65 =? c)).
(** isPINRequired, 880-893. *)
Definition isPINRequired (a : list Z) : option bool :=
  let d := readMany 40 a in
  match getResponse d 32 with
  | None => Some false
  | Some k => bind (rd d k) (fun c => Some (82 =? c))
  end.
(** isRegistered, 690-704. *)
Definition isRegistered (a : list Z) : option bool :=
  let d := readMany 64 a in
  match getResponse d 32 with
  | None => Some false
  | Some k => bind (rd d (k + 2)) (fun c => Some ((c =? 49) || (c =? 53)))
  end.
(** setAPN, 711-724: no answer gives "return(-1)", i.e. true. *)
Definition setAPN (a : list Z) : option bool :=
  let d := readMany 64 a in
  match getResponse d 10 with
  | None => Some true
  | Some k => bind (rd d (k + 2)) (fun c => Some (c =? 79))
  end.
(** startGPRS, 731-742 (both characters are read: '&'). *)
Definition startGPRS (a : list Z) : option bool :=
  let d := readMany 16 a in
  match getResponse d 10 with
  | None => Some true
  | Some k => bind (rd d k) (fun c0 => bind (rd d (k + 1)) (fun c1 => Some ((c0 =? 79) && (c1 =? 75))))
  end.
(** getIP, 766-780. *)
Definition getIP (a : list Z) : option bool :=
  let d := readMany 64 a in
  match getResponse d 10 with
  | None => Some false
  | Some k => bind (rd d k) (fun c => Some (negb (c =? 43)))
  end.
(** checkUDPStatus, 805-824. *)
Definition checkUDP (a : list Z) : option Z :=
  let d := readMany 64 a in
  match getResponse d 32 with
  | None => Some 0
  | Some k => bind (rd d k) (fun c =>
      if c =? 67 then Some 1 else if c =? 80 then Some 2
      else bind (rd d (k + 3)) (fun g => if g =? 71 then Some 3 else Some 0))
  end.
(** openUDPSocket, 955-975. *)
Definition openUDP (a : list Z) : option bool :=
  let d := readMany 64 a in
  match getResponse d 10 with
  | None => Some false
  | Some k => bind (rd d k) (fun c => Some (negb (69 =? c)))
  end.

(** waitedLongEnough, 266-267. *)
Definition waited (old dur t : Z) : bool := getElapsedSecondsLT (u8 old) (secs t) >? dur.
(** onStateChange, 569-577. *)
Definition onStateChange (s : Sim) : Sim :=
  if SSt_eqb (st s) (oldst s) then s
  else set_retry (set_old s (st s)) (if SSt_eqb (st s) WAIT_FOR_REGISTRATION then 30 else 10) (-1).
(** retryLockOut, 583-592. *)
Definition retryLockOut (s : Sim) (t : Z) : Sim :=
  if 0 =? retries s then set_st (set_retry s (retries s) (-1)) RESET
  else if waited (retryT s) 2 t then set_retry s (retries s) (-1) else s.
(** setRetryLock, 596-602. *)
Definition setRetryLock (s : Sim) (t : Z) : Sim :=
  set_retry s (if negb (0 =? retries s) then retries s - 1 else retries s) (i8 (secs t)).

(** The state machine, 380-526 (the active branch of the #if at 491). *)
Definition machine (s : Sim) (e : SEnv) : option (Sim * list SOut) :=
  let t := now e in
  match st s with
  | INIT => Some (set_st (set_avail (set_queue (set_retry (set_ctr s 0) (retries s) (-1)) 0 0 (repeat 0 64)) false) GET_STATE, [])
  | GET_STATE =>
      bind (isReplying (ans e AT)) (fun r =>
      let s := if (r : bool) then set_avail s true else s in
      Some (set_st (set_power s (i8 (secs t))) WAIT_PWR_HIGH, [OCmd AT; OPin true]))
  | WAIT_PWR_HIGH => if waited (powerT s) 2 t then Some (set_st s WAIT_PWR_LOW, [OPin false]) else Some (s, [])
  | WAIT_PWR_LOW => if waited (powerT s) 12 t then Some (set_st s START_UP, []) else Some (s, [])
  | START_UP =>
      bind (isReplying (ans e AT)) (fun r => Some (set_st s (if (r : bool) then CHECK_PIN else GET_STATE), [OCmd AT]))
  | CHECK_PIN =>
      bind (isPINRequired (ans e CPIN)) (fun r =>
      Some (setRetryLock (if (r : bool) then set_st s WAIT_FOR_REGISTRATION else s) t, [OCmd CPIN]))
  | WAIT_FOR_REGISTRATION =>
      bind (isRegistered (ans e CREG)) (fun r =>
      Some (setRetryLock (if (r : bool) then set_st s SET_APN else s) t, [OCmd CREG]))
  | SET_APN =>
      bind (setAPN (ans e CSTT)) (fun r =>
      Some (setRetryLock (if (r : bool) then set_st (set_ctr s 0) START_GPRS else s) t, [OCmd CSTT]))
  | START_GPRS =>
      bind (checkUDP (ans e CIPSTATUS)) (fun u =>
      if 3 =? u then Some (setRetryLock (set_st s GET_IP) t, [OCmd CIPSTATUS])
      else if 0 =? u then bind (startGPRS (ans e CIICR)) (fun _ => Some (setRetryLock s t, [OCmd CIPSTATUS; OCmd CIICR]))
      else Some (setRetryLock s t, [OCmd CIPSTATUS]))
  | GET_IP => bind (getIP (ans e CIFSR)) (fun _ => Some (set_st s OPEN_UDP, [OCmd CIFSR]))
  | OPEN_UDP =>
      bind (openUDP (ans e CIPSTART)) (fun r =>
      Some (setRetryLock (if (r : bool) then set_st s IDLE else s) t, [OCmd CIPSTART]))
  | IDLE => Some (if queue s >? 0 then set_st s WAIT_FOR_UDP else s, [])
  | WAIT_FOR_UDP =>
      bind (checkUDP (ans e CIPSTATUS)) (fun u =>
      Some (if u =? 1 then set_st s INIT_SEND else if u =? 2 then set_st s RESET else setRetryLock s t, [OCmd CIPSTATUS]))
  | INIT_SEND =>                                                      (* 502-510 *)
      bind (isReplying (ans e AT)) (fun r =>
      let s := if (r : bool) then s else set_st s RESET in            (* 504: overwritten below *)
      if 0 <? queue s then Some (set_st (set_ctr s (u8 (msgCtr s + 1))) WRITE_PACKET, [OCmd AT; OCmd (CIPSEND (msgLen s))])
      else Some (set_st s IDLE, [OCmd AT]))
  | WRITE_PACKET =>                                                   (* 511-515 *)
      bind (sub (txq s) 0 (msgLen s)) (fun b =>
      Some (set_st (set_queue s (u8 (queue s - 1)) (msgLen s) (txq s)) INIT_SEND, [OFrame b]))
  | RESET => Some (set_st s GET_STATE, [])
  | PANIC => Some (s, [])
  end.
(** poll, 368-531. *)
Definition poll (s : Sim) (e : SEnv) : option (Sim * list SOut) :=
  if negb (-1 =? retryT s) then Some (retryLockOut s (now e), [])     (* 370 *)
  else if 255 =? msgCtr s then Some (set_st (set_ctr s 0) RESET, [])  (* 373 *)
  else if negb (near e) then Some (s, [])                             (* 377 *)
  else bind (machine s e) (fun '(s', o) => Some (onStateChange s', o)).

(** begin, 285-294; end, 299-304. *)
Definition sim_begin (s : Sim) : Sim * list SOut := (set_st s INIT, [OPin false]).
Definition sim_end (s : Sim) : Sim * list SOut := (s, [OCmd CIPCLOSE]).
(** queueToSend, 345-359: [None] is a NULL pointer; the result and new state. *)
Definition queueToSend (s : Sim) (buf : option (list Z)) : Sim * bool :=
  match buf with
  | None => (s, false)
  | Some b => if Zlen b >? 64 then (s, false)
              else (set_queue s 1 (Zlen b) (b ++ skipn (length b) (txq s)), true)
  end.
(** flushUntil, 901-926: what it finds at each turn: the time and the character read (-1:
    none).  [None]: still waiting when these run out. *)
Fixpoint flush_loop (endT c : Z) (reads : list (Z * Z)) : option bool :=
  match reads with
  | [] => None
  | (t, x) :: r => if negb (secs t <=? endT) then Some false
                   else if u8 x =? c then Some true else flush_loop endT c r
  end.
Definition flushUntil (t0 c : Z) (reads : list (Z * Z)) : option bool := flush_loop (u8 (secs t0 + 1)) c reads.
(** sendRaw, 315-334 and initUDPSend, 994-1001: state, output, and result if it returns. *)
Definition sendRaw (s : Sim) (b : list Z) (t0 : Z) (reads : list (Z * Z)) : Sim * list SOut * option bool :=
  let s := set_ctr s (u8 (msgCtr s + 1)) in
  match flushUntil t0 62 reads with
  | Some true => (s, [OCmd (CIPSEND (Zlen b)); OFrame b], Some true)
  | r => (s, [OCmd (CIPSEND (Zlen b))], r)
  end.

(** Histories of a link after start-up. *)
Inductive SEv := EPoll (e : SEnv) | EQueue (b : option (list Z)) | EEnd.
Definition sim_step (s : Sim) (v : SEv) : option (Sim * list SOut) :=
  match v with
  | EPoll e => poll s e
  | EQueue b => Some (fst (queueToSend s b), [])
  | EEnd => Some (sim_end s)
  end.
(** The state, and each event with what was output. *)
Fixpoint sim_run (s : Sim) (vs : list SEv) : option (Sim * list (SEv * list SOut)) :=
  match vs with
  | [] => Some (s, [])
  | v :: r => bind (sim_step s v) (fun '(s1, o) => bind (sim_run s1 r) (fun '(s2, tr) => Some (s2, (v, o) :: tr)))
  end.
(** After begin() and the first effective poll(). *)
Definition started : Sim := onStateChange
  (mkSim GET_STATE INIT false 0 0 0 (-1) 0 0 (repeat 0 64)).
