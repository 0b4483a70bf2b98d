(** Model of the direct-drive valve motor controller.
    content/OTRadioLink/utility/OTRadValve_CurrentSenseValveMotorDirect.cpp lines 41-754 and
    content/OTRadioLink/utility/OTRadValve_CurrentSenseValveMotorDirect.h lines 58-655.
    [prop] = true is class CurrentSenseValveMotorDirect, false is the end-stop-only class
    CurrentSenseValveMotorDirectBinaryOnly.
    Simplifications: serial output and error reports are not modelled; the callbacks made during a
    motor pulse (which arrive one by one, possibly from an interrupt) are summed per pulse, which is
    exact because the two counters saturate independently and the flag is sticky. *)
From Verif Require Import Base.

(** ** Calibration parameters *)

(** CalibrationParameters, .h 477-538. *)
Record calp := CP { c_tfotc : Z; c_tfcto : Z; c_prec : Z; c_sotc : Z; c_scto : Z }.
Definition bad_precision : Z := 100.                         (* .h 534 *)
Definition max_usable_precision : Z := 15.                   (* .h 532 *)
Definition cp0 : calp := CP 0 0 bad_precision 0 0.           (* .h 482-492 *)
(** cannotRunProportional, .h 536-537. *)
Definition cannotRunProportional (c : calp) : bool := c_prec c >? max_usable_precision.

(** The halving loop, .cpp 102-106; 16 iterations bring any uint16_t to 0. *)
Fixpoint halve (fuel : nat) (a b dr : Z) : option (Z * Z) :=
  if Z.max a b >? dr then
    match fuel with
    | O => None
    | S fuel => halve fuel (Z.shiftr a 1) (Z.shiftr b 1) dr
    end
  else Some (a, b).

(** updateAndCompute, .cpp 70-123. *)
Definition updateAndCompute (oc co dr : Z) : option (calp * bool) :=
  let bad s1 s2 := CP oc co bad_precision s1 s2 in           (* 76-80 *)
  if dr =? 0 then Some (bad 0 0, false) else                 (* 83 *)
  let minticks := Z.min oc co in                             (* 84-85 *)
  if minticks =? 0 then Some (bad 0 0, false) else           (* 87 *)
  if (Z.shiftr oc 1 >? co) || (Z.shiftr co 1 >? oc) then Some (bad 0 0, false) else (* 93-95 *)
  do (a, b) <- halve 16 oc co dr ;                           (* 100-106 *)
  let s1 := u8 a in let s2 := u8 b in                        (* 107-108 *)
  if Z.min a b <? 8 then Some (bad s1 s2, false) else        (* 110 *)
  let q := 128 * dr / minticks in
  let prec := u8 (if q <? 1 then 1 else if q >? 100 then 100 else q) in (* 115-116 *)
  Some (CP oc co prec s1 s2, negb (prec >? max_usable_precision)).      (* 119-122 *)

(** Reconciliation loop of computePosition, .cpp 136-142; [fuel] bounds the iterations ([None] =
    does not terminate within them). *)
Fixpoint reconcile (fuel : nat) (c : calp) (tfo rev : Z) : option (Z * Z) :=
  if rev >=? c_scto c then
    if c_scto c =? 0 then Some (tfo, rev)                    (* 138 *)
    else match fuel with
    | O => None
    | S fuel => reconcile fuel c
                  (if tfo >? c_sotc c then tfo - c_sotc c else 0) (* 140-141 *)
                  (rev - c_scto c)                            (* 139 *)
    end
  else Some (tfo, rev).

(** Percentage from ticks, .cpp 147-152. *)
Definition position (c : calp) (tfo : Z) : Z :=
  if tfo =? 0 then 100
  else if tfo >=? c_tfotc c then 0
  else u8 ((c_tfotc c - tfo) * 100 / c_tfotc c).

(** computePosition, .cpp 129-153: new tick counts and the position. *)
Definition computePosition (c : calp) (tfo rev : Z) : option (Z * Z * Z) :=
  do (t, r) <- reconcile (Z.to_nat rev) c tfo rev ;
  Some (t, r, position c t).

(** ** Driver state *)

(** enum driverState, .h 125-145. *)
Inductive dstate :=
| Init | InitWaiting | PinWithdrawing | PinWithdrawn | Calibrating | Normal | Decalcinating | Error.

(** Data members, .h 184-245, 543-577; the union perState (.h 194-231) is zeroed at every state
    change and only the member of the current state is used, so it is flattened here. *)
Record mst := M {
  m_state : dstate;
  m_waited : Z;      (* initWaiting.ticksWaited *)
  m_wall : Z;        (* wallclock2sTicks *)
  m_hits : Z;        (* endStopHitCount *)
  m_calib : Z;       (* calibState *)
  m_toc : Z; m_tco : Z;  (* valveCalibrating.ticksFromOpenToClosed / ClosedToOpen *)
  m_fitted : bool;   (* valvePinWithdrawn.valveFitted *)
  m_cur : Z; m_tgt : Z;
  m_cp : calp; m_recal : bool;
  m_tfo : Z; m_rev : Z }.

Definition set_state s st := M st 0 0 0 0 0 0 false (m_cur s) (m_tgt s) (m_cp s) (m_recal s) (m_tfo s) (m_rev s). (* changeState, .h 186-187 *)
Definition set_waited s v := M (m_state s) v (m_wall s) (m_hits s) (m_calib s) (m_toc s) (m_tco s) (m_fitted s) (m_cur s) (m_tgt s) (m_cp s) (m_recal s) (m_tfo s) (m_rev s).
Definition set_wall s v := M (m_state s) (m_waited s) v (m_hits s) (m_calib s) (m_toc s) (m_tco s) (m_fitted s) (m_cur s) (m_tgt s) (m_cp s) (m_recal s) (m_tfo s) (m_rev s).
Definition set_hits s v := M (m_state s) (m_waited s) (m_wall s) v (m_calib s) (m_toc s) (m_tco s) (m_fitted s) (m_cur s) (m_tgt s) (m_cp s) (m_recal s) (m_tfo s) (m_rev s).
Definition set_calib s v := M (m_state s) (m_waited s) (m_wall s) (m_hits s) v (m_toc s) (m_tco s) (m_fitted s) (m_cur s) (m_tgt s) (m_cp s) (m_recal s) (m_tfo s) (m_rev s).
Definition set_toc s v := M (m_state s) (m_waited s) (m_wall s) (m_hits s) (m_calib s) v (m_tco s) (m_fitted s) (m_cur s) (m_tgt s) (m_cp s) (m_recal s) (m_tfo s) (m_rev s).
Definition set_tco s v := M (m_state s) (m_waited s) (m_wall s) (m_hits s) (m_calib s) (m_toc s) v (m_fitted s) (m_cur s) (m_tgt s) (m_cp s) (m_recal s) (m_tfo s) (m_rev s).
Definition set_fitted s v := M (m_state s) (m_waited s) (m_wall s) (m_hits s) (m_calib s) (m_toc s) (m_tco s) v (m_cur s) (m_tgt s) (m_cp s) (m_recal s) (m_tfo s) (m_rev s).
Definition set_cur s v := M (m_state s) (m_waited s) (m_wall s) (m_hits s) (m_calib s) (m_toc s) (m_tco s) (m_fitted s) v (m_tgt s) (m_cp s) (m_recal s) (m_tfo s) (m_rev s).
Definition set_tgt s v := M (m_state s) (m_waited s) (m_wall s) (m_hits s) (m_calib s) (m_toc s) (m_tco s) (m_fitted s) (m_cur s) v (m_cp s) (m_recal s) (m_tfo s) (m_rev s).
Definition set_cp s v := M (m_state s) (m_waited s) (m_wall s) (m_hits s) (m_calib s) (m_toc s) (m_tco s) (m_fitted s) (m_cur s) (m_tgt s) v (m_recal s) (m_tfo s) (m_rev s).
Definition set_recal s v := M (m_state s) (m_waited s) (m_wall s) (m_hits s) (m_calib s) (m_toc s) (m_tco s) (m_fitted s) (m_cur s) (m_tgt s) (m_cp s) v (m_tfo s) (m_rev s).
Definition set_ticks s a b := M (m_state s) (m_waited s) (m_wall s) (m_hits s) (m_calib s) (m_toc s) (m_tco s) (m_fitted s) (m_cur s) (m_tgt s) (m_cp s) (m_recal s) a b.

(** Constructor arguments, .h 325-340. *)
Record cfg := Cfg { g_dr : Z; g_limit : Z }.
(** State at power-up; the two tick counters are not initialised by the code (.h 573-575). *)
Definition power_up (tfo rev : Z) : mst :=
  M Init 0 0 0 0 0 0 false 100 (50 - 1) cp0 true tfo rev.    (* .h 184, 241, 245, 340 *)

(** What the hardware does in one motor pulse: sub-cycle ticks signalled while closing and while
    opening, and whether an end stop (high current) was signalled. *)
Record pulse := P { p_close : Z; p_open : Z; p_hit : bool }.
(** The environment of one poll: first sub-cycle time read; supply reads as 0; supply low; activity
    to be minimised; ticks during a wiggle; then for each further motor pulse its outcome and the
    sub-cycle time read after it. *)
Record env := E { e_time : Z; e_vzero : bool; e_vlow : bool; e_quiet : bool;
                  e_wiggle : pulse; e_pulses : list (pulse * Z) }.

(** Observable actions of a poll. *)
Inductive act :=
| Time (t : Z)                               (* sub-cycle time read *)
| Run (opening : bool) (ticks : Z) (hit : bool) (* motorRun(ticks, dir) and what it reported *)
| Off.                                       (* motorRun(0, motorOff) *)

(** signalRunSCTTick, .cpp 41-61, for all the ticks of a pulse; ignored by the end-stop-only class
    (.h 407). *)
Definition sat_add (a n : Z) : Z := Z.min 65535 (a + n).
Definition tick (prop : bool) (p : pulse) (s : mst) : mst :=
  if prop then set_ticks s (sat_add (m_tfo s) (p_close p)) (sat_add (m_rev s) (p_open p)) else s.

(** runTowardsEndStop, .cpp 208-220. *)
Definition runTowardsEndStop (g : cfg) (prop toOpen : bool) (p : pulse) (s : mst) : mst * list act :=
  (tick prop p s, [Run toOpen (g_dr g) (p_hit p); Off]).

(** wiggle, .cpp 172-178. *)
Definition wiggle (prop : bool) (p : pulse) (s : mst) : mst * list act :=
  (tick prop p s, [Off; Run true 0 (p_hit p); Run false 0 (p_hit p); Off]).

(** hitEndstop, .h 289-290 and 600-605. *)
Definition hitEndstop (prop open : bool) (s : mst) : mst :=
  let s := set_cur s (if open then 100 else 0) in
  if prop then set_ticks s (if open then 0 else c_tfotc (m_cp s)) 0 else s.

(** recomputeIntermediatePosition, .h 277 and 589-597. *)
Definition recompute (prop : bool) (s : mst) : option mst :=
  if prop && negb (m_recal s) then
    do (tr, pc) <- computePosition (m_cp s) (m_tfo s) (m_rev s) ;
    let '(t, r) := tr in
    Some (set_cur (set_ticks s t r) (if pc <? 1 then 1 else if pc >? 99 then 99 else pc))
  else Some s.

(** computeSctAbsLimitDR, .h 167. *)
Definition limitDR (g : cfg) : Z := u8 (g_limit g - g_dr g).
Definition maxHits : Z := 4.                                 (* .h 88 *)
Definition maxTravel : Z := 120.                             (* .h 63-68 *)

(** The do-while loops of .cpp 328-337, 505-518, 526-541, 548-566: pulses towards one end until
    [need] consecutive end-stop hits or until too late; the flag tells which. *)
Fixpoint pulses (g : cfg) (prop toOpen : bool) (need : Z) (ps : list (pulse * Z)) (s : mst)
  : option (mst * bool * list act) :=
  match ps with
  | [] => None   (* the environment given is too short: poll has not returned *)
  | (p, t) :: ps =>
      let '(s, tr) := runTowardsEndStop g prop toOpen p s in
      if negb (p_hit p) || negb (u8 (m_hits s + 1) >=? need) then
        let s := set_hits s (if p_hit p then u8 (m_hits s + 1) else 0) in
        if t <=? limitDR g then
          do (r, tr') <- pulses g prop toOpen need ps s ;
          Some (r, tr ++ [Time t] ++ tr')
        else Some (s, false, tr ++ [Time t])
      else Some (set_hits s (u8 (m_hits s + 1)), true, tr)
  end.

(** The low-supply tests, .cpp 410 and 224-235 (a monitor that is absent reports neither). *)
Definition low (e : env) : bool := e_vzero e || e_vlow e.
Definition shouldDefer (e : env) : bool := e_vlow e || e_quiet e.

(** inNonProportionalMode, .h 650-651. *)
Definition inNonProp (s : mst) : bool := m_recal s || cannotRunProportional (m_cp s).

(** do_valveCalibrating_prop, .cpp 459-616. *)
Definition calibrate (g : cfg) (e : env) (s : mst) : option (mst * list act) :=
  let s := set_recal s true in                               (* 462 *)
  if shouldDefer e then Some (set_state s Normal, []) else   (* 466-470 *)
  let s := set_wall s (u8 (m_wall s + 1)) in                 (* 475 *)
  if m_wall s >? maxTravel then Some (set_state s Error, []) else (* 475-480 *)
  let need := maxHits + 1 in                                 (* 487 *)
  if m_calib s =? 0 then
    Some (set_calib (set_hits (set_wall s 0) 0) 1, [])       (* 492-501 *)
  else if m_calib s =? 1 then                                (* 502-520 *)
    do (r, tr) <- pulses g true true need (e_pulses e) s ;
    let '(s, conf) := r in
    Some (if conf then set_calib (set_hits (set_wall (set_ticks s 0 0) 0) 0) 2 else s, tr)
  else if m_calib s =? 2 then                                (* 521-543 *)
    do (r, tr) <- pulses g true false need (e_pulses e) s ;
    let '(s, conf) := r in
    Some (if conf then set_calib (set_hits (set_wall (set_toc s (m_tfo s)) 0) 0) 3 else s, tr)
  else if m_calib s =? 3 then                                (* 544-568 *)
    do (r, tr) <- pulses g true true need (e_pulses e) s ;
    let '(s, conf) := r in
    Some (if conf then set_calib (set_ticks (set_tco s (m_rev s)) 0 0) 4 else s, tr)
  else if m_calib s =? 4 then                                (* 569-609 *)
    do (c, _) <- updateAndCompute (m_toc s) (m_tco s) (g_dr g) ;
    Some (set_state (hitEndstop true true (set_recal (set_cp s c) false)) Normal, [])
  else Some (set_state s Error, []).                         (* 611 *)

(** Single moves in proportional mode, .cpp 692-750. *)
Definition propMove (g : cfg) (open : bool) (e : env) (s : mst) : option (mst * list act) :=
  match e_pulses e with
  | [] => None
  | (p, _) :: _ =>
      let '(s, tr) := runTowardsEndStop g true open p s in
      do s <- recompute true s ;
      if p_hit p then
        let far := if open then m_cur s <? 100 - 19 else m_cur s >? 19 in  (* 701, 731; 19 = fnmax(19, 16) *)
        let s := if far then set_recal s true else s in
        let s := set_hits s (u8 (m_hits s + 1)) in
        Some (if m_hits s >=? maxHits then set_hits (hitEndstop true open s) 0 else s, tr)
      else Some (set_hits s 0, tr)
  end.

(** do_valveNormal_prop, .cpp 623-754: [inl] = poll() is left at once, [inr] = fall through. *)
Definition normal_prop (g : cfg) (e : env) (s : mst) : option ((mst * list act) + unit) :=
  if m_recal s && negb (shouldDefer e) then Some (inl (set_state s Calibrating, [])) else (* 626-634 *)
  if inNonProp s then Some (inr tt) else                     (* 638 *)
  let eps := c_prec (m_cp s) in                              (* 646 *)
  let weps := Z.max 11 (u8 (2 * eps)) in                     (* 648-650 *)
  let upper := u8 (100 - weps) in let lower := weps in       (* 651-652 *)
  let upperH := u8 (upper + eps) in let lowerH := u8 (lower - eps) in (* 654-655 *)
  if (m_tgt s >=? upperH) || (m_tgt s <=? lowerH) then Some (inr tt) else (* 657-659 *)
  if ((m_tgt s >=? upper) && (m_cur s =? 100)) || ((m_tgt s <=? lower) && (m_cur s =? 0))
  then Some (inr tt) else                                    (* 663-665 *)
  if ((m_tgt s >=? m_cur s) && (m_tgt s <=? m_cur s + eps)) ||
     ((m_cur s >=? m_tgt s) && (m_cur s <=? m_tgt s + eps))
  then Some (inl (set_hits s 0, [])) else                    (* 673-680 *)
  do r <- propMove g (m_tgt s >? m_cur s) e s ;              (* 692-750 *)
  Some (inl r).

(** The rest of the valveNormal case, .cpp 400-437. *)
Definition normal_binary (g : cfg) (prop : bool) (e : env) (s : mst) : option (mst * list act) :=
  let binaryOpen := m_tgt s >=? 50 in                        (* 400 *)
  if (if binaryOpen then 100 else 0) =? m_cur s then Some (set_hits s 0, []) else (* 401-405 *)
  if low e && (m_tgt s <? m_cur s) then Some (s, []) else    (* 410-411 *)
  match e_pulses e with
  | [] => None
  | (p, _) :: _ =>
      let '(s, tr) := runTowardsEndStop g prop binaryOpen p s in (* 421 *)
      if negb (p_hit p) then
        do s <- recompute prop (set_hits s 0) ; Some (s, tr)  (* 424-426 *)
      else
        let s := set_hits s (u8 (m_hits s + 1)) in           (* 428 *)
        Some (if m_hits s >=? maxHits then set_hits (hitEndstop prop binaryOpen s) 0 else s, tr) (* 431-433 *)
  end.

(** poll, .cpp 241-453. *)
Definition poll_late (g : cfg) (e : env) : bool := e_time e >=? g_limit g.  (* 257 *)
Definition poll_body (g : cfg) (prop : bool) (e : env) (s : mst) : option (mst * list act) :=
  match m_state s with
  | Init =>                                                  (* 263-277 *)
      let '(s, tr) := wiggle prop (e_wiggle e) s in
      Some (set_state s InitWaiting, tr)
  | InitWaiting =>                                           (* 282-301 *)
      if m_waited s <? 15 then Some (set_waited s (u8 (m_waited s + 1)), [])
      else let '(s, tr) := wiggle prop (e_wiggle e) s in
           Some (set_state s PinWithdrawing, tr)
  | PinWithdrawing =>                                        (* 304-340 *)
      let s := set_wall s (u8 (m_wall s + 1)) in
      if m_wall s >? maxTravel then Some (set_state s Error, []) else
      do (r, tr) <- pulses g prop true maxHits (e_pulses e) s ;
      let '(s, conf) := r in
      Some (if conf then set_state (hitEndstop prop true s) PinWithdrawn else s, tr)
  | PinWithdrawn =>                                          (* 343-357 *)
      if m_fitted s then
        let '(s, tr) := wiggle prop (e_wiggle e) s in Some (set_state s Calibrating, tr)
      else Some (s, [])
  | Calibrating =>                                           (* 360-373 *)
      if prop then calibrate g e s else Some (set_state s Normal, [])
  | Normal =>                                                (* 376-437 *)
      if m_cur s =? m_tgt s then Some (set_hits s 0, []) else
      if prop then
        do r <- normal_prop g e s ;
        match r with inl x => Some x | inr _ => normal_binary g prop e s end
      else normal_binary g prop e s
  | Decalcinating | Error => Some (set_state s Error, [Off]) (* 441-451 *)
  end.
Definition poll (g : cfg) (prop : bool) (e : env) (s : mst) : option (mst * list act) :=
  if poll_late g e then Some (s, [Time (e_time e)]) else
  do (s', tr) <- poll_body g prop e s ;
  Some (s', Time (e_time e) :: tr).

(** setTargetPC, .h 359-360. *)
Definition setTargetPC (v : Z) (s : mst) : mst := set_tgt s (Z.min v 100).
(** signalValveFitted, .h 410-411. *)
Definition signalValveFitted (s : mst) : mst :=
  match m_state s with PinWithdrawn => set_fitted s true | _ => s end.
(** getMinPercentOpen, .h 363-364 and .cpp 156-161. *)
Definition getMinPercentOpen (prop : bool) (s : mst) : Z :=
  if prop then Z.max (u8 (10 + c_prec (m_cp s))) 15 else 67.
(** isControlledValveReallyOpen, .h 373-374. *)
Definition isReallyOpen (prop : bool) (s : mst) : bool :=
  match m_state s with Normal => m_cur s >=? getMinPercentOpen prop s | _ => false end.

(** What can happen to a driver from outside. *)
Inductive op := OPoll (e : env) | OTarget (v : Z) | OFitted.
Definition step (g : cfg) (prop : bool) (o : op) (s : mst) : option (mst * list act) :=
  match o with
  | OPoll e => poll g prop e s
  | OTarget v => Some (setTargetPC v s, [])
  | OFitted => Some (signalValveFitted s, [])
  end.
Fixpoint run (g : cfg) (prop : bool) (os : list op) (s : mst) : option (mst * list act) :=
  match os with
  | [] => Some (s, [])
  | o :: os =>
      do (s1, t1) <- step g prop o s ;
      do (s2, t2) <- run g prop os s1 ;
      Some (s2, t1 ++ t2)
  end.
