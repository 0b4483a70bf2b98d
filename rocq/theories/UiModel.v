(** Physical user interface: OTRadValve_ActuatorPhysicalUI.{h,cpp}, ModeButtonAndPotActuatorPhysicalUI and
    CycleModeAndLearnButtonsAndPotActuatorPhysicalUI (AVR build), with the dial sensor of TempModel, the valve mode
    of ScheduleModel and the occupancy tracker of OccModel.  The dial's callbacks, when set, are those of the UI
    (setWarmModeFromManualUI, setBakeModeFromManualUI).  A button interrupt can occur at the marked points of read():
    [g i] is the number of presses at the i-th.  Calls into the dial, mode and occupancy objects are atomic
    (simplification).  CLI waking and memory checks are not modelled. *)
From Verif Require Import Base OccModel ScheduleModel TempModel.

(** What the user sees, hears and waits for. *)
Inductive uiact := LedOn | LedOff | Wiggle | Pause (ms : Z) | Pressed.

Record UI := mkUI {
  u_chg : bool; u_tmo : Z; u_sig : bool;               (* statusChange, uiTimeoutM, significantUIOp: .h 152, 162, 167 *)
  u_tick : Z; u_last : Z;                              (* tickCount, lastNominalWarmTarget: .h 254, 257 *)
  u_mode : VMode; u_occ : Occ; u_pot : Pot;
  u_pw : bool; u_pb : bool; u_was : bool }.            (* cycle UI: is{Warm,Bake}ModePutative, modeButtonWasPressed: .h 411-413 *)
Definition set_chg s b := mkUI b (u_tmo s) (u_sig s) (u_tick s) (u_last s) (u_mode s) (u_occ s) (u_pot s) (u_pw s) (u_pb s) (u_was s).
Definition set_tmo s b := mkUI (u_chg s) b (u_sig s) (u_tick s) (u_last s) (u_mode s) (u_occ s) (u_pot s) (u_pw s) (u_pb s) (u_was s).
Definition set_sig s b := mkUI (u_chg s) (u_tmo s) b (u_tick s) (u_last s) (u_mode s) (u_occ s) (u_pot s) (u_pw s) (u_pb s) (u_was s).
Definition set_tick s b := mkUI (u_chg s) (u_tmo s) (u_sig s) b (u_last s) (u_mode s) (u_occ s) (u_pot s) (u_pw s) (u_pb s) (u_was s).
Definition set_last s b := mkUI (u_chg s) (u_tmo s) (u_sig s) (u_tick s) b (u_mode s) (u_occ s) (u_pot s) (u_pw s) (u_pb s) (u_was s).
Definition set_mode s b := mkUI (u_chg s) (u_tmo s) (u_sig s) (u_tick s) (u_last s) b (u_occ s) (u_pot s) (u_pw s) (u_pb s) (u_was s).
Definition set_occ s b := mkUI (u_chg s) (u_tmo s) (u_sig s) (u_tick s) (u_last s) (u_mode s) b (u_pot s) (u_pw s) (u_pb s) (u_was s).
Definition set_pot s b := mkUI (u_chg s) (u_tmo s) (u_sig s) (u_tick s) (u_last s) (u_mode s) (u_occ s) b (u_pw s) (u_pb s) (u_was s).
Definition set_btn s pw pb was := mkUI (u_chg s) (u_tmo s) (u_sig s) (u_tick s) (u_last s) (u_mode s) (u_occ s) (u_pot s) pw pb was.
Definition UI0 := mkUI false 0 false 0 0 VMode0 Occ0 Pot0 false false false.

(** The device: dial with its end stops if there is one, whether its callbacks are set, cycle-mode button or not,
    whether there is an interrupt-safe LED callback, and the temperature control (warm target by dial position). *)
Record Cfg := mkCfg { c_pot : option (Z * Z); c_wired : bool; c_cycle : bool; c_isrled : bool;
  c_minW : Z; c_maxW : Z; c_warm : Z -> Z; c_eco : Z -> bool; c_com : Z -> bool }.
(** What a read() finds: dial (raw), MODE button held, valve controller answers, darkness, battery. *)
Record Inp := mkIn { i_raw : Z; i_held : bool; i_run : bool; i_cfh : bool; i_under : bool; i_dark : bool; i_batt : bool }.

Definition RECENT := 31.                                                     (* .h 155 *)
Definition VERY_RECENT := 2.                                                 (* .h 157 *)
Definition veryRecent (s : UI) : bool := u_tmo s >=? RECENT - VERY_RECENT.   (* .h 304 *)
Definition recent (s : UI) : bool := negb (0 =? u_tmo s).                    (* .h 312 *)

Definition W : Type := UI * list uiact.
Definition wb (m : W) (k : UI -> W) : W := let (s, t) := m in let (s2, t2) := k s in (s2, t ++ t2).
Definition tell (s : UI) (t : list uiact) : W := (s, t).
Notation "'ui' s <- m ; k" := (wb m (fun s => k)) (at level 200, s name, m at level 100, k at level 200).

(** markUIControlUsed, .cpp 47-62. *)
Definition markUsed (s : UI) : UI := set_occ (set_tmo (set_chg s true) RECENT) (markAsOccupied0 (u_occ s)).
(** markUIControlUsedSignificant, .cpp 67-76. *)
Definition markSig (c : Cfg) (s : UI) : W := (markUsed (set_sig s true), if c_isrled c then [LedOn] else []).
(** setWarmModeFromManualUI, .h 328-334. *)
Definition warmFromUI (c : Cfg) (warm : bool) (s : UI) : W :=
  ui s1 <- (if negb (Bool.eqb warm (inWarmMode (u_mode s))) then markSig c s else tell s []);
  tell (set_mode s1 (setWarmModeDebounced (u_mode s1) warm)) [].
(** setBakeModeFromManualUI, .h 337-343. *)
Definition bakeFromUI (c : Cfg) (start : bool) (s : UI) : W :=
  ui s1 <- (if negb (Bool.eqb (inBakeMode (u_mode s)) start) then markSig c s else tell s []);
  tell (set_mode s1 (if start then startBake (u_mode s1) else cancelBakeDebounced (u_mode s1))) [].
Definition atLo (c : Cfg) (s : UI) : bool := match c_pot c with Some (lo, _) => pot_value (u_pot s) <? lo | None => false end. (* SensorTemperaturePot.h 73 *)
Definition atHi (c : Cfg) (s : UI) : bool := match c_pot c with Some (_, hi) => pot_value (u_pot s) >? hi | None => false end. (* 77 *)
(** The button interrupt: startBakeFromInt, .h 354-363 (368), or the cycle UI's, .h 549; the trace records the press. *)
Definition press (c : Cfg) (s : UI) : W :=
  ui s <- tell s [Pressed];
  if c_cycle c then (markUsed s, [])
  else if atLo c s then (markUsed s, [])                                     (* 356-360 *)
  else markSig c (set_mode s (startBake (u_mode s))).                        (* 361-362 *)
Fixpoint presses (c : Cfg) (n : nat) (s : UI) : W :=
  match n with O => (s, []) | S n' => ui s1 <- press c s; presses c n' s1 end.

(** The dial's callbacks, SensorTemperaturePot.h 235-248. *)
Definition pot_call (c : Cfg) (s : UI) (k : PotCall) : W :=
  match k with
  | CallFrost => if c_wired c then warmFromUI c false s else (s, [])
  | CallWarm => if c_wired c then warmFromUI c true s else (s, [])
  | CallBakeStart => if c_wired c then bakeFromUI c true s else (s, [])
  | CallBakeCancel => if c_wired c then bakeFromUI c false s else (s, [])
  | CallOccupied => (set_occ s (markAsOccupied0 (u_occ s)), [])
  end.
Fixpoint pot_calls (c : Cfg) (l : list PotCall) (s : UI) : W :=
  match l with [] => (s, []) | k :: r => ui s1 <- pot_call c s k; pot_calls c r s1 end.

(** userOpFeedback(true), .h 178-189. *)
Definition feedback (c : Cfg) (g : nat -> nat) (i : Inp) (s : UI) : W :=
  ui s1 <- tell s [LedOn];
  ui s2 <- tell (markUsed s1) (if i_run i then [Wiggle] else [Pause 60]);
  ui s3 <- tell s2 [LedOff];
  ui s4 <- presses c (g 11%nat) s3;
  tell (set_sig s4 false) [].

(** The nominal target shown, .cpp 125-127. *)
Definition nominal (c : Cfg) (s : UI) : Z :=
  if atLo c s then u8 (c_minW c - 1) else if atHi c s then u8 (c_maxW c + 1) else c_warm c (pot_value (u_pot s)).
(** Tracking the nominal target, .cpp 129-152. *)
Definition track (c : Cfg) (s : UI) : UI :=
  let n := nominal c s in let l := u_last s in
  if n =? l then s else
  let s := if negb (0 =? l) then set_sig s true
           else if negb (atLo c s) then set_mode s (setWarmModeDebounced (u_mode s) true) else s in
  if (if l <? n then n - l else l - n) >? 10 then set_last s n
  else if l <? n then set_last s (u8 (l + 1)) else set_last s (u8 (l - 1)).
(** Sampling the dial, .cpp 112-152. *)
Definition sample (c : Cfg) (g : nat -> nat) (i : Inp) (lo hi : Z) (s : UI) : W :=
  let (p, calls) := pot_read lo hi (u_pot s) (i_raw i) in
  let s := set_pot s p in
  ui s1 <- presses c (g 5%nat) s;
  ui s2 <- pot_calls c calls s1;
  ui s3 <- presses c (g 6%nat) s2;
  ui s4 <- tell (if atLo c s3 then set_mode s3 (setWarmModeDebounced (u_mode s3) false) else s3) [];  (* 119-120 *)
  ui s5 <- presses c (g 7%nat) s4;
  tell (track c s5) [].

(** The cycle UI's MODE button, .h 424-497; otherwise the default implementation, .h 233. *)
Definition pollMODE (c : Cfg) (i : Inp) (s : UI) : W * bool :=
  if negb (c_cycle c) then ((s, []), false) else
  if i_held i then                                                           (* 435 *)
    let s := if u_was s then s else set_btn s (inWarmMode (u_mode s)) (inBakeMode (u_mode s)) true in (* 437-443 *)
    let s := markUsed s in                                                   (* 447 *)
    ((if negb (u_pw s) then                                                  (* 449-460 *)
       tell (set_btn s true false true) [LedOn; Pause 15; LedOff; Pause 120; LedOn; Pause 15]
     else if negb (u_pb s) then                                              (* 461-473 *)
       tell (set_btn s (u_pw s) true true) [LedOn; Pause 15; LedOff; Pause 120; LedOn; Pause 15; LedOff; Pause 60; LedOn; Pause 60]
     else tell (set_btn s false false true) [LedOn; Pause 15]), true)        (* 474-479 *)
  else if u_was s then                                                       (* 484-494 *)
    let v := setWarmModeDebounced (u_mode s) (u_pw s) in
    let v := if u_pb s then startBake v else cancelBakeDebounced v in
    let s := markUsed (set_mode s v) in
    ((set_btn s (u_pw s) (u_pb s) false, []), false)
  else ((s, []), false).

(** LED display, .cpp 163-244.  [enh]: enhancedUIFeedback, [forth]: forthTick. *)
Definition display (c : Cfg) (g : nat -> nat) (i : Inp) (enh forth : bool) (s : UI) : W :=
  let just := u_chg s || enh in                                              (* 164 *)
  let minimise := negb just || i_batt i in                                   (* 167-170 *)
  ui s1 <- presses c (g 13%nat) s;
  if just || inWarmMode (u_mode s1) then                                     (* 174 *)
    if just || ((forth || i_cfh i || inBakeMode (u_mode s1)) && negb (i_dark i)) then (* 181-184 *)
      let wt := c_warm c (pot_value (u_pot s1)) in                           (* 190 *)
      let short := minimise || c_eco c wt in
      ui s2 <- tell s1 [LedOn; if short then Pause 5 else if negb (c_com c wt) then Pause 15 else Pause 60]; (* 187-195 *)
      ui s3 <- presses c (g 14%nat) s2;
      if (enh && i_under i) || i_cfh i || inBakeMode (u_mode s3) then        (* 199-201 *)
        ui s4 <- tell s3 ([LedOff; Pause 120; LedOn] ++ (if short then [Pause 5] else if negb (c_com c wt) then [Pause 5; Pause 5] else [Pause 15])); (* 203-209 *)
        ui s5 <- presses c (g 15%nat) s4;
        if inBakeMode (u_mode s5) then                                       (* 211-222 *)
          tell s5 [LedOff; Pause 60; LedOn; if short then Pause 5 else if negb (c_com c wt) then Pause 30 else Pause 60]
        else tell s5 []
      else tell s3 []
    else tell s1 []
  else if forth && negb (i_dark i) && i_cfh i then                           (* 232-235 *)
    tell s1 [LedOn; Pause 5; LedOff; Pause 120; LedOn; Pause 5]              (* 238-243 *)
  else tell s1 [].

(** read(), .cpp 85-257, in five stages.  The dial's own 15 ms settling nap is included (SensorTemperaturePot.h 202).
    forthTick is taken from the tick count after the first stage: no interrupt changes that count. *)
(** Tick and minute countdown (safeDecIfNZWeak), .cpp 88-93. *)
Definition stage1 (c : Cfg) (g : nat -> nat) (s0 : UI) : W :=
  ui s <- presses c (g 0%nat) s0;
  let s := set_tick s (u8 (u_tick s + 1)) in                                 (* 88 *)
  ui s <- (if Z.land (u_tick s) 31 =? 0 then                                 (* 91-93 *)
     let o := u_tmo s in
     ui s <- presses c (g 1%nat) s;
     tell (if 0 =? o then s else if u_tmo s =? o then set_tmo s (u8 (o - 1)) else s) []
   else tell s []);
  presses c (g 2%nat) s.
(** The dial, .cpp 99-154. *)
Definition stage2 (c : Cfg) (g : nat -> nat) (i : Inp) (enh forth : bool) (s : UI) : W :=
  ui s <- presses c (g 3%nat) s;
  ui s <- (match c_pot c with                                                (* 99 *)
   | Some (lo, hi) =>
     if enh || forth || (inWarmMode (u_mode s) && negb (longLongVacant (u_occ s))) then (* 109 *)
       ui s <- tell s [Pause 15]; sample c g i lo hi s
     else tell s []
   | None => tell s []
   end);
  presses c (g 8%nat) s.
(** Feedback for significant operations, .cpp 157. *)
Definition stage3 (c : Cfg) (g : nat -> nat) (i : Inp) (s : UI) : W :=
  ui s <- (if u_sig s then feedback c g i s else tell s []);
  presses c (g 12%nat) s.
(** MODE button, else mode display, .cpp 161-244. *)
Definition stage4 (c : Cfg) (g : nat -> nat) (i : Inp) (enh forth : bool) (s : UI) : W :=
  let (m1, active) := pollMODE c i s in                                      (* 161 *)
  ui s <- m1;
  (if active then tell s [] else display c g i enh forth s).
(** LED off, .cpp 248. *)
Definition stage5 (c : Cfg) (g : nat -> nat) (s : UI) : W := ui s <- tell s [LedOff]; presses c (g 16%nat) s.
Definition body (c : Cfg) (g : nat -> nat) (i : Inp) (s0 : UI) : W :=
  ui s <- stage1 c g s0;
  let forth := Z.land (u_tick s) 3 =? 0 in                                   (* 88 *)
  let enh := veryRecent s in                                                 (* 97 *)
  ui s <- stage2 c g i enh forth s;
  ui s <- stage3 c g i s;
  ui s <- stage4 c g i enh forth s;
  stage5 c g s.
Definition ui_read (c : Cfg) (g : nat -> nat) (i : Inp) (s0 : UI) : W * bool :=
  let (s, t) := body c g i s0 in
  let ret := u_chg s in                                                      (* 254 *)
  let (s, t2) := presses c (g 17%nat) s in
  ((set_chg s false, t ++ t2), ret).                                         (* 255-256 *)

(** ** Runs *)
(** Events: read() (with interrupts at any point), a button press outside it, manual mode changes, the minute tick
    of the valve mode, of the occupancy tracker, and a programmatic mode change (schedule, CLI). *)
Inductive uev := URead (g : nat -> nat) (i : Inp) | UPress | UWarm (b : bool) | UBake (b : bool) | UMinute | UOccMinute | USetMode (v : Z).
Definition ui_step (c : Cfg) (s : UI) (e : uev) : UI * list uiact * option bool :=
  match e with
  | URead g i => let '(s', t, r) := ui_read c g i s in (s', t, Some r)
  | UPress => let (s', t) := press c s in (s', t, None)
  | UWarm b => let (s', t) := warmFromUI c b s in (s', t, None)
  | UBake b => let (s', t) := bakeFromUI c b s in (s', t, None)
  | UMinute => (set_mode s (fst (vmode_read (u_mode s))), [], None)
  | UOccMinute => (set_occ s (fst (occ_read nogaps (u_occ s))), [], None)
  | USetMode v => (set_mode s (fst (vmode_set (u_mode s) v)), [], None)
  end.
