(** The common part of all radio links, the RTC watchdog, the conditional reset of the
    transmit restart counter, and the polled I2C transfer of the EFR32 build. *)
From Verif Require Import Base EepromModel TxCtrModel.

(** ** OTRadioLink, OTRadioLink_OTRadioLink.h.
    The driver below it is represented by what it is asked to do: the list of channels
    _dolisten() was called for, newest first (it reads getListenChannel(), 170-173), and
    [cfg_answer], the result of _doconfig() (164-169).  A channel configuration is any value;
    [None] for the pointer is NULL. *)
Record Link (C : Type) := mkLink { lk_listen : Z; lk_n : Z; lk_cfg : option (list C); lk_do : list Z }.
Arguments mkLink {C}. Arguments lk_listen {C}. Arguments lk_n {C}. Arguments lk_cfg {C}. Arguments lk_do {C}.
(** Constructor, 176-180. *)
Definition link_new {C} : Link C := mkLink (-1) 0 None [].
(** configure, 211-217. *)
Definition configure {C} (cfg_answer : bool) (channels : Z) (configs : option (list C)) (l : Link C) : Link C * bool :=
  if (channels <=? 0) || match configs with None => true | Some _ => false end then (l, false)   (* 213 *)
  else (mkLink (lk_listen l) channels configs (lk_do l), cfg_answer).                             (* 214-216 *)
(** getChannelConfig, 224-228: NULL, or the element at the given offset; [None] is a
    read outside the configuration array. *)
Definition getChannelConfig {C} (l : Link C) (channel : Z) : option (option C) :=
  if channel >=? lk_n l then Some None else                                  (* 226: both promoted to int *)
  match lk_cfg l with
  | None => None
  | Some cs => match nth_error cs (Z.to_nat channel) with Some c => Some (Some c) | None => None end
  end.
(** listen, 259-267. *)
Definition listen {C} (activeRX : bool) (channel : Z) (l : Link C) : Link C :=
  let old := lk_listen l in
  let new := if negb activeRX then -1 else
             if channel <=? -1 then -1 else if channel >=? lk_n l then i8 (lk_n l - 1) else channel in   (* 262-263 *)
  mkLink new (lk_n l) (lk_cfg l) (if (-1 =? new) || negb (old =? new) then new :: lk_do l else lk_do l).
Inductive LinkOp (C : Type) := LConfigure (answer : bool) (channels : Z) (configs : option (list C)) | LListen (rx : bool) (channel : Z).
Arguments LConfigure {C}. Arguments LListen {C}.
Definition link_step {C} (o : LinkOp C) (l : Link C) : Link C :=
  match o with LConfigure a n c => fst (configure a n c l) | LListen rx ch => listen rx ch l end.
Fixpoint link_run {C} (os : list (LinkOp C)) (l : Link C) : Link C :=
  match os with [] => l | o :: os => link_run os (link_step o l) end.

(** ** RTC watchdog, OTV0P2BASE_RTC.cpp 315-325 and 353-388 (the clock part of the same
    interrupt is in RtcModel).  Both flags are static, so false at a restart. *)
Record Wd := mkWd { wd_on : bool; wd_late : bool }.
Definition wd0 := mkWd false false.
Inductive WdEv := WdEnable (on : bool) | WdFeed | WdTick.
(** New state, and whether forceReset() is called; forceReset does not return. *)
Definition wd_step (e : WdEv) (w : Wd) : Wd * bool :=
  match e with
  | WdEnable on => (mkWd on (wd_late w), false)                              (* 322 *)
  | WdFeed => (mkWd (wd_on w) false, false)                                  (* 326 *)
  | WdTick => if wd_on w then (mkWd (wd_on w) true, wd_late w) else (w, false)   (* 355-388 *)
  end.
(** A history from a restart: [Some k] if event number k (from 0) forces a reset. *)
Fixpoint wd_run (k : nat) (w : Wd) (es : list WdEv) : option nat :=
  match es with
  | [] => None
  | e :: es => let (w', r) := wd_step e w in if (r : bool) then Some k else wd_run (S k) w' es
  end.

(** ** resetRaw3BytePersistentTXRestartCounterCond,
    OTRadioLink_SecureableFrameType_V0p2Impl.h 290-297. *)
Definition resetCond (r : Ctr3) : M bool :=
  run c <- getTXNVCtrPrefix;                                                 (* 294 *)
  match c with
  | None => ret false
  | Some (a, _, _) => if a <? 32 then incrementTXNVCtrPrefix                 (* 295 *)
                      else resetTX false r                                   (* 296 *)
  end.

(** ** I2CSPM::transfer, read and write, silabs_drivers/cppDrivers/i2c_driver.cpp 149-213.
    The peripheral is an oracle: the answer of I2C_TransferInit and of each later
    I2C_Transfer poll. *)
Inductive I2CAns := IDone | IInProgress | INack | IUsage | IBusErr.
Definition in_progress (a : I2CAns) : bool := match a with IInProgress => true | _ => false end.
(** The loop 208-210 with [timeout] polls left; result and number of polls made. *)
Fixpoint i2c_poll (timeout : nat) (p : nat -> I2CAns) (k : nat) (ret : I2CAns) : I2CAns * nat :=
  if in_progress ret then
    match timeout with
    | O => (ret, k)
    | S t => i2c_poll t p (S k) (p k)
    end
  else (ret, k).
Definition I2C_TIMEOUT : Z := 300000.                                        (* i2c_driver.h 104 *)
Definition i2c_transfer (init : I2CAns) (p : nat -> I2CAns) : I2CAns * nat := i2c_poll (Z.to_nat I2C_TIMEOUT) p 0 init.
(** What is put on the bus: address byte, bytes written, number to read. *)
Definition i2c_read (addr : Z) (cmd : option (list Z)) (rxLen : option Z) : option (Z * list Z * Z) :=
  match cmd, rxLen with
  | Some (c :: cs), Some n => if n =? 0 then None else Some (u16 (addr * 2), c :: cs, n)      (* 154-164 *)
  | _, _ => None                                                                              (* 151-152: usage fault *)
  end.
Definition i2c_write (addr : Z) (cmd : option (list Z)) : option (Z * list Z * Z) :=
  match cmd with Some (c :: cs) => Some (u16 (addr * 2), c :: cs, 0) | _ => None end.         (* 176-184 *)
