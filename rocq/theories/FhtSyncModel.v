(** Model of the FHT8V valve driver: synchronisation and periodic transmission.
    content/OTRadioLink/utility/OTRadValve_FHT8VRadValve.cpp lines 370-428, 466-763 and
    content/OTRadioLink/utility/OTRadValve_FHT8VRadValve.h lines 217-590 (AVR build, two-second
    tick so MAX_HSC = 3, IGNORE_FHT_SYNC not defined).
    The transmit buffer is represented by the command it holds (its bytes are those of
    FhtModel.create, plus preamble and trailer); sleeping until the slot's time and serial output
    are not modelled. *)
From Verif Require Import Base FhtModel.

(** What the transmit buffer holds / what is sent. *)
Inductive cmd :=
| CSync (h1 h2 ext : Z)      (* command 0x2c, .cpp 516-520 *)
| CFinal (h1 h2 : Z)         (* command 0x20, extension 0, .cpp 557-561 *)
| CValve (h1 h2 pc : Z).     (* command 0x26, .h 514-527 *)
(** The message that goes into the bit stream. *)
Definition msg_of (c : cmd) : msg :=
  match c with
  | CSync h1 h2 e => Msg h1 h2 0 0x2c e
  | CFinal h1 h2 => Msg h1 h2 0 0x20 0
  | CValve h1 h2 pc => Msg h1 h2 0 0x26 (percentTo255 pc)
  end.

Record fv := FV {
  radio : bool;              (* radio != NULL, .h 228 *)
  hc1 : Z; hc2 : Z;          (* .h 314 *)
  sstate : Z;                (* syncStateFHT8V, .h 258 *)
  hsnext : Z;                (* halfSecondsToNextFHT8VTX, .h 261 *)
  hsc : Z;                   (* halfSecondCount, .h 264 *)
  synced : bool;             (* syncedWithFHT8V, .h 267 *)
  vopen : bool;              (* FHT8V_isValveOpen, .h 270 *)
  value : Z;                 (* target % open *)
  cbuf : option cmd;         (* transmit buffer; None: starts with 0xff *)
  nv1 : Z; nv2 : Z }.        (* EEPROM house codes, 16 and 17 *)

Definition MAX_HSC := 3.                             (* .h 283 *)
Definition MIN_OPEN := 10.                           (* getMinPercentOpen, .h 79, 363 *)
Definition valid_hc (h : Z) : bool := h <=? 99.      (* isValidFHTV8HouseCode, .h 125 *)
Definition isValidHC (s : fv) : bool := valid_hc (hc1 s) && valid_hc (hc2 s).  (* .h 331 *)
(** isAvailable, .h 359, exactly as written (its comment says "false if radio or house
    codes not set"). *)
Definition isAvailable (s : fv) : bool := radio s && negb (isValidHC s).
Definition isReallyOpen (s : fv) : bool := synced s && vopen s && (MIN_OPEN <=? value s).  (* .h 401 *)
(** FHT8VTXGapHalfSeconds, .h 349, 354-355. *)
Definition gap (h2 : Z) : Z := u8 (Z.land h2 7 + 230).
Definition gap_from (h2 count : Z) : Z := u8 (gap h2 - (MAX_HSC - count)).

Definition setHC (s : fv) h1 h2 := FV (radio s) h1 h2 (sstate s) (hsnext s) (hsc s) (synced s) (vopen s) (value s) (cbuf s) (nv1 s) (nv2 s).
Definition setSync (s : fv) st n syn op := FV (radio s) (hc1 s) (hc2 s) st n (hsc s) syn op (value s) (cbuf s) (nv1 s) (nv2 s).
Definition setHsc (s : fv) c := FV (radio s) (hc1 s) (hc2 s) (sstate s) (hsnext s) c (synced s) (vopen s) (value s) (cbuf s) (nv1 s) (nv2 s).
Definition setBuf (s : fv) b := FV (radio s) (hc1 s) (hc2 s) (sstate s) (hsnext s) (hsc s) (synced s) (vopen s) (value s) b (nv1 s) (nv2 s).
Definition setValue (s : fv) v := FV (radio s) (hc1 s) (hc2 s) (sstate s) (hsnext s) (hsc s) (synced s) (vopen s) v (cbuf s) (nv1 s) (nv2 s).
Definition setRadio (s : fv) b := FV b (hc1 s) (hc2 s) (sstate s) (hsnext s) (hsc s) (synced s) (vopen s) (value s) (cbuf s) (nv1 s) (nv2 s).
Definition setNv (s : fv) a b := FV (radio s) (hc1 s) (hc2 s) (sstate s) (hsnext s) (hsc s) (synced s) (vopen s) (value s) (cbuf s) a b.

(** resyncWithValve, .h 372-378. *)
Definition resync (s : fv) : fv := setSync s 0 0 false false.
Definition clearHC (s : fv) : fv := resync (setHC s 255 255).                        (* .h 318 *)
Definition setHC1 (s : fv) h : fv := if h =? hc1 s then s else resync (setHC s h (hc2 s)).  (* .h 322 *)
Definition setHC2 (s : fv) h : fv := if h =? hc2 s then s else resync (setHC s (hc1 s) h).  (* .h 323 *)
(** nvClearHC, nvSetHC1/2, nvGetHC1/2, nvLoadHC: .cpp 696-763. *)
Definition nvClearHC (s : fv) : fv := setNv (clearHC s) 255 255.
Definition nvSetHC1 (s : fv) h : fv := let s := setHC1 s h in setNv s h (nv2 s).
Definition nvSetHC2 (s : fv) h : fv := let s := setHC2 s h in setNv s (nv1 s) h.
Definition nvGetHC1 (s : fv) : fv * Z :=
  if valid_hc (hc1 s) then (s, hc1 s)
  else (if valid_hc (nv1 s) then setHC1 s (nv1 s) else s, nv1 s).
Definition nvGetHC2 (s : fv) : fv * Z :=
  if valid_hc (hc2 s) then (s, hc2 s)
  else (if valid_hc (nv2 s) then setHC2 s (nv2 s) else s, nv2 s).
Definition nvLoadHC (s : fv) : fv := fst (nvGetHC2 (fst (nvGetHC1 s))).

(** Constructor, .h 243-252, 572-574: unset house codes, empty buffer; [e1] and [e2] are what the
    EEPROM holds. *)
Definition fv_init (e1 e2 : Z) : fv := FV false 255 255 0 0 0 false false 0 None e1 e2.

(** FHT8VCreateValveSetCmdFrame, .h 507-566, as far as the command goes. *)
Definition createValveCmd (s : fv) (pc : Z) : fv := setBuf s (Some (CValve (hc1 s) (hc2 s) pc)).
(** set, .h 579-587. *)
Definition set_pc (s : fv) (v : Z) : fv * bool :=
  if 100 <? v then (s, false) else (createValveCmd (setValue s v) v, true).

(** FHT8VTXFHTQueueAndSendCmd, .cpp 382-392: a transmission is the command and whether it is
    sent twice. *)
Definition tx := (cmd * bool)%type.
Definition send (s : fv) (dbl : bool) : list tx :=
  match cbuf s with
  | None => []
  | Some c => if radio s then [(c, dbl)] else []
  end.
(** valveSettingTX, .cpp 416-423, with ALLOW_NON_SYNC_DOUBLE_TX = false (412) and
    setFHT8V_isValveOpen (398-399). *)
Definition valveSettingTX (s : fv) (allowDouble : bool) : fv * list tx :=
  (setSync s (sstate s) (hsnext s) (synced s) (MIN_OPEN <=? value s), send s (false && allowDouble)).

(** doSync, .cpp 473-594; [rnd] is what randRNG8() returns. *)
Definition doSync (s : fv) (rnd : Z) (dbl : bool) : fv * list tx * bool :=
  if negb (isAvailable s) then (setSync s (sstate s) (hsnext s) false (vopen s), [], false) else   (* 476-477 *)
  if (sstate s =? 0) && negb (Z.land 0x1e rnd =? 0)
  then (setSync s (sstate s) (hsnext s) false (vopen s), [], false) else          (* 495 *)
  let st := if sstate s =? 0 then 241 else sstate s in                            (* 498 *)
  if 2 <=? st then                                                                (* 507 *)
    let '(s, out) :=
      if negb (Z.land st 1 =? 0) then                                             (* 510 *)
        let s := setBuf s (Some (CSync (hc1 s) (hc2 s) st)) in (s, send s dbl)    (* 512-520 *)
      else (s, []) in
    let st' := u8 (st - 1) in                                                     (* 533 *)
    if st' =? 1 then
      (setSync s st' (u8 (u8 (Z.land (hc2 s) 7 + 8) - (MAX_HSC - hsc s))) (synced s) (vopen s), out, false)  (* 537-539 *)
    else (setSync s st' (hsnext s) (synced s) (vopen s), out, true)               (* 593 *)
  else
    let n := u8 (hsnext s - 1) in                                                 (* 545 *)
    if n =? 0 then
      let s := setBuf (setSync s st n (synced s) false) (Some (CFinal (hc1 s) (hc2 s))) in  (* 548-554 *)
      let out := send s dbl in                                                    (* 556 *)
      let s := setSync s st n true false in                                       (* 567 *)
      let s := createValveCmd s (value s) in                                      (* 574 *)
      (setSync s st (gap_from (hc2 s) (hsc s)) true false, out, false)            (* 577-578 *)
    else (setSync s st n (synced s) (vopen s), [], true).                         (* 593 *)

(** FHT8VPollSyncAndTX_First, .cpp 610-655. *)
Definition poll_first (s : fv) (rnd : Z) (dbl : bool) : fv * list tx * bool :=
  let s := setHsc s 0 in                                                          (* 612 *)
  if negb (synced s) then doSync s rnd true else                                  (* 623 *)
  if MAX_HSC + 1 <? hsnext s then
    (setSync s (sstate s) (u8 (hsnext s - (MAX_HSC + 1))) (synced s) (vopen s), [], false)   (* 630-634 *)
  else
    let s := setSync s (sstate s) (u8 (hsnext s - 1)) (synced s) (vopen s) in     (* 637 *)
    if hsnext s =? 0 then
      let '(s, out) := valveSettingTX s dbl in                                    (* 639 *)
      (setSync s (sstate s) (gap_from (hc2 s) 0) (synced s) (vopen s), out, false) (* 647-648 *)
    else (s, [], true).                                                           (* 652 *)
(** FHT8VPollSyncAndTX_Next, .cpp 668-714. *)
Definition poll_next (s : fv) (rnd : Z) (dbl : bool) : fv * list tx * bool :=
  let s := setHsc s (u8 (hsc s + 1)) in                                           (* 670 *)
  if negb (synced s) then doSync s rnd true else                                  (* 691 *)
  let s := setSync s (sstate s) (u8 (hsnext s - 1)) (synced s) (vopen s) in       (* 694 *)
  if hsnext s =? 0 then
    let '(s, out) := valveSettingTX s dbl in                                      (* 697 *)
    (setSync s (sstate s) (gap_from (hc2 s) (hsc s)) (synced s) (vopen s), out, false)  (* 707-708 *)
  else (s, [], true).                                                             (* 712 *)

(** Other operations of the application. *)
Inductive op := OSet (v : Z) | ORadio (b : bool) | OHC1 (h : Z) | OHC2 (h : Z) | OClear | OResync
  | ONvSet1 (h : Z) | ONvSet2 (h : Z) | ONvClear | ONvLoad.
Definition do_op (s : fv) (o : op) : fv :=
  match o with
  | OSet v => fst (set_pc s v)
  | ORadio b => setRadio s b
  | OHC1 h => setHC1 s h
  | OHC2 h => setHC2 s h
  | OClear => clearHC s
  | OResync => resync s
  | ONvSet1 h => nvSetHC1 s h
  | ONvSet2 h => nvSetHC2 s h
  | ONvClear => nvClearHC s
  | ONvLoad => nvLoadHC s
  end.

(** ** Any history: calls in any order. *)
Inductive ev := EOp (o : op) | EFirst (rnd : Z) (dbl : bool) | ENext (rnd : Z) (dbl : bool).
Definition do_ev (s : fv) (e : ev) : fv * list tx :=
  match e with
  | EOp o => (do_op s o, [])
  | EFirst rnd dbl => fst (poll_first s rnd dbl)
  | ENext rnd dbl => fst (poll_next s rnd dbl)
  end.
Fixpoint run_evs (s : fv) (l : list ev) : fv * list tx :=
  match l with
  | [] => (s, [])
  | e :: r => let (s1, o1) := do_ev s e in let (s2, o2) := run_evs s1 r in (s2, o1 ++ o2)
  end.

(** ** The main loop's use: half-second slots, four to a two-second minor cycle; _First in the
    first, _Next in each later one as long as the previous call returned true (.h 416-442). *)
Record slot_in := SI { si_ops : list op; si_rnd : Z; si_dbl : bool }.
Record msys := MS { ms_fv : fv; ms_phase : Z; ms_active : bool }.
Definition slot (m : msys) (i : slot_in) : msys * list tx :=
  let s := fold_left do_op (si_ops i) (ms_fv m) in
  let ph := if ms_phase m =? 3 then 0 else ms_phase m + 1 in
  if ms_phase m =? 0 then
    let '(s, out, r) := poll_first s (si_rnd i) (si_dbl i) in (MS s ph r, out)
  else if ms_active m then
    let '(s, out, r) := poll_next s (si_rnd i) (si_dbl i) in (MS s ph r, out)
  else (MS s ph false, []).
(** What is sent in each slot. *)
Fixpoint slots (m : msys) (l : list slot_in) : list (list tx) :=
  match l with
  | [] => []
  | i :: r => let (m', o) := slot m i in o :: slots m' r
  end.
