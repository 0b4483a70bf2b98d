(** Model of the DS18B20 driver, /repo/content/OTRadioLink/utility/OTV0P2BASE_SensorDS18B20.{h,cpp},
    over any OneWire bus (OwModel.v).  Naps are only counted.  [None] is an access outside the
    caller's array, or [fuel] not enough for the while loops. *)
From Verif Require Import Base OwModel.

(** SensorDS18B20.h 59-66 (value: Sensor base class). *)
Record DS := mkDS { ini : bool; prec : Z; cnt : Z; val : Z }.
(** Constructor, 94-96: constrain(_precision, 9, 12).  DEFAULT_INVALID_TEMP:
    OTV0P2BASE_SensorTemperatureC16Base.h 44, 49. *)
Definition INVALID_TEMP : Z := -128 * 16.
Definition ds_new (p : Z) : DS := mkDS false (Z.min 12 (Z.max 9 p)) 0 INVALID_TEMP.
Section Code.
Context {B : Type} (K : Bus B).
Definition ow_reset (b : B) : B := snd (b_reset K b).
(** init, SensorDS18B20.cpp 82-118: the bus, count and found after the loop. *)
Fixpoint init_loop (fuel : nat) (p : Z) (w : OW) (b : B) (count : Z) (found : bool) : option (B * Z * bool) :=
  match fuel with
  | O => None
  | S fuel => bind (search K w b) (fun '(r, a, w, b) =>
      if negb r then Some (b, count, found)
      else if negb (40 =? znth a 0) then init_loop fuel p w b count found
      else let b := ow_select K (ow_reset b) a in
           let b := ow_write K b 78 in let b := ow_write K b 0 in let b := ow_write K b 0 in
           let b := ow_write K b (u8 (Z.lor ((p - 9) * 32) 31)) in
           init_loop fuel p w b (u8 (count + 1)) true)
  end.
(** init, 68-130. *)
Definition ds_init (fuel : nat) (d : DS) (b : B) : option (bool * DS * B) :=
  bind (init_loop fuel (prec d) reset_search b 0 false) (fun '(b, count, found) => Some (found, mkDS true (prec d) count (val d), b)).
(** The poll of readMultiple, 194-199, [n] turns left: did the bus come free, and naps taken. *)
Fixpoint ds_poll (n : nat) (b : B) (naps : Z) : bool * B * Z :=
  match n with
  | O => (false, b, naps)
  | S m => let '(x, b) := b_read K b in
           if (x : bool) then (true, b, naps)
           else if (m =? 0)%nat then (false, b, naps) else ds_poll m b (naps + 1)
  end.
(** readMultiple, 170-222: the array, how many were read, the bus and the naps taken. *)
Fixpoint rm_loop (fuel : nat) (w : OW) (b : B) (values : list Z) (sensor count index naps : Z) : option (list Z * Z * B * Z) :=
  match fuel with
  | O => None
  | S fuel => bind (search K w b) (fun '(r, a, w, b) =>
      if negb r then Some (values, sensor, b, naps)
      else if negb (40 =? znth a 0) then rm_loop fuel w b values sensor count index naps
      else if 0 <? index then rm_loop fuel w b values sensor count (index - 1) naps
      else let '(free, b, naps) := ds_poll 67 (ow_select K (ow_reset b) a) naps in
           if negb free then Some (values, sensor, b, naps)
           else let b := ow_write K (ow_select K (ow_reset b) a) 190 in
                let '(d0, b) := ow_read K b in
                let '(d1, b) := ow_read K b in
                let b := ow_reset b in
                bind (wr values sensor (i16 (Z.lor (d1 * 256) d0))) (fun values =>
                let sensor := u8 (sensor + 1) in
                if count <=? sensor then Some (values, sensor, b, naps)
                else rm_loop fuel w b values sensor count index naps))
  end.
(** readMultiple, 154-223. *)
Definition readMultiple (fuel : nat) (d : DS) (b : B) (values : list Z) (count index : Z) : option (Z * list Z * DS * B * Z) :=
  bind (if ini d then Some (d, b) else bind (ds_init fuel d b) (fun '(_, d, b) => Some (d, b))) (fun '(d, b) =>
  if 0 =? cnt d then Some (0, values, d, b, 0)
  else bind (rm_loop fuel reset_search (ow_write K (ow_skip K (ow_reset b)) 68) values 0 count index 0) (fun '(values, sensor, b, naps) =>
       Some (sensor, values, d, b, naps))).
(** read, 136-141: &value is an array of one. *)
Definition ds_read (fuel : nat) (d : DS) (b : B) : option (Z * DS * B) :=
  bind (readMultiple fuel d b [val d] 1 0) (fun '(n, vs, d, b, _) =>
  if 1 =? n then Some (znth vs 0, mkDS (ini d) (prec d) (cnt d) (znth vs 0), b)
  else Some (INVALID_TEMP, mkDS (ini d) (prec d) (cnt d) INVALID_TEMP, b)).
(** getSensorCount, 225-229. *)
Definition getSensorCount (fuel : nat) (d : DS) (b : B) : option (Z * DS * B) :=
  bind (if ini d then Some (d, b) else bind (ds_init fuel d b) (fun '(_, d, b) => Some (d, b))) (fun '(d, b) => Some (cnt d, d, b)).
(** isAvailable, SensorDS18B20.h 88. *)
Definition isAvailable (d : DS) : bool := ini d && negb (0 =? cnt d).
End Code.
