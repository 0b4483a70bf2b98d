(** Independent specification of the small-frame format
    (the "quick integrity checks" of SecureBasicFrame-V0.1-201601.txt, quoted in
    OTRadioLink_SecureableFrameType.h 285-295), written without reference to the
    model's helpers. *)
From Verif Require Import Base.

(** Fields of a frame as laid out on the air (offset 0 is the length byte). *)
Definition f_fl (b : list Z) := znth b 0.
Definition f_type (b : list Z) := znth b 1.
Definition f_secure (b : list Z) : Prop := 128 <= f_type b.
Definition f_seq (b : list Z) := znth b 2 / 16.
Definition f_il (b : list Z) := znth b 2 mod 16.
Definition f_bl (b : list Z) := znth b (3 + f_il b).
Definition f_tl (b : list Z) := f_fl b - 3 - f_il b - f_bl b.

(** [well_formed b n]: the first [n] bytes of [b] start with a valid header. *)
Definition well_formed (b : list Z) (n : Z) : Prop :=
  5 <= n /\
  4 <= f_fl b <= 63 /\                                     (* checks 1, 2 *)
  f_type b <> 0 /\ f_type b <> 127 /\
  f_type b <> 128 /\ f_type b <> 255 /\                    (* check 3 *)
  f_il b <= 8 /\                                           (* check 4 *)
  f_il b <= f_fl b - 4 /\                                  (* check 5 *)
  4 + f_il b <= n /\                                       (* header present *)
  f_bl b <= f_fl b - 4 - f_il b /\                         (* check 6 *)
  (f_fl b < n -> znth b (f_fl b) <> 0 /\ znth b (f_fl b) <> 255) /\ (* check 7 *)
  (f_secure b -> 1 <= f_tl b) /\ (~ f_secure b -> f_tl b = 1).      (* check 8 *)

(** The bytes of a frame with the given contents. *)
Definition frame_header (secure : bool) (ty seq : Z) (id : list Z) (bl tl : Z)
  : list Z :=
  [3 + Zlen id + bl + tl; (if secure then 128 else 0) + ty;
   16 * (seq mod 16) + Zlen id] ++ id ++ [bl].
Definition frame_bytes (secure : bool) (ty seq : Z) (id body trailer : list Z)
  : list Z :=
  frame_header secure ty seq id (Zlen body) (Zlen trailer) ++ body ++ trailer.

(** Which header parameters may be sent (buffer of [n] bytes). *)
Definition sendable (secure : bool) (ty il bl tl n : Z) : Prop :=
  1 <= ty <= 126 /\ 0 <= il <= 8 /\ 4 + il <= n /\ 1 <= tl /\
  (secure = false -> tl = 1) /\ 4 + il + bl + tl <= 64.
