(** Independent vocabulary for secure frames. *)
From Verif Require Import Base FrameSpec SecureModel.

(** Sizes of an encryption primitive's outputs: 16-byte tag, 32 bytes of
    ciphertext if there is a plaintext and none otherwise. *)
Definition enc_sized (e : Enc) : Prop :=
  forall ws key iv aad pt ct tag, e ws key iv aad pt = Some (ct, tag) ->
    Zlen tag = 16 /\ Forall byte tag /\ Forall byte ct /\
    (pt = None -> ct = []) /\ (pt <> None -> Zlen ct = 32).
(** A decryption primitive writes 32 bytes of plaintext when given ciphertext. *)
Definition dec_sized (d : Dec) : Prop :=
  forall ws key iv aad ct tag p, Zlen ct = 32 -> Forall byte ct -> d ws key iv aad (Some ct) tag = Some p ->
    Zlen p = 32 /\ Forall byte p.

(** With workspace [ws], [d] recovers whatever [e] produced under the same key,
    IV and associated data (no ciphertext given when there was no plaintext). *)
Definition dec_inverts (e : Enc) (d : Dec) (ws : Z) : Prop :=
  forall ws0 key iv aad pt ct tag, e ws0 key iv aad pt = Some (ct, tag) ->
  match pt with
  | Some p => d ws key iv aad (Some ct) tag = Some p
  | None => exists q, d ws key iv aad None tag = Some q
  end.

(** A body padded to 32 bytes. *)
Definition padded (body : list Z) : list Z :=
  body ++ repeat 0 (31 - length body) ++ [31 - Zlen body].

(** The IV: 6 bytes of ID then the 6-byte counter; the counter part. *)
Definition iv_ctr (iv : list Z) : list Z := firstn 6 (skipn 6 iv).

(** Trailer of a 0x80-style frame: counter, tag, 0x80. *)
Definition secure_trailer (iv tag : list Z) : list Z := iv_ctr iv ++ tag ++ [128].

(** Body length on the air for a plaintext of [n] bytes. *)
Definition cipher_len (n : Z) : Z := if n =? 0 then 0 else 32.
