(** C135: what reaches the "secure" random byte from each noise source. *)
From Coq Require Import Btauto.
From Verif Require Import Base CrcLin PrngModel PrngProps.

(** All 256 byte values, and the number of distinct results of [f] on them. *)
Definition bytes : list Z := map Z.of_nat (seq 0 256).
Definition distinct (f : Z -> Z) : Z := Zlen (nodup Z.eq_dec (map f bytes)).

(** ** The mixing is linear over exclusive-or *)

Lemma lx4 a b c d : Z.lxor (Z.lxor a b) (Z.lxor c d) = Z.lxor (Z.lxor a c) (Z.lxor b d).
Proof. apply Z.bits_inj'. intros n Hn. rewrite !Z.lxor_spec. btauto. Qed.

Lemma u8_lxor a b : u8 (Z.lxor a b) = Z.lxor (u8 a) (u8 b).
Proof.
  unfold u8. change 256 with (2 ^ 8). rewrite <- !Z.land_ones by lia.
  apply Z.bits_inj'. intros n Hn. rewrite ?Z.land_spec, ?Z.lxor_spec, ?Z.land_spec. btauto.
Qed.

Lemma mixl_lin n a b : mixl (Z.lxor a b) n = Z.lxor (mixl a n) (mixl b n).
Proof. unfold mixl. rewrite Z.shiftl_lxor, u8_lxor. apply lx4. Qed.

Lemma mixr_lin n a b : mixr (Z.lxor a b) n = Z.lxor (mixr a n) (mixr b n).
Proof. unfold mixr. rewrite Z.shiftr_lxor. apply lx4. Qed.

Lemma ibutton_bit_lin a b :
  ibutton_bit (Z.lxor a b) = Z.lxor (ibutton_bit a) (ibutton_bit b).
Proof.
  unfold ibutton_bit. rewrite Z.lxor_spec, Z.shiftr_lxor.
  destruct (Z.testbit a 0), (Z.testbit b 0); cbn [xorb];
    apply Z.bits_inj'; intros n Hn; rewrite ?Z.lxor_spec; btauto.
Qed.

Definition crc1 (v : Z) : Z := crc_ibutton v 0.
Lemma crc1_lin a b : crc1 (Z.lxor a b) = Z.lxor (crc1 a) (crc1 b).
Proof. unfold crc1, crc_ibutton. rewrite !Z.lxor_0_r, !ibutton_bit_lin. reflexivity. Qed.
Lemma crc_ibutton_xor a b : crc_ibutton a b = crc1 (Z.lxor a b).
Proof. unfold crc1, crc_ibutton. rewrite Z.lxor_0_r. reflexivity. Qed.

(** The same function with exactly one source kept. *)
Definition via_jit (whiten : bool) (v : Z) : Z := secure_byte whiten v 0 0 0 0.
Definition via_adc (whiten : bool) (v : Z) : Z := secure_byte whiten 0 v 0 0 0.
Definition via_wdt (whiten : bool) (v : Z) : Z := secure_byte whiten 0 0 v 0 0.
Definition via_rng (v : Z) : Z := secure_byte true 0 0 0 v 0.

Lemma mixl_0 n : mixl 0 n = 0.
Proof. unfold mixl. rewrite Z.shiftl_0_l. reflexivity. Qed.
Lemma mixr_0 n : mixr 0 n = 0.
Proof. unfold mixr. rewrite Z.shiftr_0_l. reflexivity. Qed.

Lemma secure_split whiten jit adc wdt rng k :
  secure_byte whiten jit adc wdt rng k =
  Z.lxor (Z.lxor (via_jit whiten jit) (via_adc whiten adc))
    (Z.lxor (via_wdt whiten wdt) (if whiten then Z.lxor (via_rng rng) k else 0)).
Proof.
  unfold via_jit, via_adc, via_wdt, via_rng, secure_byte.
  destruct whiten; rewrite ?crc_ibutton_xor, ?mixl_lin, ?mixr_lin, ?mixl_lin, ?crc1_lin,
    ?mixl_0, ?mixr_0, ?mixl_0, ?Z.lxor_0_l, ?Z.lxor_0_r;
  change (crc1 0) with 0; rewrite ?Z.lxor_0_l, ?Z.lxor_0_r;
  apply Z.bits_inj'; intros n Hn; rewrite ?Z.lxor_spec; btauto.
Qed.

Lemma nodup_map_inj (g : Z -> Z) l :
  (forall a b, g a = g b -> a = b) ->
  length (nodup Z.eq_dec (map g l)) = length (nodup Z.eq_dec l).
Proof.
  intros Hg. induction l as [|a l IH]; [reflexivity|].
  cbn [map nodup].
  destruct (in_dec Z.eq_dec a l) as [Hi|Hn];
    destruct (in_dec Z.eq_dec (g a) (map g l)) as [Hi'|Hn']; cbn [length].
  - exact IH.
  - destruct Hn'. apply in_map, Hi.
  - destruct Hn. apply in_map_iff in Hi'. destruct Hi' as (b & E & Hb).
    apply Hg in E. subst. exact Hb.
  - rewrite IH. reflexivity.
Qed.

Lemma lxor_inj_l k a b : Z.lxor k a = Z.lxor k b -> a = b.
Proof.
  intros H. rewrite <- (lxor_undo a k), <- (lxor_undo b k).
  rewrite (Z.lxor_comm a k), H, (Z.lxor_comm b k). reflexivity.
Qed.

Lemma distinct_xor f g k : (forall v, f v = Z.lxor k (g v)) -> distinct f = distinct g.
Proof.
  intros H. unfold distinct.
  rewrite (map_ext f (fun v => Z.lxor k (g v)) H).
  rewrite <- (map_map g (fun v => Z.lxor k v)). unfold Zlen.
  rewrite nodup_map_inj; [reflexivity|]. intros a b. apply lxor_inj_l.
Qed.

(** C135.  Whatever the other sources return (and whatever the whitening
    inputs are), the watchdog-jitter byte and the whitening PRNG byte each
    reach the result in full (all 256 values distinguishable); the ADC noise
    byte does without whitening but only 128 values survive with it; and of
    the 256 values of the main clock-jitter byte only 64 (without whitening)
    or 128 (with it) can be told apart in the result. *)
Theorem secure_byte_mixing_partial :
  forall jit adc wdt rng k : Z,
    distinct (fun v => secure_byte false jit adc v rng k) = 256 /\
    distinct (fun v => secure_byte true jit adc v rng k) = 256 /\
    distinct (fun v => secure_byte true jit adc wdt v k) = 256 /\
    distinct (fun v => secure_byte false jit v wdt rng k) = 256 /\
    distinct (fun v => secure_byte true jit v wdt rng k) = 128 /\
    distinct (fun v => secure_byte false v adc wdt rng k) = 64 /\
    distinct (fun v => secure_byte true v adc wdt rng k) = 128.
Proof.
  intros jit adc wdt rng k.
  assert (Hx : forall f g, (forall v, f v = Z.lxor (f 0) (g v)) -> distinct f = distinct g).
  { intros f g H. exact (distinct_xor f g (f 0) H). }
  repeat match goal with |- _ /\ _ => split end;
  match goal with
  | |- distinct (fun v => secure_byte ?w jit adc v rng k) = _ =>
      rewrite (Hx _ (via_wdt w)); [vm_compute; reflexivity|]
  | |- distinct (fun v => secure_byte ?w jit adc wdt v k) = _ =>
      rewrite (Hx _ via_rng); [vm_compute; reflexivity|]
  | |- distinct (fun v => secure_byte ?w jit v wdt rng k) = _ =>
      rewrite (Hx _ (via_adc w)); [vm_compute; reflexivity|]
  | |- distinct (fun v => secure_byte ?w v adc wdt rng k) = _ =>
      rewrite (Hx _ (via_jit w)); [vm_compute; reflexivity|]
  end;
  intros v; rewrite !(secure_split _ _ _ _ _ _);
  change (via_wdt true 0) with 0; change (via_wdt false 0) with 0;
  change (via_adc true 0) with 0; change (via_adc false 0) with 0;
  change (via_jit true 0) with 0; change (via_jit false 0) with 0;
  change (via_rng 0) with 0;
  apply Z.bits_inj'; intros n Hn; rewrite ?Z.lxor_spec, ?Z.bits_0; btauto.
Qed.

(** "Essentially all entropy": two different jitter bytes - hence guessable
    bits - that no choice of the other sources can tell apart. *)
Theorem secure_byte_keeps_jitter_refuted :
  exists j1 j2, byte j1 /\ byte j2 /\ j1 <> j2 /\
    forall adc wdt rng k,
      secure_byte false j1 adc wdt rng k = secure_byte false j2 adc wdt rng k.
Proof.
  assert (E : exists j, byte j /\ j <> 0 /\ via_jit false j = 0).
  { set (P := fun j => negb (j =? 0) && (via_jit false j =? 0)).
    destruct (find P bytes) as [j|] eqn:F; [|vm_compute in F; discriminate].
    exists j. apply find_some in F. destruct F as [Hi Hp].
    unfold P in Hp. unfold bytes in Hi. apply in_map_iff in Hi.
    destruct Hi as (i & <- & Hi). apply in_seq in Hi.
    split; [red; lia|]. lia. }
  destruct E as (j & Hj & Hz & Hv).
  exists 0, j. split; [red; lia|]. split; [exact Hj|]. split; [congruence|].
  intros. rewrite !(secure_split _ _ _ _ _ _), Hv. reflexivity.
Qed.

Print Assumptions secure_byte_mixing_partial.
