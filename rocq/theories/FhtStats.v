(** C179: a valve command and the binary statistics sent after it both arrive.
    Composition of FHT8VRadValve.h 512-566, FHT8VRadValve_Base decode, and SimpleBinaryStats.cpp 180-369, in the way
    OTRadValve_FHT8VRadValve.h 224-245 and OTRadioLink_MessagingFS20.h 66-98 (there as a comment) use them. *)
From Verif Require Import Base CrcModel BinStatsModel BinStatsSpec BinStatsEnc FhtModel FhtTop RxFilter FhtFrameModel FhtFrameProps.

(** The application's trailer function that appends its statistics [c], at privacy level [lvl]. *)
Definition stats_trailer (lvl : Z) (c : FullStats) : trailer_fn := fun b q n =>
  do tail <- sub b q (Zlen b - q) ;
  do (r, tail) <- encode_full tail n lvl false c ;
  Some (firstn (Z.to_nat q) b ++ tail, match r with Some _ => true | None => false end).
(** The hub: what is received is decoded as a command and then, from where that ends, as statistics. *)
Definition hub_decode (r : list Z) : option (option (msg * option (FullStats * Z))) :=
  do d <- decode r ;
  match d with
  | None => Some None
  | Some (m, q) => do s <- decode_full (skipn (Z.to_nat q) r) (Zlen r - q) ; Some (Some (m, s))
  end.

Lemma stats_trailer_spec lvl c b q n : full_ok c -> 0 <= lvl -> 0 <= q -> 0 < n -> q + n = Zlen b ->
  exists b' ok, stats_trailer lvl c b q n = Some (b', ok) /\ Zlen b' = Zlen b /\ (forall i, 0 <= i < q -> znth b' i = znth b i) /\
  (ok = true -> exists t, text_at b' q t /\ Zlen t < n /\
     forall rest len, Zlen t <= len -> decode_full (t ++ rest) len = Some (Some (visible lvl c, Zlen t))) /\
  (ok = true <-> sendable c /\ wire_len c + 1 <= n).
Proof.
  intros HO HL Q N E. unfold stats_trailer, sub. replace ((0 <=? q) && (0 <=? Zlen b - q) && (q + (Zlen b - q) <=? Zlen b)) with true by lia. cbn [bind].
  set (tail := firstn (Z.to_nat (Zlen b - q)) (skipn (Z.to_nat q) b)).
  assert (LT : Zlen tail = n) by (unfold tail; rewrite Zlen_firstn, Zlen_skipn; lia).
  assert (LF : Zlen (firstn (Z.to_nat q) b) = q) by (rewrite Zlen_firstn; lia).
  destruct (encode_full_outcome tail n lvl false c HO ltac:(lia)) as (r & tail' & EN & L' & _ & _ & IFF).
  rewrite EN. cbn [bind]. exists (firstn (Z.to_nat q) b ++ tail'), (match r with Some _ => true | None => false end).
  split; [reflexivity|]. split; [rewrite Zlen_app; lia|]. split; [|split].
  - intros i Hi. rewrite znth_app by lia. rewrite LF. replace (i <? q) with true by lia. apply znth_firstn. lia.
  - destruct r as [p|]; [intros _|discriminate].
    destruct (full_round_trip tail n lvl false c p tail' HO HL ltac:(lia) EN) as (w & EW & LW & Hp & Hn & FW & D).
    exists w. split; [|split; [lia|intros rest len Hl; rewrite LW in *; apply D; exact Hl]].
    refine (conj _ (conj _ (conj Q (conj _ (conj _ _))))).
    + apply Forall_forall. intros x X. rewrite Forall_forall in FW. specialize (FW x X). red. lia.
    + apply Forall_forall. intros x X. rewrite Forall_forall in FW. specialize (FW x X). lia.
    + rewrite Zlen_app. lia.
    + intros i Hi. rewrite znth_app by lia. rewrite LF. replace (q + i <? q) with false by lia. replace (q + i - q) with i by lia.
      rewrite EW, znth_app by lia. replace (i <? Zlen w) with true by lia. reflexivity.
    + rewrite znth_app by lia. rewrite LF. replace (q + Zlen w <? q) with false by lia. replace (q + Zlen w - q) with (Zlen w) by lia.
      rewrite EW, znth_app by lia. replace (Zlen w <? Zlen w) with false by lia. rewrite Z.sub_diag. reflexivity.
  - split; intros X.
    + destruct r as [p|]; [|discriminate]. destruct (proj1 IFF ltac:(discriminate)) as (_ & A & B). split; assumption.
    + destruct r as [p|]; [reflexivity|]. exfalso. apply (proj2 IFF); [split; [reflexivity|exact X]|reflexivity].
Qed.
Lemma stats_trailer_ok lvl c : full_ok c -> 0 <= lvl -> trailer_ok (stats_trailer lvl c).
Proof.
  intros HO HL b q n Q N E. destruct (stats_trailer_spec lvl c b q n HO HL Q N E) as (b' & ok & A & B & C & D & _).
  exists b', ok. split; [exact A|]. split; [exact B|]. split; [exact C|]. intros X. destruct (D X) as (t & T & _). exists t. exact T.
Qed.
Lemma text_at_unique b q t t' : text_at b q t -> text_at b q t' -> t = t'.
Proof.
  intros (_ & N & Q & L & Z1 & E1) (_ & N' & _ & L' & Z2 & E2).
  assert (K : forall u v : list Z, Forall (fun x => x <> 255) u -> (forall i, 0 <= i < Zlen u -> znth b (q + i) = znth u i) -> znth b (q + Zlen v) = 255 -> ~ Zlen v < Zlen u).
  { intros u v F Z E H. pose proof (Zlen_nonneg v) as V. rewrite Z in E by lia. rewrite Forall_forall in F. apply (F (znth u (Zlen v))); [|exact E].
    unfold znth. apply nth_In. unfold Zlen in *. lia. }
  pose proof (K t t' N Z1 E2). pose proof (K t' t N' Z2 E1). assert (EL : Zlen t = Zlen t') by lia.
  apply zlist_ext; [exact EL|]. intros i Hi. rewrite <- Z1 by lia. apply Z2. lia.
Qed.

(** Whatever the percentage, house codes, privacy level and statistics, in a transmit area of the declared size: a hub that misses
    up to six bytes of the start of the stream, and hears noise afterwards, gets the command; and, if the statistics can be sent and
    their room was declared, exactly those of them that the privacy level lets out. *)
Theorem stats_and_command_arrive pb pbyte tb lvl c force h1 h2 pc area :
  0 <= pb -> 0 <= tb -> pb + 46 + tb <= 255 -> byte pbyte -> pbyte <> 255 -> byte h1 -> byte h2 -> byte pc ->
  full_ok c -> 0 <= lvl -> Zlen area = frame_size pb tb ->
  exists b pre stream t, create_frame pb pbyte (Some (stats_trailer lvl c)) true force h1 h2 pc area = Some b /\
    frame_sent b = Some (Some (pre ++ stream ++ t)) /\ pre = repeat pbyte (Z.to_nat pb) /\
    (sendable c -> wire_len c <= tb -> forall lost rest, (lost <= 6)%nat -> Forall byte rest ->
      hub_decode (skipn lost stream ++ t ++ rest) = Some (Some (Msg h1 h2 0 0x26 (percentTo255 pc), Some (visible lvl c, Zlen t)))) /\
    (~ sendable c -> t = []).
Proof.
  intros P T S B1 B2 B3 B4 B5 HO HL LA.
  destruct (fht_frame pb pbyte tb (Some (stats_trailer lvl c)) true force h1 h2 pc area P T S B1 B2 B3 B4 B5 (stats_trailer_ok lvl c HO HL) LA)
    as (b & pre & stream & t & CR & LB & SENT & EP & LS & TR & DEC).
  exists b, pre, stream, t. split; [exact CR|]. split; [exact SENT|]. split; [rewrite EP, orb_true_r; reflexivity|].
  destruct TR as (b1 & [b2 ok] & EF & LB1 & TT). cbn [fst snd] in TT.
  assert (LP : Zlen pre <= pb) by (rewrite EP, orb_true_r, Zlen_repeat; lia). pose proof (Zlen_nonneg pre) as NP.
  unfold frame_size in LA. rewrite u8_id in LA by (red; lia).
  destruct (stats_trailer_spec lvl c b1 (Zlen pre + Zlen stream) (Zlen area - (Zlen pre + Zlen stream)) HO HL ltac:(lia) ltac:(lia) ltac:(lia))
    as (b2' & ok' & EF' & _ & _ & TX & IFF).
  rewrite EF in EF'. apply some_pair_inj in EF' as [<- <-].
  split.
  - intros HS HW lost rest Hl HR. assert (ok = true) as ->. { apply IFF. split; [exact HS|]. lia. }
    destruct (TX eq_refl) as (t' & TA & _ & D). pose proof (text_at_unique _ _ _ _ TT TA) as <-.
    unfold hub_decode. rewrite (DEC lost rest Hl HR). cbn [bind].
    assert (LK : Zlen (skipn lost stream) = Zlen stream - Z.of_nat lost) by (rewrite Zlen_skipn; lia).
    replace (skipn (Z.to_nat (Zlen stream - Z.of_nat lost)) (skipn lost stream ++ t ++ rest)) with (t ++ rest).
    + rewrite D; [reflexivity|]. rewrite !Zlen_app. pose proof (Zlen_nonneg rest). lia.
    + rewrite skipn_app. rewrite (skipn_all2 (skipn lost stream)) by (unfold Zlen in *; lia).
      replace (Z.to_nat (Zlen stream - Z.of_nat lost) - length (skipn lost stream))%nat with 0%nat by (unfold Zlen in *; lia). reflexivity.
  - intros NS. destruct ok; [|exact TT]. exfalso. apply NS. apply IFF. reflexivity.
Qed.

(** A valve at 40% reporting 20.5C, a weak battery, light level 100 and its occupancy, to a hub which misses three bytes. *)
Definition ex_stats := mkFull false true true 0 0 (mkMin 328 true) 100 2.
Example stats_and_command_met : full_ok ex_stats /\ sendable ex_stats /\ wire_len ex_stats <= 8.
Proof.
  split; [|split].
  - unfold full_ok, min_ok, byte, ex_stats. cbn [id0 id1 tempAndPower ambL occ tempC16 powerLow]. lia.
  - split; [discriminate|intros _; cbn [ambL ex_stats]; lia].
  - change (wire_len ex_stats) with 6. lia.
Qed.
Example stats_and_command_run :
  match create_frame 4 0xaa (Some (stats_trailer 0 ex_stats)) true false 13 73 40 (repeat 9 58) with
  | Some b => match frame_sent b with
    | Some (Some l) => hub_decode (skipn 7 l ++ [1; 2; 255]) = Some (Some (Msg 13 73 0 0x26 102, Some (ex_stats, 6)))
    | _ => False end
  | None => False end.
Proof. vm_compute. reflexivity. Qed.
