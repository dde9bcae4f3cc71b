(* Stripping the GPS parity bits (nav.cpp:194-200). *)
From Verif Require Import Base ZBits BitSpec BitModel BitProofs UtcModel Dbl NavModel NavSpec NavGpsSpec.


Lemma of_le_4 : forall n l, (n + 4 <= length l)%nat ->
  of_le (firstn 4 (skipn n l)) = nth n l 0 + 256 * nth (n + 1) l 0 + 65536 * nth (n + 2) l 0 + 16777216 * nth (n + 3) l 0.
Proof.
  induction n as [|n IH]; intros l H.
  - do 4 (destruct l as [|? l]; [cbn in H; lia|]). unfold of_le. cbn [skipn firstn fold_right nth Nat.add]. lia.
  - destruct l as [|x l]; [cbn in H; lia|]. cbn [skipn nth Nat.add]. apply IH. cbn in H. lia.
Qed.
Lemma dw_split dw i : dw_ok dw -> 0 <= i < 10 -> word dw i = dword dw i.
Proof.
  intros [_ HL] Hi. unfold word, dword. rewrite of_le_4 by lia. cbv zeta.
  replace (Z.to_nat (4 * i + 0)) with (Z.to_nat (4 * i)) by lia.
  replace (Z.to_nat (4 * i + 1)) with (Z.to_nat (4 * i) + 1)%nat by lia.
  replace (Z.to_nat (4 * i + 2)) with (Z.to_nat (4 * i) + 2)%nat by lia.
  replace (Z.to_nat (4 * i + 3)) with (Z.to_nat (4 * i) + 3)%nat by lia. reflexivity.
Qed.

Lemma dword_range dw i : dw_ok dw -> 0 <= i < 10 -> 0 <= dword dw i < 2 ^ 32.
Proof.
  intros [HB HL] Hi. unfold dword. cbv zeta.
  assert (HN : forall n, byte_ok (nth n dw 0)).
  { intros n. destruct (Nat.lt_ge_cases n (length dw)).
    - unfold bytes_ok in HB. rewrite Forall_forall in HB. apply HB. apply nth_In. assumption.
    - rewrite nth_overflow by assumption. unfold byte_ok. lia. }
  pose proof (HN (Z.to_nat (4 * i + 0))) as A0. pose proof (HN (Z.to_nat (4 * i + 1))) as A1.
  pose proof (HN (Z.to_nat (4 * i + 2))) as A2. pose proof (HN (Z.to_nat (4 * i + 3))) as A3.
  unfold byte_ok in *. change (2 ^ 32) with 4294967296. lia.
Qed.

Lemma strip_loop dw : dw_ok dw -> forall n i sub, (i + n = 10)%nat -> bytes_ok sub -> Zlen sub = 30 ->
  (forall k, 0 <= k < 24 * Z.of_nat i -> bit sub k = dbit dw k) ->
  exists sub', gps_strip (map Z.of_nat (List.seq i n)) dw sub = Ok sub' /\ bytes_ok sub' /\ Zlen sub' = 30 /\
    forall k, 0 <= k < 240 -> bit sub' k = dbit dw k.
Proof.
  intros Hdw. induction n as [|n IH]; intros i sub Hi Hb Hl HB.
  - exists sub. cbn. repeat split; try assumption. intros k Hk. apply HB. lia.
  - cbn [List.seq map gps_strip].
    destruct (setBit_ok 24 sub (Z.of_nat i * 24) (Z.shiftr (word dw (Z.of_nat i)) 6)) as (s1 & E & HS); [assumption|lia|lia|lia|].
    rewrite E. cbn [bind]. destruct HS as (HZ & HB1 & HBit). apply IH; [lia|assumption|lia|].
    intros k Hk. rewrite HBit by lia. rewrite dw_split by (assumption || lia).
    pose proof (dword_range dw (Z.of_nat i) Hdw ltac:(lia)) as HR. change (2 ^ 32) with 4294967296 in HR.
    unfold u32. rewrite Z.mod_small.
    2:{ rewrite Z.shiftr_div_pow2 by lia. change (2 ^ 6) with 64. change (2 ^ 32) with 4294967296. lia. }
    destruct ((Z.of_nat i * 24 <=? k) && (k <? Z.of_nat i * 24 + 24)) eqn:E1.
    + rewrite Z.shiftr_spec by lia. unfold dbit. replace (k / 24) with (Z.of_nat i) by lia. f_equal. lia.
    + apply HB. lia.
Qed.

Lemma gps_strip_ok junk dw : dw_ok dw -> bytes_ok junk -> Zlen junk = 30 ->
  exists sub, gps_strip ten dw junk = Ok sub /\ bytes_ok sub /\ Zlen sub = 30 /\ forall k, 0 <= k < 240 -> bit sub k = dbit dw k.
Proof. intros H1 H2 H3. apply (strip_loop dw H1 10 0 junk); try assumption; [reflexivity|]. intros k Hk. lia. Qed.

Lemma field_dfield sub dw : (forall k, 0 <= k < 240 -> bit sub k = dbit dw k) ->
  forall n pos, 0 <= pos -> pos + Z.of_nat n <= 240 -> field sub pos n = dfield dw pos n.
Proof.
  intros H. induction n as [|n IH]; intros pos Hp Hn; [reflexivity|]. cbn [field dfield].
  rewrite IH by lia. rewrite H by lia. reflexivity.
Qed.
Lemma fieldS_dfield sub dw : (forall k, 0 <= k < 240 -> bit sub k = dbit dw k) ->
  forall n pos, 0 <= pos < 240 -> pos + Z.of_nat n <= 240 -> field_signed sub pos n = dfieldS dw pos n.
Proof. intros H n pos Hp Hn. unfold field_signed, dfieldS. rewrite (field_dfield sub dw H) by lia. rewrite H by lia. reflexivity. Qed.

Lemma dfield_range dw pos n : 0 <= dfield dw pos n < 2 ^ Z.of_nat n.
Proof.
  induction n as [|n IH]; [cbn; lia|]. cbn [dfield]. rewrite Nat2Z.inj_succ, Z.pow_succ_r by lia.
  destruct (dbit dw (pos + Z.of_nat n)); cbn [Z.b2z]; lia.
Qed.

(* reading a field of the stripped subframe *)
Definition stripped (sub dw : list Z) : Prop :=
  bytes_ok sub /\ Zlen sub = 30 /\ forall k, 0 <= k < 240 -> bit sub k = dbit dw k.
Lemma sget sub dw len pos : stripped sub dw -> 0 <= pos -> 1 <= len <= 56 -> pos + len <= 240 ->
  getBit len sub pos = Ok (dfield dw pos (Z.to_nat len)).
Proof.
  intros (H1 & H2 & H3) Hp Hl Hs. rewrite getBit_ok by assumption. rewrite H2. replace (pos + len <=? 8 * 30) with true by lia.
  rewrite (field_dfield sub dw H3) by (rewrite ?Z2Nat.id; lia). reflexivity.
Qed.
Lemma sgetS sub dw len pos : stripped sub dw -> 0 <= pos -> 1 <= len <= 56 -> pos + len <= 240 ->
  getBitS len sub pos = Ok (dfieldS dw pos (Z.to_nat len)).
Proof.
  intros (H1 & H2 & H3) Hp Hl Hs. rewrite getBitS_ok by assumption. rewrite H2. replace (pos + len <=? 8 * 30) with true by lia.
  rewrite (fieldS_dfield sub dw H3) by (rewrite ?Z2Nat.id; lia). reflexivity.
Qed.
(* the subframe number *)
Lemma sid sub dw : stripped sub dw -> exists b, aget sub 5 = Ok b /\ Z.land (Z.shiftr b 2) 7 = gps_id dw.
Proof.
  intros (H1 & H2 & H3). exists (nth 5 sub 0). split; [unfold aget; rewrite H2; reflexivity|].
  rewrite BitProofs.land_7. rewrite Z.shiftr_div_pow2 by lia. unfold gps_id. rewrite <- (field_dfield sub dw H3) by lia.
  change 3%nat with (Z.to_nat 3). symmetry. change 8 with (2 ^ Z.of_nat 3).
  apply field_mod_bits. intros j Hj. rewrite Z.div_pow2_bits by lia. unfold bit.
  assert (HJ : j = 0 \/ j = 1 \/ j = 2) by lia. destruct HJ as [->|[->| ->]]; reflexivity.
Qed.
