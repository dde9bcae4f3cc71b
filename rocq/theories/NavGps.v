(* GPS subframes: what decoding does, in terms of the transmitted fields. *)
From Verif Require Import Base ZBits BitSpec BitModel BitProofs UtcModel UtcSpec UtcProofs Dbl NavModel NavSpec NavGpsSpec NavBits.

(* the three decoders as pure functions of the transmitted fields *)
Definition sf1 (dw : list Z) (e : eph) : eph :=
  let e := seti FcodeL2 (dfield dw 58 2) e in
  let e := seti Fura (dfield dw 60 4) e in
  let e := seti Fhealth (dfield dw 64 6) e in
  let e := seti FL2P (dfield dw 72 1) e in
  let e := seti Fiode (dfield dw 168 8) e in
  let e := seti Ftocs (16 * dfield dw 176 16) e in
  let e := setd Faf2 (sc (dfieldS dw 192 8) P2_55) e in
  let e := setd Faf1 (sc (dfieldS dw 200 16) P2_43) e in
  let e := setd Faf0 (sc (dfieldS dw 216 22) P2_31) e in
  let e := seti Falert 0 e in
  let e := setd Ftgd0 (if dfieldS dw 160 8 =? -128 then d0 else sc (dfieldS dw 160 8) P2_31) e in
  let e := setd Ftgd3 d0 e in let e := setd Ftgd2 d0 e in let e := setd Ftgd1 d0 e in
  let e := seti Fiodc (256 * dfield dw 70 2 + dfield dw 168 8) e in
  let e := seti Fweek (dfield dw 48 10 + 2048) e in
  let e := seti Fiode1 (dfield dw 168 8) e in
  seti Fgot1 1 e.
Definition sf2 (dw : list Z) (e : eph) : eph :=
  let e := seti Fiode (dfield dw 48 8) e in
  let e := setd Fcrs (sc (dfieldS dw 56 16) P2_5) e in
  let e := setd Fdeltan (sc2 (dfieldS dw 72 16) P2_43 D_PI) e in
  let e := setd Fm0 (sc2 (dfieldS dw 88 32) P2_31 D_PI) e in
  let e := setd Fcuc (sc (dfieldS dw 120 16) P2_29) e in
  let e := setd Fecc (sc (dfield dw 136 32) P2_33) e in
  let e := setd Fcus (sc (dfieldS dw 168 16) P2_29) e in
  let e := setd Fsqrta (sc (dfield dw 184 32) P2_19) e in
  let e := seti Ftoes (16 * dfield dw 216 16) e in
  let e := seti Ffit (if dfield dw 232 1 =? 0 then 4 else 0) e in
  let e := seti Fiode2 (dfield dw 48 8) e in
  seti Fgot2 1 e.
Definition sf3 (dw : list Z) (e : eph) : eph :=
  let e := setd Fcic (sc (dfieldS dw 48 16) P2_29) e in
  let e := setd Fomega0 (sc2 (dfieldS dw 64 32) P2_31 D_PI) e in
  let e := setd Fcis (sc (dfieldS dw 96 16) P2_29) e in
  let e := setd Fi0 (sc2 (dfieldS dw 112 32) P2_31 D_PI) e in
  let e := setd Fcrc (sc (dfieldS dw 144 16) P2_5) e in
  let e := setd Fw (sc2 (dfieldS dw 160 32) P2_31 D_PI) e in
  let e := setd Fomegadot (sc2 (dfieldS dw 192 24) P2_43 D_PI) e in
  let e := seti Fiode3 (dfield dw 216 8) e in
  let e := setd Fidot (sc2 (dfieldS dw 224 14) P2_43 D_PI) e in
  let e := seti Fiode3 (ei e Fiode) e in
  seti Fgot3 1 e.

Lemma u8_d dw p n : (n <= 8)%nat -> u8 (dfield dw p n) = dfield dw p n.
Proof.
  intros H. apply u8_id. pose proof (dfield_range dw p n) as R. assert (2 ^ Z.of_nat n <= 2 ^ 8) by (apply Z.pow_le_mono_r; lia).
  unfold byte_ok. change (2 ^ 8) with 256 in *. lia.
Qed.
Lemma u32_16 dw p : u32 (dfield dw p 16 * 16) = 16 * dfield dw p 16.
Proof.
  pose proof (dfield_range dw p 16) as R. change (2 ^ Z.of_nat 16) with 65536 in R. unfold u32. change (2 ^ 32) with 4294967296.
  rewrite Z.mod_small by lia. lia.
Qed.

Ltac sg H := repeat first [ rewrite (sget _ _ _ _ H) by (vm_compute; intuition congruence) | rewrite (sgetS _ _ _ _ H) by (vm_compute; intuition congruence) ];
  cbn [bind].
Ltac nums := repeat match goal with |- context [Z.to_nat (Zpos ?p)] => let n := eval compute in (Z.to_nat (Zpos p)) in change (Z.to_nat (Zpos p)) with n end.
Lemma gps_sf1_ok sub dw e : stripped sub dw -> gps_sf1 sub e = Ok (sf1 dw e).
Proof.
  intros H. unfold gps_sf1. sg H. nums. rewrite !u8_d by lia. rewrite u32_16.
  pose proof (dfield_range dw 70 2) as R2. pose proof (dfield_range dw 168 8) as R8. pose proof (dfield_range dw 48 10) as R10.
  change (2 ^ Z.of_nat 2) with 4 in R2. change (2 ^ Z.of_nat 8) with 256 in R8. change (2 ^ Z.of_nat 10) with 1024 in R10.
  unfold sf1. cbv zeta. cbn [seti setd ei ifld_beq]. rewrite Z.shiftl_mul_pow2 by lia. change (2 ^ 8) with 256.
  replace (u16 (dfield dw 70 2 * 256 + dfield dw 168 8)) with (256 * dfield dw 70 2 + dfield dw 168 8) by (unfold u16; lia).
  replace (u16 (dfield dw 48 10 + 2048)) with (dfield dw 48 10 + 2048) by (unfold u16; lia).
  reflexivity.
Qed.
Lemma gps_sf2_ok sub dw e : stripped sub dw -> gps_sf2 sub e = Ok (sf2 dw e).
Proof.
  intros H. unfold gps_sf2. sg H. nums. rewrite !u8_d by lia. rewrite u32_16. reflexivity.
Qed.
Lemma gps_sf3_ok sub dw e : stripped sub dw -> gps_sf3 sub e = Ok (sf3 dw e).
Proof. intros H. unfold gps_sf3. sg H. nums. rewrite !u8_d by lia. reflexivity. Qed.

(* decodeGPS in terms of the subframe number *)
Lemma decodeGPS_ok junk dw e : dw_ok dw -> bytes_ok junk -> Zlen junk = 30 ->
  decodeGPS junk dw e =
    let e := seti FgnssID 0 e in
    if gps_id dw =? 1 then gps_finish (sf1 dw e)
    else if gps_id dw =? 2 then gps_finish (sf2 dw e)
    else if gps_id dw =? 3 then gps_finish (sf3 dw e)
    else Ok (e, None, (gps_id dw =? 0) || (gps_id dw =? 6) || (gps_id dw =? 7)).
Proof.
  intros H1 H2 H3. destruct (gps_strip_ok junk dw H1 H2 H3) as (sub & E & HS). unfold decodeGPS. rewrite E. cbn [bind].
  destruct (sid sub dw HS) as (b & Eb & Hid). rewrite Eb. cbn [bind]. rewrite Hid. cbv zeta.
  pose proof (dfield_range dw 43 3) as R. fold (gps_id dw) in R. change (2 ^ Z.of_nat 3) with 8 in R.
  rewrite (gps_sf1_ok _ _ _ HS), (gps_sf2_ok _ _ _ HS), (gps_sf3_ok _ _ _ HS). cbn [bind].
  destruct (Z.eqb_spec (gps_id dw) 1) as [X|X]; [rewrite X; reflexivity|].
  destruct (Z.eqb_spec (gps_id dw) 2) as [Y|Y]; [rewrite Y; reflexivity|].
  destruct (Z.eqb_spec (gps_id dw) 3) as [W|W]; [rewrite W; reflexivity|].
  destruct (Z.ltb_spec (gps_id dw) 1); cbn [orb]; [replace (gps_id dw) with 0 by lia; reflexivity|].
  destruct (Z.ltb_spec 5 (gps_id dw)).
  - replace (gps_id dw =? 0) with false by lia. cbn [orb]. replace ((gps_id dw =? 6) || (gps_id dw =? 7)) with true by lia. reflexivity.
  - replace ((gps_id dw =? 0) || (gps_id dw =? 6) || (gps_id dw =? 7)) with false by lia. reflexivity.
Qed.
