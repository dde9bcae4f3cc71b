(* decodeGlonass (nav.cpp:283-443) against the release rule. *)
From Coq Require Import QArith.
From Verif Require Import Base ZBits BitSpec BitModel BitProofs UtcModel UtcSpec UtcProofs Dbl NavModel NavSpec NavGpsSpec NavBits NavAcc NavStrSpec NavStr NavGloSpec NavDay NavObj.
Local Open Scope Z_scope.

Lemma gget len n dw pos : bytes_ok dw -> 1 <= len <= 56 -> 0 <= pos -> pos + len <= 32 * Z.of_nat n ->
  getBit len (swap_words n dw) pos = Ok (sfield dw pos (Z.to_nat len)).
Proof.
  intros HB Hl Hp HL. rewrite getBit_ok; [|apply swap_bytes; assumption|lia|lia].
  unfold Zlen. rewrite swap_len. replace (pos + len <=? 8 * Z.of_nat (4 * n)) with true by lia. f_equal. apply field_sfield; [assumption|lia|lia].
Qed.
Lemma ggetG len n dw pos : bytes_ok dw -> 2 <= len <= 54 -> 0 <= pos -> pos + len <= 32 * Z.of_nat n ->
  getBitGlo len (swap_words n dw) pos = Ok (sfield_sm dw pos (Z.to_nat len)).
Proof.
  intros HB Hl Hp HL. rewrite getBitGlo_ok; [|apply swap_bytes; assumption|lia|lia].
  unfold Zlen. rewrite swap_len. replace (pos + len <=? 8 * Z.of_nat (4 * n)) with true by lia. f_equal.
  unfold field_glo, sfield_sm. rewrite swap_bit by (assumption || lia). rewrite field_sfield by (assumption || lia). reflexivity.
Qed.
Lemma sfield_range dw pos n : 0 <= sfield dw pos n < 2 ^ Z.of_nat n.
Proof.
  induction n as [|n IH]; [cbn; lia|]. cbn [sfield]. rewrite Nat2Z.inj_succ, Z.pow_succ_r by lia.
  destruct (sbit dw (pos + Z.of_nat n)); cbn [Z.b2z]; lia.
Qed.
Lemma sm_abs dw pos n : (1 <= n <= 30)%nat -> Z.abs (sfield_sm dw pos n) <= 2 ^ 43.
Proof.
  intros H. unfold sfield_sm. pose proof (sfield_range dw (pos + 1) (n - 1)) as R.
  assert (2 ^ Z.of_nat (n - 1) <= 2 ^ 43) by (apply Z.pow_le_mono_r; lia). destruct (sbit dw pos); lia.
Qed.
Lemma mark_ok dw : dw_ok dw -> exists b12 b13, aget (swap_words 4 dw) 12 = Ok b12 /\ aget (swap_words 4 dw) 13 = Ok b13 /\
  Z.lor (u16 (Z.shiftl b12 8)) b13 = str_mark dw.
Proof.
  intros [HB HL]. exists (nth 15 dw 0), (nth 14 dw 0).
  assert (A : forall k, (k < 4)%nat -> aget (swap_words 4 dw) (12 + Z.of_nat k) = Ok (nth (15 - k) dw 0)).
  { intros k Hk. unfold aget, Zlen. rewrite swap_len. replace ((0 <=? 12 + Z.of_nat k) && (12 + Z.of_nat k <? Z.of_nat (4 * 4))) with true by lia.
    f_equal. replace (Z.to_nat (12 + Z.of_nat k)) with (4 * 3 + k)%nat by lia. rewrite swap_nth by lia. f_equal. lia. }
  split; [exact (A 0%nat ltac:(lia))|]. split; [exact (A 1%nat ltac:(lia))|].
  pose proof (nth_byte dw 15 HB) as B1. pose proof (nth_byte dw 14 HB) as B2. unfold byte_ok in *.
  unfold u16. rewrite Z.shiftl_mul_pow2 by lia. rewrite Z.mod_small by (change (2 ^ 8) with 256; change (2 ^ 16) with 65536; lia).
  rewrite <- Z.shiftl_mul_pow2 by lia. rewrite lor_shiftl_low by (change (2 ^ 8) with 256; lia).
  unfold str_mark, dword. cbv zeta. change (Z.to_nat (4 * 3 + 0)) with 12%nat. change (Z.to_nat (4 * 3 + 1)) with 13%nat.
  change (Z.to_nat (4 * 3 + 2)) with 14%nat. change (Z.to_nat (4 * 3 + 3)) with 15%nat.
  pose proof (nth_byte dw 12 HB) as B3. pose proof (nth_byte dw 13 HB) as B4. unfold byte_ok in *.
  change (2 ^ 8) with 256. lia.
Qed.

(* ------------------------------------------------ the four strings *)
Definition q1 (dw : list Z) (tof : Z) (g : geph) : geph :=
  gseti Ggot1 1 (gset_tof (mkUtc tof 0) (gsetd Gpos0 (sc2 (sfield_sm dw 50 27) P2_11 D_1E3)
    (gsetd Gacc0 (sc2 (sfield_sm dw 45 5) P2_30 D_1E3) (gsetd Gvel0 (sc2 (sfield_sm dw 21 24) P2_20 D_1E3) g)))).
Definition q2 (dw : list Z) (toe : Z) (g : geph) : geph :=
  gseti Ggot2 1 (gset_toe (mkUtc toe 0) (gsetd Gpos1 (sc2 (sfield_sm dw 50 27) P2_11 D_1E3)
    (gsetd Gacc1 (sc2 (sfield_sm dw 45 5) P2_30 D_1E3) (gsetd Gvel1 (sc2 (sfield_sm dw 21 24) P2_20 D_1E3)
    (gseti Giode (sfield dw 9 7) (gseti Gsvh (sfield dw 5 3) g)))))).
Definition q3 (dw : list Z) (g : geph) : geph :=
  gseti Ggot3 1 (gsetd Gpos2 (sc2 (sfield_sm dw 50 27) P2_11 D_1E3) (gsetd Gacc2 (sc2 (sfield_sm dw 45 5) P2_30 D_1E3)
    (gsetd Gvel2 (sc2 (sfield_sm dw 21 24) P2_20 D_1E3) (gsetd Ggamn (sc (sfield_sm dw 6 11) P2_40) g)))).
Definition q4 (dw : list Z) (g : geph) : geph :=
  gseti Ggot4 1 (gseti Gsva (sfield dw 52 4) (gseti Gage (sfield dw 32 5)
    (gsetd Gdtaun (sc (sfield_sm dw 27 5) P2_30) (gsetd Gtaun (sc (sfield_sm dw 5 22) P2_30) g)))).

Lemma tod_at now tod : clock_ok now -> 0 <= tod < 1000000 ->
  fromGlonassTimeOfDay now (tod * 1000) = if 2147634000 <=? sec now then UB UB_overflow else Ok (mkUtc (day0 now + tod) 0).
Proof.
  intros [HN HS] HT. change (2 ^ 40) with 1099511627776 in HS. destruct (Z.leb_spec 2147634000 (sec now)) as [H|H].
  - apply tod_overflow. change (2 ^ 31) with 2147483648. lia.
  - destruct (tod_spec now (tod * 1000)) as (t & E & _ & HD); [lia|change (2 ^ 30) with 1073741824; lia|].
    rewrite E. rewrite Z.mod_mul, Z.div_mul in HD by lia. destruct (HD eq_refl) as [H1 H2]. destruct t as [a b]. cbn [sec nsec] in H1, H2.
    f_equal. unfold day0. subst. reflexivity.
Qed.
Ltac sn k := change (Z.to_nat k) with (Pos.to_nat (Z.to_pos k)); cbn [Z.to_pos Pos.to_nat Pos.iter_op Nat.add].
Ltac gg := repeat (first [rewrite gget by (assumption || lia) | rewrite ggetG by (assumption || lia)]; cbn [bind]).
Lemma f1_ok now dw g : clock_ok now -> bytes_ok dw ->
  glo_f1 now (swap_words 4 dw) g = if 2147634000 <=? sec now then UB UB_overflow
    else Ok (q1 dw (day0 now + 3600 * sfield dw 9 5 + 60 * sfield dw 14 6 + 30 * sfield dw 20 1) g).
Proof.
  intros HC HB. unfold glo_f1. gg. cbv zeta.
  pose proof (sfield_range dw 9 5) as R1. pose proof (sfield_range dw 14 6) as R2. pose proof (sfield_range dw 20 1) as R3.
  change (2 ^ Z.of_nat 5) with 32 in R1. change (2 ^ Z.of_nat 6) with 64 in R2. change (2 ^ Z.of_nat 1) with 2 in R3.
  change (Z.to_nat 5) with 5%nat. change (Z.to_nat 6) with 6%nat. change (Z.to_nat 1) with 1%nat. change (Z.to_nat 24) with 24%nat. change (Z.to_nat 27) with 27%nat.
  rewrite tod_at by (assumption || lia). destruct (2147634000 <=? sec now); [reflexivity|]. cbn [bind].
  replace (day0 now + (sfield dw 9 5 * 3600 + sfield dw 14 6 * 60 + sfield dw 20 1 * 30)) with
    (day0 now + 3600 * sfield dw 9 5 + 60 * sfield dw 14 6 + 30 * sfield dw 20 1) by lia. reflexivity.
Qed.
Lemma f2_ok now dw g : clock_ok now -> bytes_ok dw ->
  glo_f2 now (swap_words 4 dw) g = if 2147634000 <=? sec now then UB UB_overflow else Ok (q2 dw (day0 now + 900 * sfield dw 9 7) g).
Proof.
  intros HC HB. unfold glo_f2. gg. cbv zeta.
  pose proof (sfield_range dw 9 7) as R1. change (2 ^ Z.of_nat 7) with 128 in R1.
  change (Z.to_nat 3) with 3%nat. change (Z.to_nat 7) with 7%nat. change (Z.to_nat 5) with 5%nat. change (Z.to_nat 24) with 24%nat. change (Z.to_nat 27) with 27%nat.
  replace (sfield dw 9 7 * 60 * 15 * 1000) with ((900 * sfield dw 9 7) * 1000) by lia.
  rewrite tod_at by (assumption || lia). destruct (2147634000 <=? sec now); [reflexivity|]. reflexivity.
Qed.
Lemma f3_ok dw g : bytes_ok dw -> glo_f3 (swap_words 4 dw) g = Ok (q3 dw g).
Proof. intros HB. unfold glo_f3. gg. reflexivity. Qed.
Lemma f4_ok dw g : bytes_ok dw -> glo_f4 (swap_words 4 dw) g = Ok (q4 dw g).
Proof. intros HB. unfold glo_f4. gg. reflexivity. Qed.

(* ------------------------------------------------ invariant *)
Definition fl {A} (o : option A) : Z := match o with Some _ => 1 | None => 0 end.
Definition bnd (x : Z) : Prop := - 2 ^ 41 <= x <= 2 ^ 41.
Definition D1 (m : list Z) (x : Z) (g : geph) : Prop := g_tof g = mkUtc x 0 /\ bnd x /\
  gd g Gvel0 = sc2 (sfield_sm m 21 24) P2_20 D_1E3 /\ gd g Gacc0 = sc2 (sfield_sm m 45 5) P2_30 D_1E3 /\ gd g Gpos0 = sc2 (sfield_sm m 50 27) P2_11 D_1E3.
Definition D2 (m : list Z) (x : Z) (g : geph) : Prop := g_toe g = mkUtc x 0 /\ bnd x /\
  gd g Gvel1 = sc2 (sfield_sm m 21 24) P2_20 D_1E3 /\ gd g Gacc1 = sc2 (sfield_sm m 45 5) P2_30 D_1E3 /\ gd g Gpos1 = sc2 (sfield_sm m 50 27) P2_11 D_1E3 /\
  gi g Gsvh = sfield m 5 3 /\ gi g Giode = sfield m 9 7.
Definition D3 (m : list Z) (g : geph) : Prop :=
  gd g Gvel2 = sc2 (sfield_sm m 21 24) P2_20 D_1E3 /\ gd g Gacc2 = sc2 (sfield_sm m 45 5) P2_30 D_1E3 /\ gd g Gpos2 = sc2 (sfield_sm m 50 27) P2_11 D_1E3 /\
  gd g Ggamn = sc (sfield_sm m 6 11) P2_40.
Definition D4 (m : list Z) (g : geph) : Prop :=
  gd g Gtaun = sc (sfield_sm m 5 22) P2_30 /\ gd g Gdtaun = sc (sfield_sm m 27 5) P2_30 /\ gi g Gage = sfield m 32 5 /\ gi g Gsva = sfield m 52 4.
Record GG (T : gtrack) (g : geph) : Prop := mkGG {
  gg_m : gi g Gmark = gk_mark T;
  gg_f1 : gi g Ggot1 = fl (gk1 T); gg_f2 : gi g Ggot2 = fl (gk2 T); gg_f3 : gi g Ggot3 = fl (gk3 T); gg_f4 : gi g Ggot4 = fl (gk4 T);
  gg_1 : match gk1 T with Some (m, x) => D1 m x g | None => True end;
  gg_2 : match gk2 T with Some (m, x) => D2 m x g | None => True end;
  gg_3 : match gk3 T with Some m => D3 m g | None => True end;
  gg_4 : match gk4 T with Some m => D4 m g | None => True end }.
Lemma gg_init sv : GG g_init (gseti Gsat sv geph_new).
Proof. split; reflexivity || exact I. Qed.

Definition unmark (T : gtrack) (dw : list Z) : gtrack := if str_mark dw =? gk_mark T then T else mkG (str_mark dw) None None None None.
Lemma gg_unmark T g dw : GG T g ->
  GG (unmark T dw) (gseti Gmark (str_mark dw) (if str_mark dw =? gi g Gmark then g else gseti Ggot1 0 (gseti Ggot2 0 (gseti Ggot3 0 (gseti Ggot4 0 g))))).
Proof.
  intros [H0 H1 H2 H3 H4 A1 A2 A3 A4]. unfold unmark. rewrite H0. destruct (Z.eqb_spec (str_mark dw) (gk_mark T)) as [E|E].
  - split; try assumption.
  - split; reflexivity || exact I.
Qed.
Lemma bnd_day t k : clock_ok t -> 0 <= k <= 1000000 -> bnd (day0 t + k).
Proof.
  intros [_ H] Hk. unfold bnd, day0. change (2 ^ 40) with 1099511627776 in H. change (2 ^ 41) with 2199023255552. lia.
Qed.
Lemma bnd_near t x : clock_ok t -> bnd x -> bnd (near_day t x).
Proof.
  intros [HN H] Hx. unfold bnd, near_day, nanos, normal in *. change (2 ^ 40) with 1099511627776 in H. change (2 ^ 41) with 2199023255552 in *.
  destruct (Z.ltb_spec (43200 * 1000000000) (sec t * 1000000000 + nsec t - x * 1000000000)); [lia|].
  destruct (Z.ltb_spec (sec t * 1000000000 + nsec t - x * 1000000000) (-43200 * 1000000000)); lia.
Qed.
Lemma gg_q1 T g dw t : GG T g -> clock_ok t -> let x := day0 t + 3600 * sfield dw 9 5 + 60 * sfield dw 14 6 + 30 * sfield dw 20 1 in
  GG (mkG (gk_mark T) (Some (dw, x)) (gk2 T) (gk3 T) (gk4 T)) (q1 dw x g).
Proof.
  intros [H0 H1 H2 H3 H4 A1 A2 A3 A4] HC x. split; try assumption; try reflexivity.
  cbn [gk1]. unfold D1. split; [reflexivity|]. split; [|repeat split]. unfold x.
  pose proof (sfield_range dw 9 5) as R1. pose proof (sfield_range dw 14 6) as R2. pose proof (sfield_range dw 20 1) as R3.
  change (2 ^ Z.of_nat 5) with 32 in R1. change (2 ^ Z.of_nat 6) with 64 in R2. change (2 ^ Z.of_nat 1) with 2 in R3.
  rewrite <- !Z.add_assoc. apply bnd_day; [exact HC|lia].
Qed.
Lemma gg_q2 T g dw t : GG T g -> clock_ok t -> let x := day0 t + 900 * sfield dw 9 7 in
  GG (mkG (gk_mark T) (gk1 T) (Some (dw, x)) (gk3 T) (gk4 T)) (q2 dw x g).
Proof.
  intros [H0 H1 H2 H3 H4 A1 A2 A3 A4] HC x. split; try assumption; try reflexivity.
  cbn [gk2]. unfold D2. split; [reflexivity|]. split; [|repeat split]. unfold x.
  pose proof (sfield_range dw 9 7) as R1. change (2 ^ Z.of_nat 7) with 128 in R1. apply bnd_day; [exact HC|lia].
Qed.
Lemma gg_q3 T g dw : GG T g -> GG (mkG (gk_mark T) (gk1 T) (gk2 T) (Some dw) (gk4 T)) (q3 dw g).
Proof. intros [H0 H1 H2 H3 H4 A1 A2 A3 A4]. split; try assumption; try reflexivity. cbn [gk3]. unfold D3. repeat split. Qed.
Lemma gg_q4 T g dw : GG T g -> GG (mkG (gk_mark T) (gk1 T) (gk2 T) (gk3 T) (Some dw)) (q4 dw g).
Proof. intros [H0 H1 H2 H3 H4 A1 A2 A3 A4]. split; try assumption; try reflexivity. cbn [gk4]. unfold D4. repeat split. Qed.

(* one accepted string *)
Definition qn (T : gtrack) (t : utc) (dw : list Z) (g : geph) : geph :=
  if str_no dw =? 1 then q1 dw (day0 t + 3600 * sfield dw 9 5 + 60 * sfield dw 14 6 + 30 * sfield dw 20 1) g
  else if str_no dw =? 2 then q2 dw (day0 t + 900 * sfield dw 9 7) g
  else if str_no dw =? 3 then q3 dw g else if str_no dw =? 4 then q4 dw g else g.
Lemma gg_recv T g dw t : GG (unmark T dw) g -> clock_ok t -> GG (g_recv T t dw) (qn T t dw g).
Proof.
  intros H HC. unfold g_recv. fold (unmark T dw). cbv zeta. unfold qn.
  destruct (str_no dw =? 1); [apply gg_q1; assumption|]. destruct (str_no dw =? 2); [apply gg_q2; assumption|].
  destruct (str_no dw =? 3); [apply gg_q3; assumption|]. destruct (str_no dw =? 4); [apply gg_q4; assumption|]. exact H.
Qed.
Definition late (t : utc) (dw : list Z) : bool := ((str_no dw =? 1) || (str_no dw =? 2)) && (2147634000 <=? sec t).
Definition in14 (dw : list Z) : bool := (1 <=? str_no dw) && (str_no dw <=? 4).

Lemma fl_zero {A} (o : option A) : (fl o =? 0) = match o with Some _ => false | None => true end.
Proof. destruct o; reflexivity. Qed.
Lemma glo_string_ok T g t dw : GG (unmark T dw) g -> clock_ok t -> bytes_ok dw ->
  if late t dw then glo_string t (swap_words 4 dw) g = UB UB_overflow
  else exists g', glo_string t (swap_words 4 dw) g = Ok (g', (if in14 dw then [EvFell FN_GLOFRAME] else []), (str_no dw =? 4) && g_full (g_recv T t dw)) /\
    GG (if (str_no dw =? 4) && g_full (g_recv T t dw) then g_days t (g_recv T t dw) else g_recv T t dw) g' /\ gi g' Gsat = gi g Gsat.
Proof.
  intros HG HC HB. pose proof (gg_recv T g dw t HG HC) as HR.
  unfold glo_string. rewrite gget by (assumption || lia). cbn [bind]. change (sfield dw 1 (Z.to_nat 4)) with (str_no dw).
  destruct ((str_no dw <? 1) || (4 <? str_no dw)) eqn:EN.
  { unfold late. replace ((str_no dw =? 1) || (str_no dw =? 2)) with false by lia. cbn [andb]. exists g.
    unfold in14. replace ((1 <=? str_no dw) && (str_no dw <=? 4)) with false by lia. replace (str_no dw =? 4) with false by lia. cbn [andb].
    split; [reflexivity|]. split; [|reflexivity]. unfold qn in HR. replace (str_no dw =? 1) with false in HR by lia. replace (str_no dw =? 2) with false in HR by lia.
    replace (str_no dw =? 3) with false in HR by lia. replace (str_no dw =? 4) with false in HR by lia. exact HR. }
  assert (HQ : (if str_no dw =? 1 then glo_f1 t (swap_words 4 dw) g else if str_no dw =? 2 then glo_f2 t (swap_words 4 dw) g
    else if str_no dw =? 3 then glo_f3 (swap_words 4 dw) g else glo_f4 (swap_words 4 dw) g) = if late t dw then UB UB_overflow else Ok (qn T t dw g)).
  { unfold late, qn. destruct (Z.eqb_spec (str_no dw) 1) as [X|X].
    { rewrite f1_ok by assumption. cbn [orb andb]. reflexivity. }
    destruct (Z.eqb_spec (str_no dw) 2) as [Y|Y].
    { rewrite f2_ok by assumption. cbn [orb andb]. reflexivity. }
    cbn [orb andb]. destruct (Z.eqb_spec (str_no dw) 3) as [V|V]; [apply f3_ok; assumption|].
    replace (str_no dw =? 4) with true by lia. apply f4_ok. assumption. }
  rewrite HQ. destruct (late t dw); [reflexivity|]. cbn [bind].
  assert (HS : gi (qn T t dw g) Gsat = gi g Gsat).
  { unfold qn. destruct (str_no dw =? 1); [reflexivity|]. destruct (str_no dw =? 2); [reflexivity|]. destruct (str_no dw =? 3); [reflexivity|]. destruct (str_no dw =? 4); reflexivity. }
  assert (HI : in14 dw = true) by (unfold in14; lia). rewrite HI.
  pose proof HR as [H0 H1 H2 H3 H4 A1 A2 A3 A4].
  assert (HF : (gi (qn T t dw g) Ggot1 =? 0) || (gi (qn T t dw g) Ggot2 =? 0) || (gi (qn T t dw g) Ggot3 =? 0) || (gi (qn T t dw g) Ggot4 =? 0) || negb (str_no dw =? 4) =
    negb ((str_no dw =? 4) && g_full (g_recv T t dw))).
  { rewrite H1, H2, H3, H4, !fl_zero. unfold g_full. destruct (gk1 _), (gk2 _), (gk3 _), (gk4 _), (str_no dw =? 4); reflexivity. }
  rewrite HF. destruct ((str_no dw =? 4) && g_full (g_recv T t dw)) eqn:EF; cbn [negb].
  - apply andb_prop in EF. destruct EF as [_ EF]. unfold g_full in EF. unfold g_days. cbv zeta.
    destruct (gk1 (g_recv T t dw)) as [[m1 x1]|]; [|discriminate]. destruct (gk2 (g_recv T t dw)) as [[m2 x2]|]; [|discriminate].
    destruct (gk3 (g_recv T t dw)) as [m3|]; [|discriminate]. destruct (gk4 (g_recv T t dw)) as [m4|]; [|discriminate]. clear EF.
    set (q := qn T t dw g) in *. destruct A1 as (T1 & B1 & R1). destruct A2 as (T2 & B2 & R2). rewrite T1, T2.
    destruct HC as [HN HCS].
    assert (XB : forall x, bnd x -> Z.abs x < 2 ^ 50) by (intros x Hx; unfold bnd in Hx; change (2 ^ 41) with 2199023255552 in Hx; change (2 ^ 50) with 1125899906842624; lia).
    rewrite day_fix_ok by (assumption || auto). cbn [bind]. rewrite day_fix_ok by (assumption || auto). cbn [bind].
    eexists. split; [reflexivity|]. split; [|exact HS].
    split; try assumption.
    + cbn [gk1]. unfold D1. split; [reflexivity|]. split; [apply bnd_near; [split|]; assumption|exact R1].
    + cbn [gk2]. unfold D2. split; [reflexivity|]. split; [apply bnd_near; [split|]; assumption|exact R2].
  - eexists. split; [reflexivity|]. split; [exact HR|exact HS].
Qed.

Lemma gg_content T g sv freq : GG T g -> g_full T = true -> gi g Gsat = sv ->
  glo_content sv freq T (gseti GgnssID 6 (gseti Gsat sv (gseti Gfrq (freq - 7) g))) /\
  GG T (gseti GgnssID 6 (gseti Gsat sv (gseti Gfrq (freq - 7) g))).
Proof.
  intros HG HF HS. split.
  - destruct HG as [H0 H1 H2 H3 H4 A1 A2 A3 A4]. unfold g_full in HF. unfold glo_content.
    destruct (gk1 T) as [[m1 tof]|]; [|discriminate]. destruct (gk2 T) as [[m2 toe]|]; [|discriminate].
    destruct (gk3 T) as [m3|]; [|discriminate]. destruct (gk4 T) as [m4|]; [|discriminate].
    exists m1, tof, m2, toe, m3, m4. do 4 (split; [reflexivity|]). do 3 (split; [reflexivity|]).
    destruct A1 as (T1 & _ & V1 & C1 & P1). destruct A2 as (T2 & _ & V2 & C2 & P2 & S2 & I2). destruct A3 as (V3 & C3 & P3 & G3). destruct A4 as (U4 & W4 & X4 & Y4).
    split; [exact T1|]. split; [exact T2|]. split; [exact S2|]. split; [exact I2|]. split; [exact X4|]. split; [exact Y4|].
    cbn [gd gseti]. rewrite V1, C1, P1, V2, C2, P2, V3, C3, P3, G3, U4, W4.
    assert (W : forall z, Z.abs z <= 2 ^ 43 -> Z.abs z <= 2 ^ 53) by (intros z Hz; change (2 ^ 43) with 8796093022208 in Hz; change (2 ^ 53) with 9007199254740992; lia).
    do 3 (split; [apply ex20k; apply sm_abs; lia|]; split; [apply ex30k; apply sm_abs; lia|]; split; [apply ex11k; apply sm_abs; lia|]).
    split; [apply nr40; apply W; apply sm_abs; lia|]. split; [apply ex30; apply W; apply sm_abs; lia|].
    apply ex30. apply W. apply sm_abs. lia.
  - destruct HG as [H0 H1 H2 H3 H4 A1 A2 A3 A4]. split; assumption.
Qed.

(* the whole decoder *)
Lemma glo_decode cbs T g t sv freq dw : GG T g -> clock_ok t -> dw_ok dw -> gi g Gsat = sv ->
  if g_usable sv t dw && late t dw then decodeGlonass cbs t 6 sv freq dw g = UB UB_overflow
  else exists g' ev r, decodeGlonass cbs t 6 sv freq dw g = Ok (g', ev, r) /\ GG (g_step sv T (t, dw)) g' /\
    ev = (if g_usable sv t dw && in14 dw then [EvFell FN_GLOFRAME] else []) ++ (if g_fires sv T t dw then map (fun c => EvGeph c g') cbs else []) /\
    (g_fires sv T t dw = true -> glo_content sv freq (g_step sv T (t, dw)) g') /\
    r = (negb (sv =? 255) && negb ((sec t =? 0) && (nsec t =? 0)) && negb (str_accept (bn dw))) || g_fires sv T t dw.
Proof.
  intros HG HC Hdw HS. unfold decodeGlonass, g_step, g_fires, g_usable.
  destruct (sv =? 255) eqn:E255.
  { cbn [negb andb]. exists g, [], false. split; [reflexivity|]. split; [exact HG|]. split; [reflexivity|]. split; [discriminate|reflexivity]. }
  change (utc_eq t (mkUtc 0 0)) with ((sec t =? 0) && (nsec t =? 0)).
  destruct ((sec t =? 0) && (nsec t =? 0)).
  { cbn [negb andb]. exists g, [], false. split; [reflexivity|]. split; [exact HG|]. split; [reflexivity|]. split; [discriminate|reflexivity]. }
  cbv zeta. rewrite gloTest_ok by apply Hdw. cbn [bind negb andb]. destruct (str_accept (bn dw)); cbn [negb andb orb].
  2:{ exists g, [], true. split; [reflexivity|]. split; [exact HG|]. split; [reflexivity|]. split; [discriminate|reflexivity]. }
  destruct (mark_ok dw Hdw) as (b12 & b13 & E12 & E13 & EM). rewrite E12, E13. cbn [bind]. rewrite EM.
  pose proof (gg_unmark T g dw HG) as HU.
  assert (HSU : gi (gseti Gmark (str_mark dw) (if str_mark dw =? gi g Gmark then g else gseti Ggot1 0 (gseti Ggot2 0 (gseti Ggot3 0 (gseti Ggot4 0 g))))) Gsat = sv).
  { destruct (str_mark dw =? gi g Gmark); exact HS. }
  set (gu := gseti Gmark (str_mark dw) _) in *. clearbody gu.
  pose proof (glo_string_ok T gu t dw HU HC (proj1 Hdw)) as HX. destruct (late t dw).
  { rewrite HX. reflexivity. }
  destruct HX as (g' & EQ & HG' & HS'). rewrite EQ. cbn [bind]. rewrite HSU in HS'.
  destruct ((str_no dw =? 4) && g_full (g_recv T t dw)) eqn:EF; cbn [negb].
  - assert (FD : g_full (g_days t (g_recv T t dw)) = true).
    { apply andb_prop in EF. destruct EF as [_ EF]. unfold g_days, g_full in *. cbn [gk1 gk2 gk3 gk4].
      destruct (gk1 _) as [[? ?]|]; [|discriminate]. destruct (gk2 _) as [[? ?]|]; [|discriminate]. destruct (gk3 _); [|discriminate]. destruct (gk4 _); [reflexivity|discriminate]. }
    destruct (gg_content _ g' sv freq HG' FD HS') as [HCt HGt].
    eexists _, _, _. split; [reflexivity|]. split; [exact HGt|]. split; [reflexivity|]. split; [intros _; exact HCt|reflexivity].
  - eexists _, _, _. split; [reflexivity|]. split; [exact HG'|]. split; [rewrite app_nil_r; reflexivity|]. split; [discriminate|reflexivity].
Qed.
