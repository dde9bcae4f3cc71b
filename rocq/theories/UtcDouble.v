(* The double-valued members of UTCTime (src/utctime.cpp:46-51, 108-122, 136-150) and the facts about rounding they
   need.  A finite binary64 is m * 2^e with |m| < 2^53 (is_dbl, where the record may hold a multiple of m); NaN and infinities are outside the model: the code
   converts them to uint64_t, which is undefined behaviour. *)
From Coq Require Import QArith Qabs Qpower Qround.
From Verif Require Import Base UtcModel UtcSpec UtcProofs Dbl.
Local Open Scope Z_scope.

Definition is_dbl (x : dbl) : Prop := exists m j, 0 <= j /\ Z.abs m < 2 ^ 53 /\ dm x = m * 2 ^ j.

(* std::floor of a double, and the truncation a conversion to an integer type performs *)
Definition dfloor (x : dbl) : Z := if 0 <=? de x then dm x * 2 ^ de x else dm x / 2 ^ (- de x).
Definition dtrunc (x : dbl) : Z := if 0 <=? de x then dm x * 2 ^ de x else Z.quot (dm x) (2 ^ (- de x)).
(* double -> uint64_t: undefined unless the truncated value fits ([conv.fpint]) *)
Definition d2u64 (x : dbl) : outcome Z :=
  let t := dtrunc x in if (0 <=? t) && (t <? 2 ^ 64) then Ok t else UB UB_convert.
Definition D_E9 : dbl := mkD E9 0.     (* E9 is a uint64_t, utctime.h:36; converted to double, exactly *)

(* (uint64_t)(sec_ * E9) % E9 *)
Definition frac_ns (x : dbl) : outcome Z := let* n := d2u64 (dmul x D_E9) in Ok (n mod E9).
(* UTCTime(double) utctime.cpp:46-51 *)
Definition utc_of_double (x : dbl) : outcome utc :=
  let* s := d2i64 (dfloor x) in let* n := frac_ns x in wrapNsec (mkUtc s (i64 n)).
(* operator+(double) utctime.cpp:108-115 and operator+=(double) :116-122.  nsec + uint64_t is computed in uint64_t and
   converted back; sec + std::floor(sec_) is computed in double and converted back. *)
Definition utc_plus_d (t : utc) (x : dbl) : outcome utc :=
  let* n := frac_ns x in
  let* s := d2i64 (rnd53 (rnd53 (sec t) + dfloor x)) in
  wrapNsec (mkUtc s (i64 (u64 (u64 (nsec t) + n)))).
Definition utc_pluseq_d := utc_plus_d.
(* operator-(double) utctime.cpp:136-143 and operator-=(double) :144-150 *)
Definition utc_minus_d (t : utc) (x : dbl) : outcome utc :=
  let* n := frac_ns x in
  let* s := d2i64 (rnd53 (rnd53 (sec t) - dfloor x)) in
  wrapNsec (mkUtc s (i64 (u64 (u64 (nsec t) - n)))).
Definition utc_minuseq_d := utc_minus_d.

(* ------------------------------------------------------------ rounding *)
Definition repr53 (a : Z) : Prop := exists m j, 0 <= j /\ Z.abs m <= 2 ^ 53 /\ a = m * 2 ^ j.

Lemma rnd53_opp z : rnd53 (- z) = - rnd53 z.
Proof.
  unfold rnd53. cbv zeta. rewrite Z.abs_opp, Z.sgn_opp. destruct (Z.log2 (Z.abs z) - 52 <=? 0); [reflexivity|]. ring.
Qed.
(* the shape of a rounded positive number *)
Lemma rnd53_pos z : 0 < z -> rnd53 z = z /\ z < 2 ^ 53 \/
  exists e q r, 0 < e /\ z = q * 2 ^ e + r /\ 0 <= r < 2 ^ e /\ 2 ^ 52 <= q < 2 ^ 53 /\
    rnd53 z = (if 2 * r <? 2 ^ e then q else if 2 ^ e <? 2 * r then q + 1 else if Z.even q then q else q + 1) * 2 ^ e.
Proof.
  intros Hz. unfold rnd53. cbv zeta. rewrite (Z.abs_eq z), (Z.sgn_pos z) by lia.
  pose proof (Z.log2_spec z Hz) as [HL HU]. set (e := Z.log2 z - 52).
  destruct (Z.leb_spec e 0) as [He|He].
  - left. split; [reflexivity|]. eapply Z.lt_le_trans; [exact HU|]. apply Z.pow_le_mono_r; lia.
  - right. exists e, (z / 2 ^ e), (z mod 2 ^ e).
    assert (Hp : 0 < 2 ^ e) by (apply Z.pow_pos_nonneg; lia).
    pose proof (Z.div_mod z (2 ^ e) ltac:(lia)). pose proof (Z.mod_pos_bound z (2 ^ e) Hp).
    replace (Z.log2 z) with (52 + e) in HL by lia. replace (Z.succ (Z.log2 z)) with (53 + e) in HU by lia.
    rewrite Z.pow_add_r in HL by lia. rewrite Z.pow_add_r in HU by lia.
    split; [exact He|]. split; [lia|]. split; [lia|]. split.
    + split; [apply Z.div_le_lower_bound; lia|apply Z.div_lt_upper_bound; lia].
    + rewrite Z.mul_1_l. reflexivity.
Qed.
Lemma rnd53_nearest_pos z a : 0 < z -> repr53 a -> Z.abs (rnd53 z - z) <= Z.abs (a - z).
Proof.
  intros Hz (m & j & Hj & Hm & ->). destruct (rnd53_pos z Hz) as [[E _]|(e & q & r & He & Ez & Hr & Hq & E)].
  { rewrite E, Z.sub_diag. cbn. lia. }
  rewrite E. set (p := 2 ^ e) in *. assert (Hp : 0 < p) by (apply Z.pow_pos_nonneg; lia).
  set (q' := if 2 * r <? p then q else if p <? 2 * r then q + 1 else if Z.even q then q else q + 1).
  assert (HQ : Z.abs (q' * p - z) <= r /\ Z.abs (q' * p - z) <= p - r).
  { unfold q'. destruct (Z.ltb_spec (2 * r) p); [nia|]. destruct (Z.ltb_spec p (2 * r)); [nia|]. destruct (Z.even q); nia. }
  destruct (Z.le_gt_cases e j) as [Hje|Hje].
  - assert (exists n, m * 2 ^ j = n * p) as [n ->].
    { exists (m * 2 ^ (j - e)). unfold p. rewrite <- Z.mul_assoc, <- Z.pow_add_r by lia. do 2 f_equal. lia. }
    destruct (Z.le_gt_cases n q); nia.
  - assert (m * 2 ^ j <= 2 ^ 52 * p).
    { assert (H2 : 2 * 2 ^ j <= p). { unfold p. rewrite <- (Z.pow_succ_r 2 j) by lia. apply Z.pow_le_mono_r; lia. }
      assert (0 < 2 ^ j) by (apply Z.pow_pos_nonneg; lia). change (2 ^ 53) with (2 * 2 ^ 52) in Hm. nia. }
    nia.
Qed.
(* no number with a 53-bit significand is closer *)
Lemma rnd53_nearest z a : repr53 a -> Z.abs (rnd53 z - z) <= Z.abs (a - z).
Proof.
  intros Ha. destruct (Z.lt_trichotomy z 0) as [H|[->|H]].
  - pose proof (rnd53_nearest_pos (- z) (- a) ltac:(lia)) as HN. rewrite rnd53_opp in HN.
    assert (repr53 (- a)). { destruct Ha as (m & j & Hj & Hm & ->). exists (- m), j. split; [exact Hj|]. split; [lia|ring]. }
    specialize (HN H0). lia.
  - cbn. lia.
  - apply rnd53_nearest_pos; assumption.
Qed.
Lemma rnd53_repr z : repr53 (rnd53 z).
Proof.
  assert (HP : forall z, 0 < z -> repr53 (rnd53 z)).
  { clear z. intros z Hz. destruct (rnd53_pos z Hz) as [[E H]|(e & q & r & He & Ez & Hr & Hq & E)]; rewrite E.
    - exists z, 0. split; [lia|]. split; lia.
    - eexists _, e. split; [lia|]. split; [|reflexivity].
      destruct (2 * r <? 2 ^ e); [lia|]. destruct (2 ^ e <? 2 * r); [lia|]. destruct (Z.even q); lia. }
  destruct (Z.lt_trichotomy z 0) as [H|[->|H]]; [|exists 0, 0; cbn; lia|apply HP, H].
  destruct (HP (- z) ltac:(lia)) as (m & j & Hj & Hm & E). rewrite rnd53_opp in E. exists (- m), j.
  split; [exact Hj|]. split; lia.
Qed.
Lemma rnd53_mono a b : a <= b -> rnd53 a <= rnd53 b.
Proof.
  intros H. pose proof (rnd53_nearest a (rnd53 b) (rnd53_repr b)). pose proof (rnd53_nearest b (rnd53 a) (rnd53_repr a)).
  destruct (Z.eq_dec a b) as [->|]; lia.
Qed.
Lemma rnd53_of_repr a : repr53 a -> rnd53 a = a.
Proof. intros H. pose proof (rnd53_nearest a a H). lia. Qed.
Lemma rnd53_ge a z : repr53 a -> a <= z -> a <= rnd53 z.
Proof. intros H Hz. rewrite <- (rnd53_of_repr a H). apply rnd53_mono, Hz. Qed.

(* ------------------------------------------------ the whole-second part agrees with the nanosecond part *)
(* floor(x) and floor(fl(x * 10^9)) are consistent: no carry is lost between sec and nsec *)
Lemma dtrunc_nonneg x : 0 <= dm x -> dtrunc x = dfloor x.
Proof.
  intros H. unfold dtrunc, dfloor. destruct (Z.leb_spec 0 (de x)); [reflexivity|].
  apply Z.quot_div_nonneg; [exact H|]. apply Z.pow_pos_nonneg; lia.
Qed.
Lemma dmul_e9 x : dmul x D_E9 = mkD (rnd53 (dm x * E9)) (de x).
Proof. unfold dmul, D_E9. cbn [dm de]. rewrite Z.add_0_r. reflexivity. Qed.
Lemma rnd_nonneg z : 0 <= z -> 0 <= rnd53 z.
Proof. intros H. change 0 with (rnd53 0). apply rnd53_mono, H. Qed.
Lemma err_e9 m j : 0 <= m < 2 ^ 53 -> 0 <= j -> Z.abs (rnd53 (m * 2 ^ j * E9) - m * 2 ^ j * E9) < E9 * 2 ^ j.
Proof.
  intros H Hj. pose proof (rnd53_err (m * 2 ^ j * E9)) as HE. assert (0 < 2 ^ j) by (apply Z.pow_pos_nonneg; lia).
  set (p := 2 ^ j) in *. clearbody p. rewrite (Z.abs_eq (m * p * E9)) in HE by (unfold E9; nia).
  assert (m * p * E9 < 2 ^ 53 * (E9 * p)) by (unfold E9; nia). set (D := Z.abs _) in *. clearbody D.
  change (2 ^ 53) with 9007199254740992 in *. unfold E9 in *. lia.
Qed.

Lemma whole_of_ns x : is_dbl x -> 0 <= dm x -> dfloor x < 4611686019 ->
  dfloor (dmul x D_E9) / E9 = dfloor x.
Proof.
  intros (m & j & Hj & Hm53 & Em) Hm Hs. rewrite dmul_e9. unfold dfloor in *. cbn [dm de].
  assert (Hpj : 0 < 2 ^ j) by (apply Z.pow_pos_nonneg; lia).
  assert (Hm0 : 0 <= m) by (rewrite Em in Hm; nia).
  assert (R : forall s k, 0 <= s < 4611686019 -> 0 <= k -> repr53 (s * E9 * 2 ^ k)).
  { intros s k Hs0 Hk. exists (s * 1953125), (9 + k). split; [lia|]. split.
    - change (2 ^ 53) with 9007199254740992. lia.
    - rewrite Z.pow_add_r by lia. unfold E9. change (2 ^ 9) with 512. ring. }
  destruct (Z.leb_spec 0 (de x)) as [He|He].
  - set (p := 2 ^ de x) in *. assert (Hp : 0 < p) by (apply Z.pow_pos_nonneg; lia).
    assert (E : rnd53 (dm x * E9) = dm x * E9).
    { apply rnd53_of_repr. pose proof (R (dm x) 0). rewrite Z.mul_1_r in H. apply H; [nia|lia]. }
    rewrite E. replace (dm x * E9 * p) with (dm x * p * E9) by ring. apply Z.div_mul. unfold E9; lia.
  - remember (- de x) as k eqn:Ek. set (p := 2 ^ k) in *. assert (Hp : 0 < p) by (apply Z.pow_pos_nonneg; lia).
    pose proof (Z.div_mod (dm x) p ltac:(lia)) as HD. pose proof (Z.mod_pos_bound (dm x) p Hp) as HR.
    set (s := dm x / p) in *. set (r := dm x mod p) in *.
    assert (Hs0 : 0 <= s) by (apply Z.div_pos; lia).
    assert (E9p : 0 < E9) by (unfold E9; lia).
    assert (L : s * E9 * p <= rnd53 (dm x * E9)).
    { apply rnd53_ge; [apply R; lia|]. rewrite HD. nia. }
    assert (U : rnd53 (dm x * E9) < (s + 1) * E9 * p).
    { destruct (Z.le_gt_cases k j) as [Hkj|Hkj].
      - assert (Er : r = 0).
        { unfold r. rewrite Em. replace j with ((j - k) + k) by lia. rewrite Z.pow_add_r, Z.mul_assoc by lia. apply Z.mod_mul. lia. }
        rewrite rnd53_of_repr; [rewrite HD, Er; nia|]. replace (dm x * E9) with (s * E9 * 2 ^ k) by (rewrite HD, Er; fold p; ring).
        apply R; lia.
      - pose proof (err_e9 m j ltac:(lia) Hj) as HE. rewrite <- Em in HE.
        assert (dm x + 2 ^ j <= (s + 1) * p).
        { assert (EP : p = 2 ^ (k - j) * 2 ^ j) by (unfold p; rewrite <- Z.pow_add_r by lia; f_equal; lia).
          set (w := 2 ^ (k - j)) in *. rewrite Em, EP. rewrite Em, EP in HD. rewrite EP in HR. clearbody s r w.
          assert (m < (s + 1) * w) by nia. nia. }
        nia. }
    rewrite Z.div_div by lia. symmetry. apply (Z.div_unique _ _ _ (rnd53 (dm x * E9) - p * E9 * s)); [left|ring].
    clearbody s r p. clear HD HR R. nia.
Qed.

(* total nanoseconds denoted by a non-negative double below 2^32 *)
Definition dns (x : dbl) : Z := dfloor (dmul x D_E9).
Lemma dns_nonneg x : 0 <= dm x -> 0 <= dns x.
Proof.
  intros H. unfold dns. rewrite dmul_e9. unfold dfloor. cbn [dm de].
  assert (0 <= rnd53 (dm x * E9)) by (apply rnd_nonneg; unfold E9; lia).
  destruct (Z.leb_spec 0 (de x)); [apply Z.mul_nonneg_nonneg; [lia|apply Z.pow_nonneg; lia]|].
  apply Z.div_pos; [lia|]. apply Z.pow_pos_nonneg; lia.
Qed.
Lemma dfloor_nonneg x : 0 <= dm x -> 0 <= dfloor x.
Proof.
  intros H. unfold dfloor. destruct (Z.leb_spec 0 (de x)); [apply Z.mul_nonneg_nonneg; [lia|apply Z.pow_nonneg; lia]|].
  apply Z.div_pos; [lia|]. apply Z.pow_pos_nonneg; lia.
Qed.
Lemma dns_split x : is_dbl x -> 0 <= dm x -> dfloor x < 4611686019 ->
  dns x = dfloor x * E9 + dns x mod E9 /\ frac_ns x = Ok (dns x mod E9) /\ 0 <= dns x mod E9 < E9.
Proof.
  intros Hx Hm Hs. pose proof (whole_of_ns x Hx Hm Hs) as HW. fold (dns x) in HW.
  pose proof (Z.div_mod (dns x) E9 ltac:(unfold E9; lia)) as HD.
  pose proof (Z.mod_pos_bound (dns x) E9 ltac:(unfold E9; lia)) as HB.
  split; [lia|]. split; [|exact HB]. unfold frac_ns, d2u64. rewrite dtrunc_nonneg.
  2: { rewrite dmul_e9. cbn [dm]. apply rnd_nonneg. unfold E9. lia. }
  fold (dns x). pose proof (dns_nonneg x Hm). replace ((0 <=? dns x) && (dns x <? 2 ^ 64)) with true; [reflexivity|].
  symmetry. unfold E9 in *. change (2 ^ 64) with 18446744073709551616. lia.
Qed.

Lemma wrap_low s n : 0 <= n < E9 -> wrapNsec (mkUtc s n) = Ok (mkUtc s n).
Proof. intros H. unfold wrapNsec. cbn [sec nsec]. replace (n <? 0) with false by lia. replace (E9 <? n) with false by lia. reflexivity. Qed.
Lemma i64_u64_small x : - 2 ^ 63 <= x < 2 ^ 63 -> i64 (u64 x) = x.
Proof.
  intros H. unfold i64, u64, sgn. change (2 ^ (64 - 1)) with (2 ^ 63). p2.
  destruct ((x mod 18446744073709551616) mod 18446744073709551616 <? 9223372036854775808) eqn:E; lia.
Qed.
Lemma u64_add_l a b : u64 (u64 a + b) = u64 (a + b).
Proof. unfold u64. apply Z.add_mod_idemp_l. lia. Qed.
Lemma u64_sub_l a b : u64 (u64 a - b) = u64 (a - b).
Proof. unfold u64. apply Zminus_mod_idemp_l. Qed.

Lemma of_double_spec x : is_dbl x -> 0 <= dm x -> dfloor x < 4611686019 ->
  exists t, utc_of_double x = Ok t /\ normal t /\ nanos t = dns x /\ sec t = dfloor x.
Proof.
  intros Hx Hm Hs. destruct (dns_split x Hx Hm Hs) as (HD & HF & HB). pose proof (dfloor_nonneg x Hm).
  unfold utc_of_double. rewrite d2i64_ok by (p2; lia). cbn [bind]. rewrite HF. cbn [bind].
  rewrite i64_id by (unfold E9 in *; p2; lia). rewrite wrap_low by exact HB. eexists. split; [reflexivity|].
  unfold normal, nanos. cbn [sec nsec]. unfold E9 in *. lia.
Qed.

Lemma plus_d_spec t x : is_dbl x -> 0 <= dm x -> dfloor x < 4611686019 -> almost_normal t -> Z.abs (sec t) < 2 ^ 52 ->
  exists r, utc_plus_d t x = Ok r /\ almost_normal r /\ nanos r = nanos t + dns x.
Proof.
  intros Hx Hm Hs Ht Hsec. destruct (dns_split x Hx Hm Hs) as (HD & HF & HB). pose proof (dfloor_nonneg x Hm).
  unfold almost_normal in *. change (2 ^ 52) with 4503599627370496 in Hsec.
  unfold utc_plus_d. rewrite HF. cbn [bind].
  rewrite (rnd53_small (sec t)) by (change (2 ^ 53) with 9007199254740992; lia).
  rewrite (rnd53_small (sec t + dfloor x)) by (change (2 ^ 53) with 9007199254740992; lia).
  rewrite d2i64_ok by (p2; lia). cbn [bind]. rewrite u64_add_l. rewrite i64_u64_small by (unfold E9 in *; p2; lia).
  unfold wrapNsec. cbn [sec nsec].
  replace (nsec t + dns x mod E9 <? 0) with false by lia.
  destruct (Z.ltb_spec E9 (nsec t + dns x mod E9)).
  - rewrite ck64_ok by (p2; lia). cbn [bind]. rewrite i64_id by (unfold E9 in *; p2; lia). eexists. split; [reflexivity|].
    unfold nanos. cbn [sec nsec]. unfold E9 in *. lia.
  - eexists. split; [reflexivity|]. unfold nanos. cbn [sec nsec]. unfold E9 in *. lia.
Qed.
Lemma minus_d_spec t x : is_dbl x -> 0 <= dm x -> dfloor x < 4611686019 -> almost_normal t -> Z.abs (sec t) < 2 ^ 52 ->
  exists r, utc_minus_d t x = Ok r /\ almost_normal r /\ nanos r = nanos t - dns x.
Proof.
  intros Hx Hm Hs Ht Hsec. destruct (dns_split x Hx Hm Hs) as (HD & HF & HB). pose proof (dfloor_nonneg x Hm).
  unfold almost_normal in *. change (2 ^ 52) with 4503599627370496 in Hsec.
  unfold utc_minus_d. rewrite HF. cbn [bind].
  rewrite (rnd53_small (sec t)) by (change (2 ^ 53) with 9007199254740992; lia).
  rewrite (rnd53_small (sec t - dfloor x)) by (change (2 ^ 53) with 9007199254740992; lia).
  rewrite d2i64_ok by (p2; lia). cbn [bind]. rewrite u64_sub_l. rewrite i64_u64_small by (unfold E9 in *; p2; lia).
  unfold wrapNsec. cbn [sec nsec].
  destruct (Z.ltb_spec (nsec t - dns x mod E9) 0).
  - rewrite ck64_ok by (p2; lia). cbn [bind]. rewrite i64_id by (unfold E9 in *; p2; lia). eexists. split; [reflexivity|].
    unfold nanos. cbn [sec nsec]. unfold E9 in *. lia.
  - replace (E9 <? nsec t - dns x mod E9) with false by (unfold E9 in *; lia). eexists. split; [reflexivity|].
    unfold nanos. cbn [sec nsec]. unfold E9 in *. lia.
Qed.

(* ------------------------------------------------ how far dns is from the number denoted *)
(* in units of 2^de: the error is at most one nanosecond of truncation and half a unit in the last place *)
Lemma dns_err_Z x k : 0 <= dm x -> 0 <= k -> de x = - k ->
  2 ^ 53 * Z.abs (dns x * 2 ^ k - dm x * E9) <= 2 ^ 53 * 2 ^ k + dm x * E9.
Proof.
  intros Hm Hk E. unfold dns. rewrite dmul_e9. unfold dfloor. cbn [dm de].
  pose proof (rnd53_err (dm x * E9)) as HE. rewrite (Z.abs_eq (dm x * E9)) in HE by (unfold E9; lia).
  set (R := rnd53 (dm x * E9)) in *. set (V := dm x * E9) in *. clearbody R V.
  replace (2 ^ 53) with 9007199254740992 in * by reflexivity.
  destruct (Z.leb_spec 0 (de x)).
  - assert (k = 0) by lia. subst k. replace (de x) with 0 by lia. rewrite !Z.pow_0_r, !Z.mul_1_r. lia.
  - rewrite E, Z.opp_involutive. set (p := 2 ^ k). assert (Hp : 0 < p) by (apply Z.pow_pos_nonneg; lia).
    pose proof (Z.div_mod R p ltac:(lia)) as HD. pose proof (Z.mod_pos_bound R p Hp) as HB.
    set (q := R / p) in *. set (r := R mod p) in *. clearbody q r p. rewrite (Z.mul_comm q p). lia.
Qed.
(* a double below 2^32 whose exponent is non-negative has an integral value, and then dns is exact *)
Lemma dns_int x : 0 <= dm x -> dfloor x < 4611686019 -> 0 <= de x -> dns x = dfloor x * E9.
Proof.
  intros Hm Hs He. unfold dns. rewrite dmul_e9. unfold dfloor in *. cbn [dm de].
  replace (0 <=? de x) with true in * by lia. assert (1 <= 2 ^ de x) by (apply (Z.pow_le_mono_r 2 0); lia).
  rewrite rnd53_of_repr; [ring|]. exists (dm x * 1953125), 9. split; [lia|]. split.
  - change (2 ^ 53) with 9007199254740992. nia.
  - unfold E9. change (2 ^ 9) with 512. ring.
Qed.
Lemma two_pow_neg k : 0 <= k -> (Qpower (2 # 1) (- k) == / inject_Z (2 ^ k))%Q.
Proof.
  intros H. rewrite Qpower_opp. f_equiv. change (2 # 1)%Q with (inject_Z 2). symmetry. apply Zpower_Qpower. exact H.
Qed.
Lemma two_pow_pos k : 0 <= k -> (Qpower (2 # 1) k == inject_Z (2 ^ k))%Q.
Proof. intros H. change (2 # 1)%Q with (inject_Z 2). symmetry. apply Zpower_Qpower. exact H. Qed.
Lemma Qabs_le_Z a b p : 0 < p -> Z.abs a <= b -> (Qabs (inject_Z a / inject_Z p) <= inject_Z b / inject_Z p)%Q.
Proof.
  intros Hp H. destruct p as [|p|p]; try lia.
  apply Qabs_Qle_condition. unfold Qle, Qdiv, Qinv, Qmult, Qopp, inject_Z. cbn [Qnum Qden]. split; nia.
Qed.
Lemma dns_err x : is_dbl x -> 0 <= dm x -> dfloor x < 4611686019 ->
  (Qabs (inject_Z (dns x) - dQ x * inject_Z 1000000000) <= 1 + dQ x * (1000000000 # 9007199254740992))%Q.
Proof.
  intros Hx Hm Hs. destruct (Z.le_gt_cases 0 (de x)) as [He|He].
  - rewrite (dns_int x Hm Hs He). unfold dfloor. replace (0 <=? de x) with true by lia. unfold dQ.
    rewrite (two_pow_pos _ He).
    setoid_replace (inject_Z (dm x * 2 ^ de x * E9) - inject_Z (dm x) * inject_Z (2 ^ de x) * inject_Z 1000000000)%Q with 0%Q
      by (rewrite !inject_Z_mult; unfold E9; ring).
    change (Qabs 0) with 0%Q. rewrite <- inject_Z_mult.
    assert (0 <= inject_Z (dm x * 2 ^ de x))%Q.
    { change (inject_Z 0 <= inject_Z (dm x * 2 ^ de x))%Q. rewrite <- Zle_Qle. apply Z.mul_nonneg_nonneg; [lia|apply Z.pow_nonneg; lia]. }
    apply Qle_trans with (1 + 0)%Q; [discriminate|]. apply Qplus_le_r. apply Qmult_le_0_compat; [exact H|discriminate].
  - remember (- de x) as k eqn:Ek. assert (Hk : 0 <= k) by lia. assert (E : de x = - k) by lia.
    pose proof (dns_err_Z x k Hm Hk E) as HZ. unfold dQ. rewrite E, (two_pow_neg k Hk).
    assert (Hp : 0 < 2 ^ k) by (apply Z.pow_pos_nonneg; lia). set (p := 2 ^ k) in *. clearbody p.
    assert (HpQ : ~ (inject_Z p == 0)%Q). { intros EQ. assert (0 < inject_Z p)%Q by (change (inject_Z 0 < inject_Z p)%Q; rewrite <- Zlt_Qlt; exact Hp). rewrite EQ in H. discriminate. }
    setoid_replace (inject_Z (dns x) - inject_Z (dm x) * / inject_Z p * inject_Z 1000000000)%Q
      with (inject_Z (2 ^ 53 * (dns x * p - dm x * E9)) / inject_Z (2 ^ 53 * p))%Q.
    2: { unfold Z.sub. rewrite ?inject_Z_mult, ?inject_Z_plus, ?inject_Z_opp, ?inject_Z_mult. unfold E9. field. split; [exact HpQ|discriminate]. }
    setoid_replace (1 + inject_Z (dm x) * / inject_Z p * (1000000000 # 9007199254740992))%Q
      with (inject_Z (2 ^ 53 * p + dm x * E9) / inject_Z (2 ^ 53 * p))%Q.
    2: { rewrite inject_Z_plus, !inject_Z_mult. unfold E9. change (1000000000 # 9007199254740992)%Q with (inject_Z 1000000000 / inject_Z (2 ^ 53))%Q. field. split; [exact HpQ|discriminate]. }
    apply Qabs_le_Z; [lia|]. rewrite Z.abs_mul. change (Z.abs (2 ^ 53)) with (2 ^ 53). exact HZ.
Qed.

(* ------------------------------------------------ negative values *)
Lemma dfloor_neg x : dm x < 0 -> dfloor x <= -1.
Proof.
  intros H. unfold dfloor. destruct (Z.leb_spec 0 (de x)).
  - assert (1 <= 2 ^ de x) by (apply (Z.pow_le_mono_r 2 0); lia). nia.
  - assert (Hp : 0 < 2 ^ (- de x)) by (apply Z.pow_pos_nonneg; lia). assert (dm x / 2 ^ (- de x) < 0) by (apply Z.div_lt_upper_bound; lia). lia.
Qed.
(* either the conversion is undefined, or the value is above -1 ns and is taken as zero nanoseconds of second -1 *)
Lemma neg_frac x : is_dbl x -> dm x < 0 ->
  frac_ns x = UB UB_convert \/ (frac_ns x = Ok 0 /\ dfloor x = -1 /\ exists k, de x = - k /\ 0 < k /\ - dm x * E9 < 2 ^ k).
Proof.
  intros Hx Hm. unfold frac_ns, d2u64. rewrite dmul_e9. unfold dtrunc, dfloor. cbn [dm de].
  assert (HN : rnd53 (dm x * E9) <= - E9).
  { change (- E9) with (rnd53 (- E9)). apply rnd53_mono. unfold E9. lia. }
  destruct (Z.leb_spec 0 (de x)) as [He|He].
  - left. assert (1 <= 2 ^ de x) by (apply (Z.pow_le_mono_r 2 0); lia).
    replace (0 <=? rnd53 (dm x * E9) * 2 ^ de x) with false; [reflexivity|]. symmetry. apply Z.leb_gt. unfold E9 in *. nia.
  - remember (- de x) as k eqn:Ek. assert (Hp : 0 < 2 ^ k) by (apply Z.pow_pos_nonneg; lia).
    assert (EQ : Z.quot (rnd53 (dm x * E9)) (2 ^ k) = - ((- rnd53 (dm x * E9)) / 2 ^ k)).
    { rewrite <- (Z.opp_involutive (rnd53 (dm x * E9))) at 1. rewrite Z.quot_opp_l by lia. f_equal. apply Z.quot_div_nonneg; [unfold E9 in *; lia|lia]. }
    rewrite EQ. set (q := - rnd53 (dm x * E9) / 2 ^ k). assert (0 <= q) by (apply Z.div_pos; [unfold E9 in *; lia|lia]).
    destruct (Z.eq_dec q 0) as [Eq|Eq].
    + right. rewrite Eq. split; [reflexivity|].
      assert (HL : - rnd53 (dm x * E9) < 2 ^ k). { apply Z.div_small_iff in Eq; [|lia]. unfold E9 in *. lia. }
      assert (HM : - dm x * E9 < 2 ^ k).
      { apply Z.nle_gt. intros HC. assert (HR : 2 ^ k <= rnd53 (- (dm x * E9))).
        { apply rnd53_ge; [|lia]. exists 1, k. split; [lia|]. split; [cbn; lia|lia]. }
        rewrite rnd53_opp in HR. lia. }
      split; [|exists k; split; [lia|]; split; [lia|exact HM]].
      symmetry. apply (Z.div_unique _ _ _ (dm x + 2 ^ k)); [left; unfold E9 in *; lia|ring].
    + left. replace (0 <=? - q) with false by lia. reflexivity.
Qed.
Lemma of_double_neg x : is_dbl x -> dm x < 0 ->
  (utc_of_double x = UB UB_convert \/ utc_of_double x = Ok (mkUtc (-1) 0)).
Proof.
  intros Hx Hm. unfold utc_of_double. destruct (neg_frac x Hx Hm) as [E|(E & EF & _)].
  - left. unfold d2i64. destruct ((- 2 ^ 63 <=? dfloor x) && (dfloor x <? 2 ^ 63)); [|reflexivity]. cbn [bind]. rewrite E. reflexivity.
  - right. rewrite EF, E. vm_compute. reflexivity.
Qed.
Lemma plus_d_neg t x : is_dbl x -> dm x < 0 -> almost_normal t -> Z.abs (sec t) < 2 ^ 52 ->
  (utc_plus_d t x = UB UB_convert \/ utc_plus_d t x = Ok (mkUtc (sec t - 1) (nsec t))) /\
  (utc_minus_d t x = UB UB_convert \/ utc_minus_d t x = Ok (mkUtc (sec t + 1) (nsec t))).
Proof.
  intros Hx Hm Ht Hs. unfold utc_plus_d, utc_minus_d. destruct (neg_frac x Hx Hm) as [E|(E & EF & _)].
  - rewrite E. split; left; reflexivity.
  - rewrite E, EF. cbn [bind]. unfold almost_normal in Ht. change (2 ^ 52) with 4503599627370496 in Hs.
    rewrite (rnd53_small (sec t)) by (change (2 ^ 53) with 9007199254740992; lia).
    rewrite !rnd53_small by (change (2 ^ 53) with 9007199254740992; lia).
    rewrite !d2i64_ok by (p2; lia). cbn [bind]. rewrite u64_add_l, u64_sub_l. rewrite Z.add_0_r, Z.sub_0_r.
    rewrite i64_u64_small by (p2; lia). unfold wrapNsec. cbn [sec nsec]. replace (nsec t <? 0) with false by lia.
    replace (E9 <? nsec t) with false by (unfold E9; lia). split; right; f_equal; f_equal; lia.
Qed.

(* ------------------------------------------------ toSec *)
Lemma toSec_form t : toSec t = mkD (rnd53 (rnd53 (sec t) * 2 ^ 82 + rnd53 (rnd53 (nsec t) * 4835703278458517))) (-82).
Proof.
  unfold toSec, dadd, dmul, d_of_int, D_1EM9. cbn [dm de]. change (Z.min 0 (0 + -82)) with (-82).
  change (0 - -82) with 82. change (0 + -82 - -82) with 0. rewrite Z.mul_1_r. reflexivity.
Qed.
(* in units of 2^-82 s: |toSec t - (sec + nsec/10^9)| <= 2^-53 (|sec| + 4) *)
Lemma toSec_err_Z t : normal t -> Z.abs (sec t) <= 2 ^ 53 ->
  2 ^ 53 * Z.abs (dm (toSec t) * 1000000000 - nanos t * 2 ^ 82) <= (Z.abs (sec t) + 4) * 1000000000 * 2 ^ 82.
Proof.
  unfold normal, nanos. intros Hn Hs. rewrite toSec_form. cbn [dm].
  rewrite (rnd53_id (sec t)) by exact Hs.
  rewrite (rnd53_id (nsec t)) by (change (2 ^ 53) with 9007199254740992; lia).
  pose proof (rnd53_err (nsec t * 4835703278458517)) as H1. set (A := rnd53 (nsec t * 4835703278458517)) in *.
  pose proof (rnd53_err (sec t * 2 ^ 82 + A)) as H2. set (B := rnd53 (sec t * 2 ^ 82 + A)) in *. clearbody A B.
  change (2 ^ 53) with 9007199254740992 in *. change (2 ^ 82) with 4835703278458516698824704 in *.
  destruct t as [s n]. cbn [sec nsec] in *. lia.
Qed.
Lemma toSec_mono a b : normal a -> normal b -> Z.abs (sec a) <= 2 ^ 53 -> Z.abs (sec b) <= 2 ^ 53 -> nanos a <= nanos b ->
  dm (toSec a) <= dm (toSec b).
Proof.
  unfold normal, nanos. intros Ha Hb Hsa Hsb H. rewrite !toSec_form. cbn [dm]. apply rnd53_mono.
  rewrite !(rnd53_id (sec _)) by assumption.
  rewrite !(rnd53_id (nsec _)) by (change (2 ^ 53) with 9007199254740992; lia).
  destruct (Z.eq_dec (sec a) (sec b)) as [E|E].
  - rewrite E. assert (rnd53 (nsec a * 4835703278458517) <= rnd53 (nsec b * 4835703278458517)) by (apply rnd53_mono; lia). lia.
  - assert (rnd53 (nsec a * 4835703278458517) <= 2 ^ 82).
    { change (2 ^ 82) with (rnd53 (2 ^ 82)). apply rnd53_mono. change (2 ^ 82) with 4835703278458516698824704. lia. }
    assert (0 <= rnd53 (nsec b * 4835703278458517)) by (apply rnd_nonneg; lia).
    change (2 ^ 82) with 4835703278458516698824704 in *. lia.
Qed.
Lemma dQ_le a b e : de a = e -> de b = e -> (dQ a <= dQ b)%Q <-> dm a <= dm b.
Proof.
  intros Ea Eb. unfold dQ. rewrite Ea, Eb. rewrite Zle_Qle. split; intros H.
  - apply Qmult_le_r with (Qpower (2 # 1) e); [apply Qpower_0_lt; reflexivity|exact H].
  - apply Qmult_le_compat_r; [exact H|]. apply Qlt_le_weak, Qpower_0_lt. reflexivity.
Qed.

Lemma toSec_is_dbl t : is_dbl (toSec t).
Proof.
  rewrite toSec_form. unfold is_dbl. cbn [dm]. destruct (rnd53_repr (rnd53 (sec t) * 2 ^ 82 + rnd53 (rnd53 (nsec t) * 4835703278458517))) as (m & j & Hj & Hm & ->).
  destruct (Z.eq_dec (Z.abs m) (2 ^ 53)) as [E|E].
  - exists (m / 2), (j + 1). split; [lia|]. rewrite Z.pow_add_r by lia. change (2 ^ 53) with 9007199254740992 in *. split; [lia|].
    assert (m = m / 2 * 2) by lia. rewrite H at 1. ring.
  - exists m, j. split; [exact Hj|]. split; [lia|reflexivity].
Qed.
(* to seconds and back: within a microsecond of the original time *)
Lemma toSec_round_trip t : normal t -> 0 <= sec t < 2 ^ 32 ->
  exists r, utc_of_double (toSec t) = Ok r /\ normal r /\ Z.abs (nanos r - nanos t) <= 955.
Proof.
  intros Hn Hs. change (2 ^ 32) with 4294967296 in Hs.
  pose proof (toSec_err_Z t Hn ltac:(change (2 ^ 53) with 9007199254740992; lia)) as H1.
  assert (H0 : 0 <= dm (toSec t)).
  { rewrite toSec_form. cbn [dm]. apply rnd_nonneg. unfold normal in Hn.
    assert (0 <= rnd53 (sec t)) by (apply rnd_nonneg; lia). assert (0 <= rnd53 (nsec t)) by (apply rnd_nonneg; lia).
    assert (0 <= rnd53 (rnd53 (nsec t) * 4835703278458517)) by (apply rnd_nonneg; lia).
    change (2 ^ 82) with 4835703278458516698824704. lia. }
  assert (HE : de (toSec t) = -82) by (rewrite toSec_form; reflexivity).
  pose proof (dns_err_Z (toSec t) 82 H0 ltac:(lia) HE) as H2.
  assert (HF : dfloor (toSec t) < 4611686019).
  { unfold dfloor. rewrite HE. change (0 <=? -82) with false. cbv iota. change (- -82) with 82.
    apply Z.div_lt_upper_bound; [reflexivity|]. unfold normal, nanos in *. set (M := dm (toSec t)) in *. clearbody M.
    change (2 ^ 53) with 9007199254740992 in *. change (2 ^ 82) with 4835703278458516698824704 in *. lia. }
  destruct (of_double_spec (toSec t) (toSec_is_dbl t) H0 HF) as (r & Er & Nr & Vr & _). exists r.
  split; [exact Er|]. split; [exact Nr|]. rewrite Vr. unfold normal, nanos in *. set (M := dm (toSec t)) in *. set (D := dns (toSec t)) in *.
  clearbody M D. unfold E9 in *. change (2 ^ 53) with 9007199254740992 in *. change (2 ^ 82) with 4835703278458516698824704 in *. lia.
Qed.

(* ------------------------------------------------ in terms of the number denoted *)
Lemma dQ_sign x : (0 <= dQ x)%Q <-> 0 <= dm x.
Proof.
  unfold dQ. assert (HP : (0 < Qpower (2 # 1) (de x))%Q) by (apply Qpower_0_lt; reflexivity). split; intros H.
  - destruct (Z.le_gt_cases 0 (dm x)) as [|HC]; [assumption|]. exfalso.
    assert (inject_Z (dm x) < 0)%Q by (change (inject_Z (dm x) < inject_Z 0)%Q; rewrite <- Zlt_Qlt; exact HC).
    apply (Qlt_not_le (inject_Z (dm x) * Qpower (2 # 1) (de x)) 0); [|exact H].
    rewrite <- (Qmult_0_l (Qpower (2 # 1) (de x))). apply Qmult_lt_r; assumption.
  - apply Qmult_le_0_compat; [change (inject_Z 0 <= inject_Z (dm x))%Q; rewrite <- Zle_Qle; exact H|apply Qlt_le_weak, HP].
Qed.
Lemma dfloor_Qfloor x : dfloor x = Qfloor (dQ x).
Proof.
  unfold dfloor, dQ. destruct (Z.leb_spec 0 (de x)) as [He|He].
  - rewrite (two_pow_pos _ He), <- inject_Z_mult. rewrite Qfloor_Z. reflexivity.
  - remember (- de x) as k eqn:Ek. replace (de x) with (- k) by lia. rewrite two_pow_neg by lia.
    assert (Hp : 0 < 2 ^ k) by (apply Z.pow_pos_nonneg; lia). destruct (2 ^ k) as [|p|p]; try lia.
    unfold Qfloor, Qmult, Qinv, inject_Z. cbn [Qnum Qden]. rewrite Z.mul_1_r. reflexivity.
Qed.
Lemma dfloor_lt x n : (dQ x < inject_Z n)%Q -> dfloor x < n.
Proof.
  intros H. rewrite dfloor_Qfloor. pose proof (Qfloor_le (dQ x)). rewrite Zlt_Qlt. eapply Qle_lt_trans; eassumption.
Qed.
Lemma dm_neg x : (dQ x < 0)%Q -> dm x < 0.
Proof. intros H. destruct (Z.le_gt_cases 0 (dm x)) as [HC|]; [|assumption]. apply dQ_sign in HC. exfalso. apply (Qlt_not_le _ _ H HC). Qed.

Lemma of_double_Q x : is_dbl x -> (0 <= dQ x)%Q -> (dQ x < inject_Z (2 ^ 32))%Q ->
  exists t, utc_of_double x = Ok t /\ normal t /\ sec t = Qfloor (dQ x) /\
    (Qabs (inject_Z (nanos t) - dQ x * inject_Z 1000000000) <= 1 + dQ x * (1000000000 # 9007199254740992))%Q.
Proof.
  intros Hx H0 HU. apply dQ_sign in H0. apply dfloor_lt in HU. change (2 ^ 32) with 4294967296 in HU.
  assert (HU2 : dfloor x < 4611686019) by lia.
  destruct (of_double_spec x Hx H0 HU2) as (t & E & N & V & S). exists t. split; [exact E|]. split; [exact N|].
  split; [rewrite S; apply dfloor_Qfloor|]. rewrite V. apply dns_err; assumption.
Qed.
Lemma plus_minus_Q t x : is_dbl x -> (0 <= dQ x)%Q -> (dQ x < inject_Z (2 ^ 32))%Q -> almost_normal t -> Z.abs (sec t) < 2 ^ 51 ->
  exists n r r', (Qabs (inject_Z n - dQ x * inject_Z 1000000000) <= 1 + dQ x * (1000000000 # 9007199254740992))%Q /\
    utc_plus_d t x = Ok r /\ almost_normal r /\ nanos r = nanos t + n /\
    utc_minus_d t x = Ok r' /\ almost_normal r' /\ nanos r' = nanos t - n /\
    (exists b, utc_minus_d r x = Ok b /\ nanos b = nanos t) /\ (exists b, utc_plus_d r' x = Ok b /\ nanos b = nanos t).
Proof.
  intros Hx H0 HU Ht Hs. apply dQ_sign in H0. apply dfloor_lt in HU. change (2 ^ 32) with 4294967296 in HU.
  assert (HU2 : dfloor x < 4611686019) by lia. pose proof (dfloor_nonneg x H0).
  destruct (dns_split x Hx H0 HU2) as (HD & _ & HB).
  change (2 ^ 51) with 2251799813685248 in Hs.
  destruct (plus_d_spec t x Hx H0 HU2 Ht ltac:(change (2 ^ 52) with 4503599627370496; lia)) as (r & E & N & V).
  destruct (minus_d_spec t x Hx H0 HU2 Ht ltac:(change (2 ^ 52) with 4503599627370496; lia)) as (r' & E' & N' & V').
  exists (dns x), r, r'. split; [apply dns_err; assumption|]. do 3 (split; [assumption|]). do 3 (split; [assumption|]).
  unfold nanos, almost_normal, E9 in *. set (n := dns x) in *.
  split.
  - destruct (minus_d_spec r x Hx H0 HU2 N ltac:(change (2 ^ 52) with 4503599627370496; lia)) as (b & EB & _ & VB).
    exists b. split; [exact EB|]. unfold nanos in VB. change (dns x) with n in VB. clearbody n. lia.
  - destruct (plus_d_spec r' x Hx H0 HU2 N' ltac:(change (2 ^ 52) with 4503599627370496; lia)) as (b & EB & _ & VB).
    exists b. split; [exact EB|]. unfold nanos in VB. change (dns x) with n in VB. clearbody n. lia.
Qed.
Lemma toSec_err t : normal t -> Z.abs (sec t) <= 2 ^ 53 ->
  (Qabs (dQ (toSec t) - inject_Z (nanos t) / inject_Z 1000000000) <= inject_Z (Z.abs (sec t) + 4) / inject_Z (2 ^ 53))%Q.
Proof.
  intros Hn Hs. pose proof (toSec_err_Z t Hn Hs) as HZ. unfold dQ. replace (de (toSec t)) with (- (82)) by (rewrite toSec_form; reflexivity).
  rewrite two_pow_neg by lia. set (M := dm (toSec t)) in *. set (N := nanos t) in *. set (A := Z.abs (sec t)) in *. clearbody M N A.
  set (P := 2 ^ 53 * 1000000000 * 2 ^ 82).
  setoid_replace (inject_Z M * / inject_Z (2 ^ 82) - inject_Z N / inject_Z 1000000000)%Q
    with (inject_Z (2 ^ 53 * (M * 1000000000 - N * 2 ^ 82)) / inject_Z P)%Q.
  2: { unfold P, Z.sub. rewrite ?inject_Z_mult, ?inject_Z_plus, ?inject_Z_opp, ?inject_Z_mult. field. repeat split; discriminate. }
  setoid_replace (inject_Z (A + 4) / inject_Z (2 ^ 53))%Q with (inject_Z ((A + 4) * 1000000000 * 2 ^ 82) / inject_Z P)%Q.
  2: { unfold P. rewrite ?inject_Z_mult. field. repeat split; discriminate. }
  apply Qabs_le_Z; [reflexivity|]. rewrite Z.abs_mul. change (Z.abs (2 ^ 53)) with (2 ^ 53). exact HZ.
Qed.
Lemma toSec_monotone a b : normal a -> normal b -> Z.abs (sec a) <= 2 ^ 53 -> Z.abs (sec b) <= 2 ^ 53 -> nanos a <= nanos b ->
  (dQ (toSec a) <= dQ (toSec b))%Q.
Proof.
  intros Ha Hb Hsa Hsb H. apply (dQ_le (toSec a) (toSec b) (-82)); [rewrite toSec_form; reflexivity|rewrite toSec_form; reflexivity|].
  apply toSec_mono; assumption.
Qed.
Lemma neg_ops x : is_dbl x -> (dQ x < 0)%Q ->
  (utc_of_double x = UB UB_convert \/ utc_of_double x = Ok (mkUtc (-1) 0)) /\
  forall t, almost_normal t -> Z.abs (sec t) < 2 ^ 52 ->
    (utc_plus_d t x = UB UB_convert \/ utc_plus_d t x = Ok (mkUtc (sec t - 1) (nsec t))) /\
    (utc_minus_d t x = UB UB_convert \/ utc_minus_d t x = Ok (mkUtc (sec t + 1) (nsec t))).
Proof. intros Hx Hm. apply dm_neg in Hm. split; [apply of_double_neg; assumption|]. intros t Ht Hs. apply plus_d_neg; assumption. Qed.
(* -1 ns or less is always undefined *)
Lemma neg_undefined x : is_dbl x -> (dQ x <= - (1 # 1000000000))%Q ->
  utc_of_double x = UB UB_convert /\ forall t, utc_plus_d t x = UB UB_convert /\ utc_minus_d t x = UB UB_convert.
Proof.
  intros Hx HQ. assert (Hm : dm x < 0) by (apply dm_neg; eapply Qle_lt_trans; [exact HQ|reflexivity]).
  assert (HF : frac_ns x = UB UB_convert).
  { destruct (neg_frac x Hx Hm) as [E|(_ & _ & k & Ek & Hk & HL)]; [exact E|]. exfalso.
    unfold dQ in HQ. rewrite Ek, two_pow_neg in HQ by lia. assert (Hp : 0 < 2 ^ k) by lia. destruct (2 ^ k) as [|p|p]; try lia.
    unfold Qle, Qmult, Qinv, Qopp, inject_Z in HQ. cbn [Qnum Qden] in HQ. unfold E9 in HL. lia. }
  split.
  - unfold utc_of_double. unfold d2i64. destruct ((- 2 ^ 63 <=? dfloor x) && (dfloor x <? 2 ^ 63)); [|reflexivity]. cbn [bind]. rewrite HF. reflexivity.
  - intros t. unfold utc_plus_d, utc_minus_d. rewrite HF. split; reflexivity.
Qed.
