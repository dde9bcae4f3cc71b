(* Galileo page checks and extraction (nav.cpp:604-692) against NavGalSpec. *)
From Coq Require Import QArith.
From Verif Require Import Base ZBits BitSpec BitModel BitProofs CrcModel CrcSpec CrcProofs UtcModel UtcSpec Dbl NavModel NavSpec NavGpsSpec NavStrSpec NavStr NavGlo NavGalSpec.
Local Open Scope Z_scope.

(* ------------------------------------------------ long division *)
Lemma top_clear n y : 0 <= n -> 0 <= y < 2 ^ (n + 1) -> Z.testbit y n = false -> y < 2 ^ n.
Proof.
  intros Hn Hy HT. destruct (Z.lt_ge_cases y (2 ^ n)) as [|G]; [assumption|]. exfalso.
  assert (Z.testbit y n = true); [|congruence]. rewrite Z.pow_add_r in Hy by lia. change (2 ^ 1) with 2 in Hy.
  assert (0 < 2 ^ n) by (apply Z.pow_pos_nonneg; lia).
  replace y with (y - 2 ^ n + 1 * 2 ^ n) by lia. apply Z.testbit_true; [lia|]. rewrite Z.div_add by lia.
  rewrite Z.div_small by lia. reflexivity.
Qed.
Lemma P_shift_bit k : 0 <= k -> Z.testbit (crc24q_poly * 2 ^ k) (24 + k) = true /\ 0 <= crc24q_poly * 2 ^ k < 2 ^ (24 + k + 1).
Proof.
  intros Hk. split.
  - rewrite Z.mul_pow2_bits by lia. replace (24 + k - k) with 24 by lia. reflexivity.
  - assert (0 < 2 ^ k) by (apply Z.pow_pos_nonneg; lia). replace (24 + k + 1) with (k + 25) by lia. rewrite Z.pow_add_r by lia.
    change crc24q_poly with 0x1864CFB. change (2 ^ 25) with 33554432. lia.
Qed.
Lemma prem_spec : forall n x, 0 <= x < 2 ^ (24 + Z.of_nat n) -> 0 <= prem n x < 2 ^ 24 /\ (mult (prem n x) <-> mult x).
Proof.
  induction n as [|n IH]; intros x Hx; [cbn [prem]; split; [exact Hx|reflexivity]|]. cbn [prem].
  rewrite Nat2Z.inj_succ in Hx. replace (24 + Z.succ (Z.of_nat n)) with (24 + Z.of_nat n + 1) in Hx by lia.
  destruct (P_shift_bit (Z.of_nat n)) as [PB PR]; [lia|].
  destruct (Z.testbit x (24 + Z.of_nat n)) eqn:E.
  - pose proof (lxor_range (24 + Z.of_nat n + 1) x (crc24q_poly * 2 ^ Z.of_nat n) ltac:(lia) Hx PR) as R.
    destruct (IH (Z.lxor x (crc24q_poly * 2 ^ Z.of_nat n))) as [H1 H2].
    { split; [lia|]. apply top_clear; [lia|exact R|]. rewrite Z.lxor_spec, E, PB. reflexivity. }
    split; [exact H1|]. rewrite H2.
    assert (MP : mult (crc24q_poly * 2 ^ Z.of_nat n)) by (apply mult_shift; [lia|exact (mult_P 0 mult_0)]).
    split; intros HM.
    + replace x with (Z.lxor (Z.lxor x (crc24q_poly * 2 ^ Z.of_nat n)) (crc24q_poly * 2 ^ Z.of_nat n)) by (rewrite Z.lxor_assoc, Z.lxor_nilpotent; apply Z.lxor_0_r).
      apply mult_lxor; assumption.
    + apply mult_lxor; assumption.
  - apply IH. split; [lia|]. apply top_clear; [lia|lia|exact E].
Qed.
Lemma prem_zero n x : 0 <= x < 2 ^ (24 + Z.of_nat n) -> (prem n x =? 0) = true <-> mult x.
Proof.
  intros Hx. destruct (prem_spec n x Hx) as [H1 H2]. rewrite Z.eqb_eq, <- H2. split; [intros ->; constructor|]. intros HM. exact (mult_small _ HM H1).
Qed.

(* ------------------------------------------------ bits *)
Lemma tb_cat n a b j : 0 <= n -> 0 <= b < 2 ^ n -> 0 <= j -> Z.testbit (a * 2 ^ n + b) j = if j <? n then Z.testbit b j else Z.testbit a (j - n).
Proof.
  intros Hn Hb Hj. rewrite cat_lxor by assumption. rewrite Z.lxor_spec. destruct (Z.ltb_spec j n).
  - rewrite Z.mul_pow2_bits_low by lia. apply xorb_false_l.
  - rewrite Z.mul_pow2_bits by lia. rewrite (testbit_high n b j) by lia. apply xorb_false_r.
Qed.
Lemma sfield_bit dw pos n j : 0 <= j -> Z.testbit (sfield dw pos n) j = (j <? Z.of_nat n) && sbit dw (pos + Z.of_nat n - 1 - j).
Proof.
  revert j. induction n as [|n IH]; intros j Hj.
  - cbn [sfield]. rewrite Z.bits_0. replace (j <? Z.of_nat 0) with false by lia. reflexivity.
  - cbn [sfield]. replace (2 * sfield dw pos n + Z.b2z (sbit dw (pos + Z.of_nat n))) with (sfield dw pos n * 2 ^ 1 + Z.b2z (sbit dw (pos + Z.of_nat n))) by (change (2 ^ 1) with 2; lia).
    rewrite tb_cat by (try lia; destruct (sbit dw _); cbn [Z.b2z]; lia). destruct (Z.ltb_spec j 1).
    + replace j with 0 by lia. replace (0 <? Z.of_nat (S n)) with true by lia. cbn [andb]. rewrite Z.b2z_bit0. f_equal. lia.
    + rewrite IH by lia. replace (j - 1 <? Z.of_nat n) with (j <? Z.of_nat (S n)) by lia. f_equal. f_equal. lia.
Qed.
Lemma bits_eq n x y : 0 <= n -> 0 <= x < 2 ^ n -> 0 <= y < 2 ^ n -> (forall j, 0 <= j < n -> Z.testbit x j = Z.testbit y j) -> x = y.
Proof.
  intros Hn Hx Hy H. apply Z.bits_inj'. intros j Hj. destruct (Z.lt_ge_cases j n); [apply H; lia|].
  rewrite !(testbit_high n) by lia. reflexivity.
Qed.
Lemma cat_range n k a b : 0 <= n -> 0 <= k -> 0 <= a < 2 ^ k -> 0 <= b < 2 ^ n -> 0 <= a * 2 ^ n + b < 2 ^ (k + n).
Proof. intros Hn Hk Ha Hb. rewrite Z.pow_add_r by lia. assert (0 < 2 ^ n) by (apply Z.pow_pos_nonneg; lia). nia. Qed.
Lemma page_range dw : 0 <= page_poly dw < 2 ^ (24 + Z.of_nat 196).
Proof.
  unfold page_poly. exact (cat_range 24 196 _ _ ltac:(lia) ltac:(lia) (cat_range 82 114 _ _ ltac:(lia) ltac:(lia) (sfield_range dw 0 114) (sfield_range dw 128 82)) (sfield_range dw 210 24)).
Qed.

(* ------------------------------------------------ moving bytes *)
Lemma gal_put_ok : forall bs dst j, bytes_ok bs -> bytes_ok dst -> 0 <= j -> j + 8 * Zlen bs <= 8 * Zlen dst ->
  exists d, gal_put bs dst j = Ok d /\ Zlen d = Zlen dst /\ bytes_ok d /\
    forall k, 0 <= k -> bit d k = if (j <=? k) && (k <? j + 8 * Zlen bs) then bit bs (k - j) else bit dst k.
Proof.
  induction bs as [|b bs IH]; intros dst j Hbs Hd Hj HL.
  - exists dst. cbn [gal_put]. repeat split; auto. intros k Hk. change (Zlen []) with 0. replace ((j <=? k) && (k <? j + 8 * 0)) with false by lia. reflexivity.
  - cbn [gal_put]. rewrite Zlen_cons in *. pose proof (Zlen_nonneg bs). pose proof (Forall_inv Hbs) as Hb. pose proof (Forall_inv_tail Hbs) as Hbs'. 
    destruct (setBit_ok 8 dst j b Hd Hj ltac:(lia) ltac:(lia)) as (d1 & E1 & (L1 & B1 & S1)). rewrite E1. cbn [bind].
    destruct (IH d1 (j + 8) Hbs' B1 ltac:(lia) ltac:(lia)) as (d & E & L & B & S). exists d. split; [exact E|]. split; [lia|]. split; [exact B|].
    intros k Hk. rewrite S, S1 by lia.
    destruct (Z.leb_spec (j + 8) k) as [C1|C1]; destruct (Z.ltb_spec k (j + 8 + 8 * Zlen bs)) as [C2|C2]; cbn [andb].
    + replace ((j <=? k) && (k <? j + 8 * (1 + Zlen bs))) with true by lia.
      change (b :: bs) with ([b] ++ bs). pose proof (bit_mid [b] bs [] (k - (j + 8)) ltac:(lia)) as BM. rewrite app_nil_r in BM.
      change (Zlen [b]) with 1 in BM. replace (8 * 1 + (k - (j + 8))) with (k - j) in BM by lia. symmetry. exact BM.
    + replace ((j <=? k) && (k <? j + 8)) with false by lia. replace ((j <=? k) && (k <? j + 8 * (1 + Zlen bs))) with false by lia. reflexivity.
    + destruct (Z.leb_spec j k) as [C3|C3]; cbn [andb]; [|reflexivity]. replace (k <? j + 8) with true by lia. replace (k <? j + 8 * (1 + Zlen bs)) with true by lia.
      unfold bit. replace (Z.to_nat ((k - j) / 8)) with 0%nat by lia. cbn [nth].
      replace (u32 b) with b by (unfold u32; symmetry; apply Z.mod_small; unfold byte_ok in Hb; change (2 ^ 32) with 4294967296; lia). f_equal. lia.
    + lia.
Qed.
Lemma bit_firstn (l : list Z) n k : 0 <= k < 8 * Z.of_nat n -> bit (firstn n l) k = bit l k.
Proof.
  intros H. unfold bit. f_equal. set (i := Z.to_nat (k / 8)). assert (Hi : (i < n)%nat) by (unfold i; lia). clearbody i. clear H.
  revert n i Hi. induction l as [|x l IH]; intros n i Hi; [rewrite firstn_nil; reflexivity|].
  destruct n; [lia|]. destruct i; [reflexivity|]. cbn [firstn nth]. apply IH. lia.
Qed.
Lemma nth_skipn (l : list Z) n i : nth i (skipn n l) 0 = nth (n + i) l 0.
Proof. revert l. induction n as [|n IH]; intros l; [reflexivity|]. destruct l as [|x l]; [destruct i; reflexivity|]. apply IH. Qed.
Lemma bit_skipn (l : list Z) n k : 0 <= k -> bit (skipn n l) k = bit l (8 * Z.of_nat n + k).
Proof. intros H. unfold bit. rewrite nth_skipn. f_equal; [f_equal; lia|lia]. Qed.

Lemma skip_get len dw pos : bytes_ok dw -> 1 <= len <= 56 -> 0 <= pos -> pos + len <= 128 ->
  getBit len (skipn 16 (swap_words 8 dw)) pos = Ok (sfield dw (128 + pos) (Z.to_nat len)).
Proof.
  intros HB Hl Hp HL. rewrite getBit_ok; [|apply bytes_ok_skipn; apply swap_bytes; assumption|lia|lia].
  unfold Zlen. rewrite skipn_length, swap_len. replace (pos + len <=? 8 * Z.of_nat (4 * 8 - 16)) with true by lia. f_equal.
  rewrite <- (field_sfield 8) by (assumption || lia). set (w := swap_words 8 dw). generalize (Z.to_nat len). intros n.
  induction n as [|n IH]; [reflexivity|]. cbn [field]. rewrite IH. rewrite bit_skipn by lia. do 2 f_equal. f_equal. lia.
Qed.

Lemma gal_crc_ok_spec dw : bytes_ok dw -> gal_crc_ok (swap_words 8 dw) = Ok (page_crc dw).
Proof.
  intros HB. unfold gal_crc_ok. pose proof (swap_bytes 8 dw HB) as SB. pose proof (swap_len 8 dw) as SL.
  assert (Z0 : bytes_ok (repeat 0 26)) by (apply Forall_forall; intros x Hx; apply repeat_spec in Hx; subst; unfold byte_ok; lia).
  destruct (gal_put_ok (firstn 15 (swap_words 8 dw)) (repeat 0 26) 4) as (c1 & E1 & L1 & B1 & S1).
  { apply bytes_ok_firstn; assumption. } { exact Z0. } { lia. } { unfold Zlen. rewrite firstn_length, SL, repeat_length. lia. }
  rewrite E1. cbn [bind].
  destruct (gal_put_ok (firstn 11 (skipn 16 (swap_words 8 dw))) c1 118) as (c2 & E2 & L2 & B2 & S2).
  { apply bytes_ok_firstn; apply bytes_ok_skipn; assumption. } { exact B1. } { lia. } { rewrite L1. unfold Zlen. rewrite firstn_length, skipn_length, SL, repeat_length. lia. }
  rewrite E2. cbn [bind].
  assert (LC : length c2 = 26%nat) by (unfold Zlen in *; rewrite repeat_length in L1; lia).
  assert (F25 : Zlen (firstn 25 c2) = 25) by (unfold Zlen; rewrite firstn_length, LC; reflexivity).
  destruct (crc24_spec (firstn 25 c2) (skipn 25 c2)) as (r & ER & (RR & RD)); [apply bytes_ok_firstn; assumption|].
  rewrite firstn_skipn, F25 in ER. rewrite ER. cbn [bind]. rewrite skip_get by (assumption || lia). cbn [bind]. f_equal.
  change (Z.to_nat 24) with 24%nat. change (128 + 82) with 210.
  (* the polynomial of the 25 bytes *)
  assert (PP : poly_of (firstn 25 c2) = sfield dw 0 114 * 2 ^ 82 + sfield dw 128 82).
  { apply (bits_eq 200); [lia| | |].
    - pose proof (be_range (firstn 25 c2) (bytes_ok_firstn _ _ B2)) as H. rewrite F25 in H. exact H.
    - pose proof (cat_range 82 114 (sfield dw 0 114) (sfield dw 128 82) ltac:(lia) ltac:(lia) (sfield_range dw 0 114) (sfield_range dw 128 82)) as H.
      split; [lia|]. eapply Z.lt_trans; [apply H|]. reflexivity.
    - intros j Hj. change (poly_of (firstn 25 c2)) with (be (firstn 25 c2)). rewrite be_bit by (try (apply bytes_ok_firstn; assumption); lia). rewrite F25.
      rewrite bit_firstn by lia. rewrite tb_cat by (try lia; apply (sfield_range dw 128 82)). rewrite S2 by lia.
      assert (L11 : Zlen (firstn 11 (skipn 16 (swap_words 8 dw))) = 11) by (unfold Zlen; rewrite firstn_length, skipn_length, SL; reflexivity). rewrite L11.
      assert (L15 : Zlen (firstn 15 (swap_words 8 dw)) = 15) by (unfold Zlen; rewrite firstn_length, SL; reflexivity).
      destruct (Z.ltb_spec j 82).
      + replace ((118 <=? 8 * 25 - 1 - j) && (8 * 25 - 1 - j <? 118 + 8 * 11)) with true by lia.
        rewrite bit_firstn by lia. rewrite bit_skipn by lia. rewrite swap_bit by (assumption || lia). rewrite sfield_bit by lia.
        replace (j <? Z.of_nat 82) with true by lia. cbn [andb]. f_equal. lia.
      + replace ((118 <=? 8 * 25 - 1 - j) && (8 * 25 - 1 - j <? 118 + 8 * 11)) with false by lia. rewrite S1 by lia. rewrite L15.
        rewrite sfield_bit by lia. destruct (Z.ltb_spec (j - 82) (Z.of_nat 114)); cbn [andb].
        * replace ((4 <=? 8 * 25 - 1 - j) && (8 * 25 - 1 - j <? 4 + 8 * 15)) with true by lia.
          rewrite bit_firstn by lia. rewrite swap_bit by (assumption || lia). f_equal. lia.
        * replace ((4 <=? 8 * 25 - 1 - j) && (8 * 25 - 1 - j <? 4 + 8 * 15)) with false by lia.
          unfold bit. replace (nth _ (repeat 0 26) 0) with 0 by (symmetry; apply nth_repeat). apply Z.bits_0. }
  rewrite PP in RD. apply mult_iff in RD. set (M := sfield dw 0 114 * 2 ^ 82 + sfield dw 128 82) in *.
  pose proof (sfield_range dw 210 24) as WR. change (Z.of_nat 24) with 24 in WR. set (w := sfield dw 210 24) in *.
  assert (HP : page_poly dw = M * 2 ^ 24 + w) by reflexivity.
  apply eq_true_iff_eq. unfold page_crc. rewrite prem_zero by apply page_range. rewrite HP, cat_lxor by (assumption || lia). rewrite Z.eqb_eq. split.
  - intros <-. exact RD.
  - intros HM. pose proof (mult_lxor _ _ RD HM) as HX. 
    replace (Z.lxor (Z.lxor (M * 2 ^ 24) r) (Z.lxor (M * 2 ^ 24) w)) with (Z.lxor r w) in HX.
    2:{ rewrite (Z.lxor_comm (M * 2 ^ 24) r), Z.lxor_assoc, <- (Z.lxor_assoc (M * 2 ^ 24)), Z.lxor_nilpotent, Z.lxor_0_l. reflexivity. }
    apply mult_small in HX; [|apply lxor_range; (assumption || lia)]. apply Z.lxor_eq. exact HX.
Qed.

(* ------------------------------------------------ the data word *)
Lemma gal_take_ok : forall n src j, bytes_ok src -> 0 <= j -> j + 8 * Z.of_nat n <= 8 * Zlen src ->
  exists l, gal_take n src j = Ok l /\ length l = n /\ bytes_ok l /\ forall k, 0 <= k < 8 * Z.of_nat n -> bit l k = bit src (j + k).
Proof.
  induction n as [|n IH]; intros src j HB Hj HL.
  - exists []. cbn [gal_take]. repeat split; auto; [constructor|]. intros k Hk. lia.
  - cbn [gal_take]. rewrite getBit_ok by (assumption || lia). replace (j + 8 <=? 8 * Zlen src) with true by lia. cbn [bind].
    destruct (IH src (j + 8) HB ltac:(lia) ltac:(lia)) as (l & E & L & B & S). rewrite E. cbn [bind].
    change (Z.to_nat 8) with 8%nat. pose proof (field_range src j 8) as FR.
    exists (field src j 8 :: l). split; [reflexivity|]. split; [cbn [length]; lia|]. split; [constructor; assumption|].
    intros k Hk. destruct (Z.lt_ge_cases k 8) as [C|C].
    + unfold bit at 1. replace (Z.to_nat (k / 8)) with 0%nat by lia. cbn [nth]. rewrite field_bit by lia.
      replace (7 - k mod 8 <? Z.of_nat 8) with true by lia. cbn [andb]. f_equal. lia.
    + pose proof (bit_mid [field src j 8] l [] (k - 8)) as BM. rewrite app_nil_r in BM. change (Zlen [field src j 8]) with 1 in BM.
      replace (8 * 1 + (k - 8)) with k in BM by lia. change ([field src j 8] ++ l) with (field src j 8 :: l) in BM. rewrite BM by (unfold Zlen; lia).
      rewrite S by lia. f_equal. lia.
Qed.
Lemma take_word dw : bytes_ok dw -> exists w1 w2, gal_take 14 (swap_words 8 dw) 2 = Ok w1 /\ gal_take 2 (skipn 16 (swap_words 8 dw)) 2 = Ok w2 /\
  length (w1 ++ w2) = 16%nat /\ bytes_ok (w1 ++ w2) /\ poly_of (w1 ++ w2) = inav dw.
Proof.
  intros HB. pose proof (swap_bytes 8 dw HB) as SB. pose proof (swap_len 8 dw) as SL.
  destruct (gal_take_ok 14 (swap_words 8 dw) 2 SB) as (w1 & E1 & L1 & B1 & S1); [lia|unfold Zlen; rewrite SL; lia|].
  destruct (gal_take_ok 2 (skipn 16 (swap_words 8 dw)) 2) as (w2 & E2 & L2 & B2 & S2); [apply bytes_ok_skipn; exact SB|lia|unfold Zlen; rewrite skipn_length, SL; lia|].
  exists w1, w2. split; [exact E1|]. split; [exact E2|]. split; [rewrite app_length; lia|]. split; [apply bytes_ok_app; auto|].
  assert (BA : bytes_ok (w1 ++ w2)) by (apply bytes_ok_app; auto). assert (LA : Zlen (w1 ++ w2) = 16) by (unfold Zlen; rewrite app_length; lia).
  apply (bits_eq 128); [lia| | |].
  - pose proof (be_range _ BA) as H. rewrite LA in H. exact H.
  - unfold inav. change 128 with (Z.of_nat 112 + 16). apply cat_range; [lia|lia|apply sfield_range|apply (sfield_range dw 130 16)].
  - intros j Hj. change (poly_of (w1 ++ w2)) with (be (w1 ++ w2)). rewrite be_bit by (assumption || lia). rewrite LA. unfold inav.
    rewrite tb_cat by (try lia; apply (sfield_range dw 130 16)). destruct (Z.ltb_spec j 16).
    + rewrite sfield_bit by lia. replace (j <? Z.of_nat 16) with true by lia. cbn [andb].
      pose proof (bit_mid w1 w2 [] (15 - j)) as BM. rewrite app_nil_r in BM. unfold Zlen in BM. rewrite L1, L2 in BM.
      replace (8 * Z.of_nat 14 + (15 - j)) with (8 * 16 - 1 - j) in BM by lia. rewrite BM by lia. rewrite S2 by lia. rewrite bit_skipn by lia.
      rewrite swap_bit by (assumption || lia). f_equal. lia.
    + rewrite sfield_bit by lia. replace (j - 16 <? Z.of_nat 112) with true by lia. cbn [andb].
      pose proof (bit_mid [] w1 w2 (8 * 16 - 1 - j)) as BM. change (Zlen []) with 0 in BM. replace (8 * 0 + (8 * 16 - 1 - j)) with (8 * 16 - 1 - j) in BM by lia.
      change ([] ++ w1 ++ w2) with (w1 ++ w2) in BM. rewrite BM by (unfold Zlen; lia). rewrite S1 by lia. rewrite swap_bit by (assumption || lia). f_equal. lia.
Qed.

(* fields of words and of rows *)
Lemma wfield_bit w pos len j : 0 <= pos -> 0 <= len -> pos + len <= 128 -> 0 <= j ->
  Z.testbit (wfield w pos len) j = (j <? len) && Z.testbit w (127 - (pos + len - 1 - j)).
Proof.
  intros Hp Hl HL Hj. unfold wfield. destruct (Z.ltb_spec j len); cbn [andb].
  - rewrite Z.mod_pow2_bits_low by lia. rewrite Z.div_pow2_bits by lia. f_equal. lia.
  - apply Z.mod_pow2_bits_high. lia.
Qed.
Lemma wfield_range w pos len : 0 <= len -> 0 <= wfield w pos len < 2 ^ len.
Proof. intros H. unfold wfield. apply Z.mod_pos_bound. apply Z.pow_pos_nonneg; lia. Qed.
Lemma inav_bit dw k : 0 <= k < 128 -> Z.testbit (inav dw) (127 - k) = if k <? 112 then sbit dw (2 + k) else sbit dw (18 + k).
Proof.
  intros Hk. unfold inav. rewrite tb_cat by (try lia; apply (sfield_range dw 130 16)).
  destruct (Z.ltb_spec k 112).
  - replace (127 - k <? 16) with false by lia. rewrite sfield_bit by lia. replace (127 - k - 16 <? Z.of_nat 112) with true by lia. cbn [andb]. f_equal. lia.
  - replace (127 - k <? 16) with true by lia. rewrite sfield_bit by lia. replace (127 - k <? Z.of_nat 16) with true by lia. cbn [andb]. f_equal. lia.
Qed.
Lemma wtype_sfield dw : wtype (inav dw) = sfield dw 2 6.
Proof.
  apply (bits_eq 6); [lia|apply wfield_range; lia|apply (sfield_range dw 2 6)|]. intros j Hj. unfold wtype. rewrite wfield_bit by lia.
  rewrite sfield_bit by lia. replace (j <? 6) with true by lia. replace (j <? Z.of_nat 6) with true by lia. cbn [andb].
  rewrite inav_bit by lia. replace (0 + 6 - 1 - j <? 112) with true by lia. f_equal. lia.
Qed.
Lemma row_field row k pos len : bytes_ok row -> (112 <= length row)%nat -> 0 <= k <= 6 -> 0 <= pos -> 0 <= len -> pos + len <= 128 ->
  field row (128 * k + pos) (Z.to_nat len) = wfield (row_word row k) pos len.
Proof.
  intros HB HL Hk Hp Hl HLE. symmetry. apply field_unique; rewrite Z2Nat.id by lia; [apply wfield_range; lia|].
  intros j Hj. rewrite wfield_bit by lia. replace (j <? len) with true by lia. cbn [andb]. unfold row_word.
  set (sl := firstn 16 (skipn (Z.to_nat (16 * k)) row)).
  assert (BS : bytes_ok sl) by (apply bytes_ok_firstn; apply bytes_ok_skipn; assumption).
  assert (LS : Zlen sl = 16) by (unfold Zlen, sl; rewrite firstn_length, skipn_length; lia).
  change (poly_of sl) with (be sl). rewrite be_bit by (assumption || lia). rewrite LS. unfold sl. rewrite bit_firstn by lia. rewrite bit_skipn by lia. f_equal. lia.
Qed.
Lemma row_bit row k pos : bytes_ok row -> (112 <= length row)%nat -> 0 <= k <= 6 -> 0 <= pos < 128 ->
  bit row (128 * k + pos) = (wfield (row_word row k) pos 1 =? 1).
Proof.
  intros HB HL Hk Hp. rewrite <- row_field by (assumption || lia). change (Z.to_nat 1) with 1%nat. cbn [field]. rewrite Z.mul_0_r, Z.add_0_l.
  replace (128 * k + pos + Z.of_nat 0) with (128 * k + pos) by lia. destruct (bit row (128 * k + pos)); reflexivity.
Qed.
Lemma row_get row k pos len : bytes_ok row -> (112 <= length row)%nat -> 0 <= k <= 6 -> 0 <= pos -> 1 <= len <= 32 -> pos + len <= 128 ->
  getBitRt row (128 * k + pos) len = Ok (wfield (row_word row k) pos len).
Proof.
  intros HB HL Hk Hp Hl HLE. rewrite getBitRt_ok by (assumption || lia). replace (128 * k + pos + len <=? 8 * Zlen row) with true by (unfold Zlen; lia).
  f_equal. apply row_field; (assumption || lia).
Qed.
Lemma row_getS row k pos len : bytes_ok row -> (112 <= length row)%nat -> 0 <= k <= 6 -> 0 <= pos -> 1 <= len <= 32 -> pos + len <= 128 ->
  getBitRtS row (128 * k + pos) len = Ok (wfieldS (row_word row k) pos len).
Proof.
  intros HB HL Hk Hp Hl HLE. rewrite getBitRtS_ok by (assumption || lia). replace (128 * k + pos + len <=? 8 * Zlen row) with true by (unfold Zlen; lia).
  f_equal. unfold field_signed, wfieldS. rewrite row_field, row_bit by (assumption || lia). rewrite Z2Nat.id by lia. reflexivity.
Qed.
