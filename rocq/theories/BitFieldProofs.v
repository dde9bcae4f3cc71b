(* Proofs about BitField. *)
From Verif Require Import Base ZBits BitSpec BitModel BitProofs BitField.

(* ---- specification: least-significant-first bits (memory of a little-endian machine) *)
Definition lbit (mem : list Z) (k : Z) : bool := Z.testbit (nth (Z.to_nat (k / 8)) mem 0) (k mod 8).
Fixpoint lfield (mem : list Z) (pos : Z) (n : nat) : Z :=
  match n with O => 0 | S n => lfield mem pos n + Z.b2z (lbit mem (pos + Z.of_nat n)) * 2 ^ Z.of_nat n end.
(* bytes touched by the field *)
Definition spans (first size : Z) : Z := (first + size - 1) / 8 - first / 8 + 1.

Lemma mask_narrow size : size <> 64 -> bf_mask size = Z.shiftl 1 size - 1.
Proof. intros H. unfold bf_mask. replace (size =? 64) with false by lia. reflexivity. Qed.
Lemma u32_uw x : u32 x = uw 32 x. Proof. reflexivity. Qed.
Lemma bf_sw_gb fuel : forall mem size i p ret, bf_sw fuel mem size i p ret = gb_loop fuel 32 mem size i p ret.
Proof.
  induction fuel as [|f IH]; intros; cbn [bf_sw gb_loop]; [reflexivity|].
  destruct (i <? size); [|reflexivity]. destruct (aget mem (p + 1)); cbn [bind]; [apply IH|reflexivity].
Qed.
Lemma read_switch_raw first size mem : size <> 64 -> bf_read SwitchByteOrder first size mem = get_raw 32 mem first size.
Proof. intros H. unfold bf_read, get_raw. rewrite mask_narrow by assumption. destruct (aget mem (first / 8)); cbn [bind]; [rewrite bf_sw_gb|]; reflexivity. Qed.
Lemma bf_wr_sb fuel : forall mem size i p m w, bf_wr fuel mem size i p m w = sb_loop fuel mem size i p m w.
Proof.
  induction fuel as [|f IH]; intros; cbn [bf_wr sb_loop]; [reflexivity|].
  destruct (i <? size); [|reflexivity]. destruct (aget mem (p - 1)); cbn [bind]; [|reflexivity].
  destruct (aset mem (p - 1) _); cbn [bind]; [apply IH|reflexivity].
Qed.
Lemma mask_small size : 1 <= size <= 32 -> uw 32 (Z.shiftl 1 size - 1) = bf_mask size.
Proof.
  intros H. unfold uw. rewrite mask_narrow by lia. rewrite Z.shiftl_1_l. apply Z.mod_small.
  assert (2 ^ size <= 2 ^ 32) by (apply Z.pow_le_mono_r; lia). assert (0 < 2 ^ size) by (apply Z.pow_pos_nonneg; lia). lia.
Qed.
Lemma land_mask_small x size : 1 <= size <= 32 -> u32 (Z.land (u32 x) (bf_mask size)) = Z.land (u32 x) (bf_mask size).
Proof.
  intros H. unfold u32. apply Z.mod_small. rewrite mask_narrow by lia. rewrite Z.shiftl_1_l.
  replace (2 ^ size - 1) with (Z.ones size) by (rewrite Z.ones_equiv; lia). rewrite Z.land_ones by lia.
  pose proof (Z.mod_pos_bound (x mod 2 ^ 32) (2 ^ size)).
  assert (2 ^ size <= 2 ^ 32) by (apply Z.pow_le_mono_r; lia). assert (0 < 2 ^ size) by (apply Z.pow_pos_nonneg; lia). lia.
Qed.
Lemma write_raw first size m mem : 1 <= size <= 32 -> (size = 32 \/ spans first size <= 4) ->
  bf_write first size m mem = set_raw 32 mem first (u32 m) size.
Proof.
  intros Hs Hc. unfold bf_write, set_raw, bf_last.
  replace ((size <=? 31) && (2 ^ 32 <=? Z.shiftl (bf_mask size) (7 - Z.land (first + size - 1) 7))) with false.
  2:{ symmetry. destruct (Z.leb_spec size 31) as [H31|H31]; [|reflexivity]. cbn [andb]. apply Z.leb_gt.
      destruct Hc as [Hc|Hc]; [lia|]. unfold spans in Hc. rewrite land_7. rewrite Z.shiftl_mul_pow2 by lia.
      assert (2 ^ size * 2 ^ (7 - (first + size - 1) mod 8) <= 2 ^ 32).
      { rewrite <- Z.pow_add_r by lia. apply Z.pow_le_mono_r; lia. }
      assert (0 < 2 ^ (7 - (first + size - 1) mod 8)) by (apply Z.pow_pos_nonneg; lia).
      rewrite mask_narrow by lia. rewrite Z.shiftl_1_l. nia. }
  replace ((33 <=? size) && (size <=? 63) && _) with false by (replace (33 <=? size) with false by lia; reflexivity).
  cbv zeta. rewrite mask_small by assumption. change (uw 32) with u32. rewrite land_mask_small by assumption.
  destruct (aget mem ((first + size - 1) / 8)); cbn [bind]; [|reflexivity].
  destruct (aset mem _ _); cbn [bind]; [apply bf_wr_sb|reflexivity].
Qed.

(* ---- reading *)
Lemma read_switch_ok first size mem : bytes_ok mem -> 0 <= first -> 1 <= size <= 32 -> spans first size <= 4 ->
  bf_read SwitchByteOrder first size mem = if first + size <=? 8 * Zlen mem then Ok (field mem first (Z.to_nat size)) else UB UB_oob_read.
Proof.
  intros Hb Hf Hs Hc. rewrite read_switch_raw by lia. unfold spans in Hc. destruct (Z.leb_spec (first + size) (8 * Zlen mem)).
  - apply get_raw_ok; try assumption; lia.
  - apply get_raw_over; lia.
Qed.

(* the accumulator of width 32 holds the low 32 bits of a wider one *)
Lemma acc_step t b : byte_ok b -> 0 <= t -> Z.lor (u32 (Z.shiftl (u32 t) 8)) b = u32 (Z.lor (uw 72 (Z.shiftl t 8)) b).
Proof.
  intros Hb Ht. unfold u32, uw. apply Z.bits_inj'. intros j Hj. rewrite Z.lor_spec.
  destruct (Z.ltb_spec j 32) as [H|H].
  - rewrite !Z.mod_pow2_bits_low by lia. rewrite Z.lor_spec. rewrite Z.mod_pow2_bits_low by lia. f_equal.
    rewrite !Z.shiftl_spec by lia. destruct (Z.ltb_spec j 8) as [H2|H2].
    + rewrite !Z.testbit_neg_r by lia. reflexivity.
    + rewrite Z.mod_pow2_bits_low by lia. reflexivity.
  - rewrite !Z.mod_pow2_bits_high by lia. cbn [orb]. apply testbit_byte; [assumption|lia].
Qed.
Lemma aget_byte mem p b : bytes_ok mem -> aget mem p = Ok b -> byte_ok b.
Proof.
  unfold aget. intros Hm H. destruct ((0 <=? p) && (p <? Zlen mem)) eqn:E; [|discriminate]. injection H as <-.
  unfold bytes_ok in Hm. rewrite Forall_forall in Hm. apply Hm. apply nth_In. unfold Zlen in E. lia.
Qed.
Lemma gb_low mem size : bytes_ok mem -> forall fuel i p t, 0 <= t ->
  gb_loop fuel 32 mem size i p (u32 t) = let* x := gb_loop fuel 72 mem size i p t in Ok (u32 x).
Proof.
  intros Hm. induction fuel as [|f IH]; intros i p t Ht; cbn [gb_loop bind]; [reflexivity|].
  destruct (i <? size); [|reflexivity]. destruct (aget mem (p + 1)) as [b|] eqn:E; cbn [bind]; [|reflexivity].
  pose proof (aget_byte _ _ _ Hm E) as Hb. change (uw 32) with u32. rewrite acc_step by assumption. apply IH.
  apply Z.lor_nonneg. split; [apply Z.mod_pos_bound; lia|apply Hb].
Qed.
Lemma mask_bit size j : 1 <= size <= 64 -> 0 <= j -> Z.testbit (bf_mask size) j = (j <? if size =? 64 then 32 else size).
Proof.
  intros Hs Hj. unfold bf_mask. destruct (Z.eqb_spec size 64) as [E|E].
  - change 0xFFFFFFFF with (Z.ones 32). apply Z.testbit_ones_nonneg; lia.
  - rewrite Z.shiftl_1_l. replace (2 ^ size - 1) with (Z.ones size) by (rewrite Z.ones_equiv; lia). apply Z.testbit_ones_nonneg; lia.
Qed.
Lemma read_switch_five first size mem : bytes_ok mem -> 0 <= first -> 1 <= size <= 64 -> 5 <= spans first size ->
  bf_read SwitchByteOrder first size mem =
    if first + size <=? 8 * Zlen mem then Ok (field mem first (Z.to_nat size) mod 2 ^ (25 + (first + size - 1) mod 8)) else UB UB_oob_read.
Proof.
  intros Hb Hf Hs Hc. unfold spans in Hc. destruct (Z.leb_spec (first + size) (8 * Zlen mem)) as [Hin|Hin].
  2:{ pose proof (get_raw_over 32 mem first size Hf ltac:(lia) Hin) as HG. unfold get_raw in HG. unfold bf_read.
      destruct (aget mem (first / 8)) as [b|]; cbn [bind] in *; [|congruence]. rewrite bf_sw_gb.
      destruct (gb_loop _ _ _ _ _ _ _) as [x|]; cbn [bind] in *; [discriminate HG|congruence]. }
  pose proof (get_raw_ok 72 mem first size Hb Hf ltac:(lia) Hin ltac:(lia)) as HG.
  unfold get_raw in HG. unfold bf_read, bf_last. destruct (aget mem (first / 8)) as [b|] eqn:E; cbn [bind] in *; [|discriminate].
  pose proof (aget_byte _ _ _ Hb E) as Hbb. rewrite bf_sw_gb.
  replace b with (u32 b) at 1 by (apply Z.mod_small; unfold byte_ok in Hbb; lia).
  rewrite gb_low by (try assumption; apply Hbb).
  destruct (gb_loop (Z.to_nat size) 72 mem size (8 - Z.land first 7) (first / 8) b) as [x|]; cbn [bind] in *; [|discriminate].
  assert (HG' : Z.land (Z.shiftr x (7 - Z.land (first + size - 1) 7)) (Z.shiftl 1 size - 1) = field mem first (Z.to_nat size)) by congruence.
  rewrite <- HG'. f_equal. rewrite !land_7. unfold u32. apply Z.bits_inj'. intros j Hj. rewrite Z.shiftl_1_l.
  replace (2 ^ size - 1) with (Z.ones size) by (rewrite Z.ones_equiv; lia).
  rewrite Z.land_spec, Z.shiftr_spec, mask_bit by lia.
  destruct (Z.ltb_spec (j + (7 - (first + size - 1) mod 8)) 32) as [H|H].
  - rewrite !Z.mod_pow2_bits_low by lia. rewrite Z.land_spec, Z.shiftr_spec by lia. f_equal. rewrite Z.testbit_ones_nonneg by lia.
    destruct (Z.eqb_spec size 64); lia.
  - rewrite !Z.mod_pow2_bits_high by lia. reflexivity.
Qed.

(* ---- reading in the machine's own byte order *)
Lemma lbit_nth mem p q : 0 <= p -> 0 <= q < 8 -> lbit mem (8 * p + q) = Z.testbit (nth (Z.to_nat p) mem 0) q.
Proof. intros Hp Hq. unfold lbit. f_equal; [f_equal; f_equal; lia|lia]. Qed.
Lemma kp_loop mem size p0 : bytes_ok mem -> 0 <= p0 -> 1 <= size <= 64 ->
  forall fuel t ret, 0 <= t -> 8 * (t - 1) < size -> size - 8 * t <= Z.of_nat fuel -> p0 + t < Zlen mem ->
  (forall q, 0 <= q -> Z.testbit ret q = (q <? 8 * (t + 1)) && lbit mem (8 * p0 + q)) -> 
  (if size <=? 24 then
     if p0 + (size + 7) / 8 <? Zlen mem then
       exists r, bf_kp fuel mem size (8 * t) (p0 + t) ret = Ok r /\
         (forall q, 0 <= q -> Z.testbit r q = (q <? 8 * ((size + 7) / 8 + 1)) && lbit mem (8 * p0 + q))
     else bf_kp fuel mem size (8 * t) (p0 + t) ret = UB UB_oob_read
   else t <= 3 -> bf_kp fuel mem size (8 * t) (p0 + t) ret = UB (if p0 + 4 <? Zlen mem then UB_overflow else UB_oob_read)).
Proof.
  intros Hm Hp Hs. induction fuel as [|f IH]; intros t ret Ht Ht1 Hf Hin HQ.
  - assert (t = (size + 7) / 8) by lia. destruct (Z.leb_spec size 24); [|lia].
    replace (p0 + (size + 7) / 8 <? Zlen mem) with true by lia. exists ret. split; [reflexivity|]. subst t. exact HQ.
  - cbn [bf_kp]. destruct (Z.ltb_spec (8 * t) size) as [H|H].
    2:{ assert (t = (size + 7) / 8) by lia. destruct (Z.leb_spec size 24); [|lia].
        replace (p0 + (size + 7) / 8 <? Zlen mem) with true by lia. exists ret. split; [reflexivity|]. subst t. exact HQ. }
    replace (p0 + t + 1) with (p0 + (t + 1)) by lia. replace (8 * t + 8) with (8 * (t + 1)) by lia.
    destruct (Z.ltb_spec (p0 + (t + 1)) (Zlen mem)) as [H2|H2].
    + rewrite aget_in' by lia. cbn [bind]. destruct (Z.ltb_spec (8 * (t + 1)) 32) as [H3|H3].
      * remember (nth (Z.to_nat (p0 + (t + 1))) mem 0) as b eqn:Hb.
        assert (HQ' : forall q, 0 <= q -> Z.testbit (Z.lor ret (u32 (Z.shiftl b (8 * (t + 1))))) q = (q <? 8 * (t + 1 + 1)) && lbit mem (8 * p0 + q)).
        { intros q Hq. rewrite Z.lor_spec, HQ by lia.
          assert (Hbb : byte_ok b) by (apply (aget_byte mem (p0 + (t + 1))); [assumption|rewrite aget_in' by lia; congruence]).
          destruct (Z.ltb_spec q (8 * (t + 1))) as [H4|H4].
          - replace (q <? 8 * (t + 1 + 1)) with true by lia. cbn [andb]. unfold u32.
            rewrite Z.mod_pow2_bits_low, Z.shiftl_spec, Z.testbit_neg_r by lia. apply orb_false_r.
          - cbn [andb orb]. unfold u32. destruct (Z.ltb_spec q 32) as [H5|H5].
            + rewrite Z.mod_pow2_bits_low, Z.shiftl_spec by lia.
              destruct (Z.ltb_spec q (8 * (t + 1 + 1))) as [H6|H6]; cbn [andb].
              * replace (8 * p0 + q) with (8 * (p0 + (t + 1)) + (q - 8 * (t + 1))) by lia. rewrite lbit_nth by lia. rewrite <- Hb. reflexivity.
              * apply testbit_byte; [assumption|lia].
            + rewrite Z.mod_pow2_bits_high by lia. replace (q <? 8 * (t + 1 + 1)) with false by lia. reflexivity. }
        specialize (IH (t + 1) _ ltac:(lia) ltac:(lia) ltac:(lia) H2 HQ').
        destruct (size <=? 24) eqn:E24; [exact IH|]. intros Ht3. apply IH. lia.
      * destruct (Z.leb_spec size 24); [lia|]. intros Ht3. replace (p0 + 4 <? Zlen mem) with true by lia. reflexivity.
    + unfold aget. replace ((0 <=? p0 + (t + 1)) && (p0 + (t + 1) <? Zlen mem)) with false by lia. cbn [bind].
      destruct (Z.leb_spec size 24).
      * replace (p0 + (size + 7) / 8 <? Zlen mem) with false by lia. reflexivity.
      * intros Ht3. replace (p0 + 4 <? Zlen mem) with false by lia. reflexivity.
Qed.
Lemma lfield_range mem pos n : 0 <= lfield mem pos n < 2 ^ Z.of_nat n.
Proof.
  induction n as [|n IH]; [cbn; lia|]. cbn [lfield]. rewrite Nat2Z.inj_succ, Z.pow_succ_r by lia.
  destruct (lbit mem (pos + Z.of_nat n)); cbn [Z.b2z]; lia.
Qed.
Lemma lfield_bit mem pos n : forall j, 0 <= j -> Z.testbit (lfield mem pos n) j = (j <? Z.of_nat n) && lbit mem (pos + j).
Proof.
  induction n as [|n IH]; intros j Hj.
  - cbn [lfield]. rewrite Z.bits_0. replace (j <? Z.of_nat 0) with false by lia. reflexivity.
  - cbn [lfield]. pose proof (lfield_range mem pos n) as Hr.
    replace (lfield mem pos n + Z.b2z (lbit mem (pos + Z.of_nat n)) * 2 ^ Z.of_nat n)
      with (Z.lor (lfield mem pos n) (Z.shiftl (Z.b2z (lbit mem (pos + Z.of_nat n))) (Z.of_nat n))) by (apply lor_low_shiftl; lia).
    rewrite Z.lor_spec, IH by lia. destruct (Z.ltb_spec j (Z.of_nat n)) as [H|H].
    + rewrite Z.shiftl_spec, Z.testbit_neg_r by lia. replace (j <? Z.of_nat (S n)) with true by lia. apply orb_false_r.
    + cbn [andb orb]. rewrite Z.shiftl_spec by lia. destruct (Z.eq_dec j (Z.of_nat n)) as [->|Hne].
      * rewrite Z.sub_diag. replace (Z.of_nat n <? Z.of_nat (S n)) with true by lia. rewrite Z.b2z_bit0. reflexivity.
      * replace (j <? Z.of_nat (S n)) with false by lia. cbn [andb]. destruct (lbit mem (pos + Z.of_nat n)); cbn [Z.b2z]; [|apply Z.bits_0].
        rewrite Z.bits_above_log2; [reflexivity|lia|cbn; lia].
Qed.
Lemma read_keep_ok first size mem : bytes_ok mem -> 0 <= first -> 1 <= size <= 24 ->
  bf_read KeepByteOrder first size mem =
    if first / 8 + (size + 7) / 8 <? Zlen mem then Ok (lfield mem first (Z.to_nat size)) else UB UB_oob_read.
Proof.
  intros Hm Hf Hs. unfold bf_read. destruct (Z.ltb_spec (first / 8) (Zlen mem)) as [H|H].
  2:{ unfold aget. replace ((0 <=? first / 8) && (first / 8 <? Zlen mem)) with false by lia. cbn [bind].
      replace (first / 8 + (size + 7) / 8 <? Zlen mem) with false by lia. reflexivity. }
  rewrite aget_in' by lia. cbn [bind]. remember (nth (Z.to_nat (first / 8)) mem 0) as b eqn:Hb.
  pose proof (kp_loop mem size (first / 8) Hm ltac:(lia) ltac:(lia) (Z.to_nat size) 0 b ltac:(lia) ltac:(lia) ltac:(lia) ltac:(lia)) as HK.
  change (8 * 0) with 0 in HK. rewrite Z.add_0_r in HK. replace (size <=? 24) with true in HK by lia.
  assert (HQ : forall q, 0 <= q -> Z.testbit b q = (q <? 8 * (0 + 1)) && lbit mem (8 * (first / 8) + q)).
  { intros q Hq. destruct (Z.ltb_spec q (8 * (0 + 1))); cbn [andb].
    - rewrite lbit_nth by lia. congruence.
    - apply testbit_byte; [|lia]. apply (aget_byte mem (first / 8)); [assumption|]. rewrite aget_in' by lia. congruence. }
  specialize (HK HQ). destruct (Z.ltb_spec (first / 8 + (size + 7) / 8) (Zlen mem)) as [H2|H2].
  - destruct HK as (r & E & Hr). rewrite E. cbn [bind]. f_equal. rewrite mask_narrow by lia. rewrite Z.shiftl_1_l.
    replace (2 ^ size - 1) with (Z.ones size) by (rewrite Z.ones_equiv; lia). rewrite Z.land_ones by lia.
    apply Z.bits_inj'. intros j Hj. rewrite lfield_bit by lia. rewrite Z2Nat.id by lia.
    destruct (Z.ltb_spec j size) as [H3|H3]; cbn [andb].
    + rewrite Z.mod_pow2_bits_low, Z.shiftr_spec by lia. rewrite Hr by lia.
      replace (j + first mod 8 <? 8 * ((size + 7) / 8 + 1)) with true by lia. cbn [andb]. f_equal. lia.
    + apply Z.mod_pow2_bits_high. lia.
  - rewrite HK. reflexivity.
Qed.
Lemma read_keep_wide first size mem : bytes_ok mem -> 0 <= first -> 25 <= size <= 64 ->
  exists k, bf_read KeepByteOrder first size mem = UB k.
Proof.
  intros Hm Hf Hs. unfold bf_read. destruct (Z.ltb_spec (first / 8) (Zlen mem)) as [H|H].
  2:{ unfold aget. replace ((0 <=? first / 8) && (first / 8 <? Zlen mem)) with false by lia. eexists; reflexivity. }
  rewrite aget_in' by lia. cbn [bind]. remember (nth (Z.to_nat (first / 8)) mem 0) as b eqn:Hb.
  pose proof (kp_loop mem size (first / 8) Hm ltac:(lia) ltac:(lia) (Z.to_nat size) 0 b ltac:(lia) ltac:(lia) ltac:(lia) ltac:(lia)) as HK.
  change (8 * 0) with 0 in HK. rewrite Z.add_0_r in HK. replace (size <=? 24) with false in HK by lia.
  rewrite HK; [eexists; reflexivity| |lia].
  intros q Hq. destruct (Z.ltb_spec q (8 * (0 + 1))); cbn [andb].
  - rewrite lbit_nth by lia. congruence.
  - apply testbit_byte; [|lia]. apply (aget_byte mem (first / 8)); [assumption|]. rewrite aget_in' by lia. congruence.
Qed.

(* ---- assignment *)
Lemma u32_idem x : u32 (u32 x) = u32 x.
Proof. unfold u32. apply Z.mod_mod. lia. Qed.
Lemma write_ok first size m mem : bytes_ok mem -> 0 <= first -> 1 <= size <= 32 -> spans first size <= 4 -> first + size <= 8 * Zlen mem ->
  exists mem', bf_write first size m mem = Ok mem' /\ set_bits_spec mem mem' first size (u32 m).
Proof.
  intros Hb Hf Hs Hc Hin. rewrite write_raw by (try assumption; right; assumption). apply set_raw_ok; try assumption; try lia.
  unfold spans in Hc. lia.
Qed.
Lemma write_five_narrow first size m mem : 0 <= first -> 1 <= size <= 31 -> spans first size = 5 -> bf_write first size m mem = UB UB_overflow.
Proof.
  intros Hf Hs Hc. unfold bf_write, bf_last. unfold spans in Hc. rewrite land_7.
  replace ((size <=? 31) && (2 ^ 32 <=? Z.shiftl (bf_mask size) (7 - (first + size - 1) mod 8))) with true; [reflexivity|].
  symmetry. apply andb_true_intro. split; [lia|]. apply Z.leb_le. rewrite Z.shiftl_mul_pow2 by lia. rewrite mask_narrow by lia. rewrite Z.shiftl_1_l.
  assert (2 ^ 33 <= 2 ^ size * 2 ^ (7 - (first + size - 1) mod 8)). { rewrite <- Z.pow_add_r by lia. apply Z.pow_le_mono_r; lia. }
  assert (2 ^ (7 - (first + size - 1) mod 8) <= 2 ^ 7) by (apply Z.pow_le_mono_r; lia). lia.
Qed.
Lemma aset_nth mem q v mem' : aset mem q v = Ok mem' -> nth (Z.to_nat q) mem' 0 = v /\ Zlen mem' = Zlen mem.
Proof.
  intros H. split; [|unfold Zlen; rewrite (aset_ok_length _ _ _ _ H); reflexivity].
  unfold aset in H. destruct ((0 <=? q) && (q <? Zlen mem)) eqn:E; [|discriminate].
  assert (mem' = firstn (Z.to_nat q) mem ++ v :: skipn (S (Z.to_nat q)) mem) by congruence. subst mem'.
  assert (length (firstn (Z.to_nat q) mem) = Z.to_nat q). { rewrite firstn_length. unfold Zlen in E. lia. }
  rewrite app_nth2 by lia. rewrite H0, Nat.sub_diag. reflexivity.
Qed.
Lemma write_five_wide first m mem : bytes_ok mem -> 0 <= first -> first mod 8 <> 0 -> first + 32 <= 8 * Zlen mem ->
  exists mem', bf_write first 32 m mem = Ok mem' /\ nth (Z.to_nat (first / 8)) mem' 0 = 0.
Proof.
  intros Hb Hf Hc Hin. unfold bf_write, bf_last. cbn [Z.leb andb]. change (32 <=? 31) with false. change (33 <=? 32) with false. cbn [andb]. cbv zeta.
  rewrite !land_7. replace (first + 32 - 1) with (first + 31) by lia.
  remember (u32 (Z.shiftl (Z.land (u32 m) (bf_mask 32)) (7 - (first + 31) mod 8))) as M eqn:HM.
  remember (u32 (Z.lnot (Z.shiftl (bf_mask 32) (7 - (first + 31) mod 8)))) as W eqn:HW.
  assert (HMr : 0 <= M < 2 ^ 32) by (subst M; apply Z.mod_pos_bound; lia).
  assert (HWr : 0 <= W < 2 ^ 32) by (subst W; apply Z.mod_pos_bound; lia). clear HM HW.
  replace (first / 8) with ((first + 31) / 8 - 4) by lia. remember ((first + 31) / 8) as p eqn:Hp.
  assert (Hi : 0 <= (first + 31) mod 8 < 7) by lia. remember ((first + 31) mod 8) as i eqn:Ei.
  assert (Hpr : 4 <= p < Zlen mem) by lia. clear Hp Ei Hin.
  rewrite aget_in' by lia. cbn [bind].
  destruct (aset_in mem p (u8 (Z.lor (u8 (Z.land (nth (Z.to_nat p) mem 0) W)) M))) as [m1 E1]; [lia|]. rewrite E1. cbn [bind].
  apply aset_nth in E1. destruct E1 as [_ E1].
  change (Z.to_nat 32) with (S (S (S (S (S 27))))). cbn [bf_wr].
  replace (i + 1 <? 32) with true by lia. rewrite aget_in' by lia. cbn [bind].
  match goal with |- context [aset m1 ?q ?v] => destruct (aset_in m1 q v) as [m2 E2]; [lia|] end. rewrite E2. cbn [bind]. apply aset_nth in E2. destruct E2 as [_ E2].
  replace (i + 1 + 8 <? 32) with true by lia. rewrite aget_in' by lia. cbn [bind].
  match goal with |- context [aset m2 ?q ?v] => destruct (aset_in m2 q v) as [m3 E3]; [lia|] end. rewrite E3. cbn [bind]. apply aset_nth in E3. destruct E3 as [_ E3].
  replace (i + 1 + 8 + 8 <? 32) with true by lia. rewrite aget_in' by lia. cbn [bind].
  match goal with |- context [aset m3 ?q ?v] => destruct (aset_in m3 q v) as [m4 E4]; [lia|] end. rewrite E4. cbn [bind]. apply aset_nth in E4. destruct E4 as [_ E4].
  replace (i + 1 + 8 + 8 + 8 <? 32) with true by lia. rewrite aget_in' by lia. cbn [bind].
  assert (HM4 : Z.shiftr (Z.shiftr (Z.shiftr (Z.shiftr M 8) 8) 8) 8 = 0)
    by (rewrite !Z.shiftr_shiftr by lia; rewrite Z.shiftr_div_pow2, Z.div_small by lia; reflexivity).
  assert (HW4 : Z.shiftr (Z.shiftr (Z.shiftr (Z.shiftr W 8) 8) 8) 8 = 0)
    by (rewrite !Z.shiftr_shiftr by lia; rewrite Z.shiftr_div_pow2, Z.div_small by lia; reflexivity).
  rewrite HM4, HW4.
  rewrite Z.land_0_r. change (u8 (Z.lor (u8 0) 0)) with 0.
  match goal with |- context [aset m4 ?q ?v] => destruct (aset_in m4 q v) as [m5 E5]; [lia|] end. rewrite E5. cbn [bind]. apply aset_nth in E5. destruct E5 as [E5 _].
  replace (i + 1 + 8 + 8 + 8 + 8 <? 32) with false by lia.
  exists m5. split; [reflexivity|]. replace (p - 4) with (p - 1 - 1 - 1 - 1) by lia. exact E5.
Qed.

(* over five bytes or more: the accumulator holds 32 bits, so what lies before the last 25 + last mod 8 bits of the field is cleared, down to the
   beginning of its first byte *)
Lemma u8_byte x : byte_ok (u8 x).
Proof. unfold u8, byte_ok. apply Z.mod_pos_bound. lia. Qed.
Lemma u8_bit x q : 0 <= q < 8 -> Z.testbit (u8 x) q = Z.testbit x q.
Proof. intros H. unfold u8. change 256 with (2 ^ 8). apply Z.mod_pow2_bits_low. lia. Qed.
Lemma wr_over size : forall fuel mem i p m w, bytes_ok mem -> 0 <= w < 256 -> size - i <= Z.of_nat fuel -> 0 <= i ->
  p <= Zlen mem -> 0 <= p - (size - i + 7) / 8 -> 0 <= (size - i + 7) / 8 ->
  exists mem', bf_wr fuel mem size i p m w = Ok mem' /\ Zlen mem' = Zlen mem /\ bytes_ok mem' /\
    (forall k, 0 <= k -> bit mem' k = if (p - (size - i + 7) / 8 <=? k / 8) && (k / 8 <? p) then Z.testbit m (8 * (p - k / 8) + (7 - k mod 8)) else bit mem k).
Proof.
  induction fuel as [|f IH]; intros mem i p m w Hb Hw Hfu Hi Hp Hn0 Hn; cbn [bf_wr].
  - exists mem. split; [reflexivity|]. split; [reflexivity|]. split; [exact Hb|]. intros k Hk.
    replace ((size - i + 7) / 8) with 0 by lia. replace ((p - 0 <=? k / 8) && (k / 8 <? p)) with false by lia. reflexivity.
  - destruct (Z.ltb_spec i size) as [H|H].
    2:{ exists mem. split; [reflexivity|]. split; [reflexivity|]. split; [exact Hb|]. intros k Hk.
        replace ((size - i + 7) / 8) with 0 by lia. replace ((p - 0 <=? k / 8) && (k / 8 <? p)) with false by lia. reflexivity. }
    cbv zeta. assert (HW : Z.shiftr w 8 = 0) by (rewrite Z.shiftr_div_pow2 by lia; apply Z.div_small; lia). rewrite HW.
    rewrite aget_in' by lia. cbn [bind]. rewrite Z.land_0_r. change (u8 0) with 0. rewrite Z.lor_0_l.
    destruct (aset_in mem (p - 1) (u8 (Z.shiftr m 8))) as [m1 E1]; [lia|]. rewrite E1. cbn [bind].
    pose proof (aset_nth _ _ _ _ E1) as [_ HL1]. pose proof (aset_bytes _ _ _ _ E1 Hb (u8_byte _)) as Hb1. pose proof (aset_bit _ _ _ _ E1) as HB1.
    assert (EN : (size - i + 7) / 8 = (size - (i + 8) + 7) / 8 + 1) by lia.
    destruct (IH m1 (i + 8) (p - 1) (Z.shiftr m 8) 0 Hb1 ltac:(lia) ltac:(lia) ltac:(lia) ltac:(lia) ltac:(lia) ltac:(lia)) as (mem' & E & HL & HB & HQ).
    exists mem'. split; [exact E|]. split; [congruence|]. split; [exact HB|]. intros k Hk. rewrite HQ, HB1 by lia. rewrite EN.
    destruct (Z.eqb_spec (k / 8) (p - 1)) as [Ek|Ek].
    + replace ((p - 1 - (size - (i + 8) + 7) / 8 <=? k / 8) && (k / 8 <? p - 1)) with false by lia.
      replace ((p - ((size - (i + 8) + 7) / 8 + 1) <=? k / 8) && (k / 8 <? p)) with true by lia.
      rewrite u8_bit, Z.shiftr_spec by lia. f_equal. lia.
    + replace ((p - ((size - (i + 8) + 7) / 8 + 1) <=? k / 8) && (k / 8 <? p)) with ((p - 1 - (size - (i + 8) + 7) / 8 <=? k / 8) && (k / 8 <? p - 1)) by lia.
      destruct ((p - 1 - (size - (i + 8) + 7) / 8 <=? k / 8) && (k / 8 <? p - 1)) eqn:EB; [|reflexivity].
      rewrite Z.shiftr_spec by lia. f_equal. lia.
Qed.
Lemma write_over first size m mem : bytes_ok mem -> 0 <= first -> 32 <= size <= 64 -> 5 <= spans first size -> first + size <= 8 * Zlen mem ->
  (size = 64 \/ size <= 57 + (first + size - 1) mod 8) ->
  exists mem', bf_write first size m mem = Ok mem' /\ Zlen mem' = Zlen mem /\ bytes_ok mem' /\
    (forall k, 0 <= k -> bit mem' k =
       if (8 * (first / 8) <=? k) && (k <? first + size)
       then (first + size - (25 + (first + size - 1) mod 8) <=? k) && Z.testbit m (first + size - 1 - k) else bit mem k).
Proof.
  intros Hb Hf Hs Hc Hin Hw. unfold bf_write, bf_last. unfold spans in Hc. rewrite land_7. remember (first + size - 1) as la eqn:Hla.
  replace (size <=? 31) with false by lia. cbn [andb].
  replace ((33 <=? size) && (size <=? 63) && (2 ^ 64 <=? Z.shiftl (bf_mask size) (7 - la mod 8))) with false.
  2:{ symmetry. destruct (Z.leb_spec size 63) as [H63|H63]; [|destruct (33 <=? size); reflexivity].
      apply andb_false_iff. right. apply Z.leb_gt. rewrite Z.shiftl_mul_pow2 by lia. rewrite mask_narrow, Z.shiftl_1_l by lia.
      assert (2 ^ size * 2 ^ (7 - la mod 8) <= 2 ^ 64). { rewrite <- Z.pow_add_r by lia. apply Z.pow_le_mono_r; lia. }
      assert (0 < 2 ^ (7 - la mod 8)) by (apply Z.pow_pos_nonneg; lia). nia. }
  cbv zeta. remember (7 - la mod 8) as k0 eqn:Hk0.
  remember (u32 (Z.shiftl (Z.land (u32 m) (bf_mask size)) k0)) as M eqn:HM. remember (u32 (Z.lnot (Z.shiftl (bf_mask size) k0))) as W eqn:HW.
  assert (HMb : forall q, 0 <= q -> Z.testbit M q = (k0 <=? q) && (q <? 32) && Z.testbit m (q - k0)).
  { intros q Hq. subst M. unfold u32. destruct (Z.ltb_spec q 32) as [H1|H1].
    2:{ rewrite Z.mod_pow2_bits_high by lia. rewrite andb_false_r. reflexivity. }
    rewrite Z.mod_pow2_bits_low, Z.shiftl_spec by lia. destruct (Z.leb_spec k0 q) as [H2|H2]; cbn [andb].
    - rewrite Z.land_spec, mask_bit by lia. rewrite Z.mod_pow2_bits_low by lia. replace (q - k0 <? _) with true; [apply andb_true_r|]. destruct (Z.eqb_spec size 64); lia.
    - apply Z.testbit_neg_r. lia. }
  assert (HWb : forall q, 0 <= q -> Z.testbit W q = (q <? k0)).
  { intros q Hq. subst W. unfold u32. destruct (Z.ltb_spec q 32) as [H1|H1].
    2:{ rewrite Z.mod_pow2_bits_high by lia. lia. }
    rewrite Z.mod_pow2_bits_low, Z.lnot_spec, Z.shiftl_spec by lia. destruct (Z.ltb_spec q k0) as [H2|H2].
    - rewrite Z.testbit_neg_r by lia. reflexivity.
    - rewrite mask_bit by lia. replace (q - k0 <? _) with true; [reflexivity|]. destruct (Z.eqb_spec size 64); lia. }
  assert (HWr : 0 <= W < 256).
  { assert (0 <= W) by (subst W; apply Z.mod_pos_bound; lia). split; [assumption|]. change 256 with (2 ^ 8).
    replace W with (W mod 2 ^ 8); [apply Z.mod_pos_bound; lia|]. apply Z.bits_inj'. intros q Hq. destruct (Z.ltb_spec q 8).
    - apply Z.mod_pow2_bits_low. lia.
    - rewrite Z.mod_pow2_bits_high, HWb by lia. lia. }
  clear HM HW. rewrite aget_in' by lia. cbn [bind]. remember (nth (Z.to_nat (la / 8)) mem 0) as b0 eqn:Hb0.
  destruct (aset_in mem (la / 8) (u8 (Z.lor (u8 (Z.land b0 W)) M))) as [m1 E1]; [lia|]. rewrite E1. cbn [bind].
  pose proof (aset_nth _ _ _ _ E1) as [_ HL1]. pose proof (aset_bytes _ _ _ _ E1 Hb (u8_byte _)) as Hb1. pose proof (aset_bit _ _ _ _ E1) as HB1.
  assert (EN : (size - (la mod 8 + 1) + 7) / 8 = la / 8 - first / 8) by lia.
  destruct (wr_over size (Z.to_nat size) m1 (la mod 8 + 1) (la / 8) M W Hb1 HWr ltac:(lia) ltac:(lia) ltac:(lia) ltac:(lia) ltac:(lia)) as (mem' & E & HL & HB & HQ).
  exists mem'. split; [exact E|]. split; [congruence|]. split; [exact HB|]. intros k Hk. rewrite HQ, HB1 by lia. rewrite EN.
  destruct (Z.eqb_spec (k / 8) (la / 8)) as [Ek|Ek].
  - replace ((la / 8 - (la / 8 - first / 8) <=? k / 8) && (k / 8 <? la / 8)) with false by lia.
    rewrite u8_bit, Z.lor_spec, u8_bit, Z.land_spec, HWb, HMb by lia.
    destruct (Z.ltb_spec k (first + size)) as [H|H].
    + replace (8 * (first / 8) <=? k) with true by lia. replace (7 - k mod 8 <? k0) with false by lia. rewrite andb_false_r. cbn [orb andb].
      replace (k0 <=? 7 - k mod 8) with true by lia. replace (7 - k mod 8 <? 32) with true by lia. replace (first + size - (25 + la mod 8) <=? k) with true by lia.
      cbn [andb]. f_equal. lia.
    + rewrite andb_false_r. replace (7 - k mod 8 <? k0) with true by lia. replace (k0 <=? 7 - k mod 8) with false by lia. cbn [andb].
      rewrite andb_true_r, orb_false_r. unfold bit. rewrite Ek. subst b0. reflexivity.
  - destruct (Z.ltb_spec (k / 8) (la / 8)) as [H|H].
    + replace (k <? first + size) with true by lia. rewrite !andb_true_r.
      replace (la / 8 - (la / 8 - first / 8) <=? k / 8) with (8 * (first / 8) <=? k) by lia.
      destruct (8 * (first / 8) <=? k); [|reflexivity]. rewrite HMb by lia.
      replace (k0 <=? 8 * (la / 8 - k / 8) + (7 - k mod 8)) with true by lia.
      replace (8 * (la / 8 - k / 8) + (7 - k mod 8) <? 32) with (first + size - (25 + la mod 8) <=? k) by lia. cbn [andb]. f_equal. f_equal. lia.
    + replace (k <? first + size) with false by lia. rewrite !andb_false_r. reflexivity.
Qed.
Lemma write_over_undefined first size m mem : 0 <= first -> 33 <= size <= 63 -> 57 + (first + size - 1) mod 8 < size -> bf_write first size m mem = UB UB_overflow.
Proof.
  intros Hf Hs Hc. unfold bf_write, bf_last. rewrite land_7. replace (size <=? 31) with false by lia. cbn [andb].
  replace ((33 <=? size) && (size <=? 63) && (2 ^ 64 <=? Z.shiftl (bf_mask size) (7 - (first + size - 1) mod 8))) with true; [reflexivity|].
  symmetry. replace (33 <=? size) with true by lia. replace (size <=? 63) with true by lia. apply Z.leb_le.
  rewrite Z.shiftl_mul_pow2 by lia. rewrite mask_narrow by lia. rewrite Z.shiftl_1_l.
  assert (2 ^ 65 <= 2 ^ size * 2 ^ (7 - (first + size - 1) mod 8)). { rewrite <- Z.pow_add_r by lia. apply Z.pow_le_mono_r; lia. }
  assert (2 ^ (7 - (first + size - 1) mod 8) <= 2 ^ 7) by (apply Z.pow_le_mono_r; lia). lia.
Qed.

Lemma wide_assignment first size m mem : bytes_ok mem -> 0 <= first -> 32 <= size <= 64 -> 5 <= spans first size -> first + size <= 8 * Zlen mem ->
  let kept := 25 + (first + size - 1) mod 8 in
  if (size <? 64) && (57 + (first + size - 1) mod 8 <? size) then bf_write first size m mem = UB UB_overflow
  else exists mem', bf_write first size m mem = Ok mem' /\ Zlen mem' = Zlen mem /\ bytes_ok mem' /\
    (forall k, 0 <= k -> bit mem' k =
       if k <? 8 * (first / 8) then bit mem k else if k <? first + size - kept then false
       else if k <? first + size then Z.testbit m (first + size - 1 - k) else bit mem k) /\
    bf_read SwitchByteOrder first size mem' = Ok (m mod 2 ^ kept).
Proof.
  intros Hb Hf Hs Hc Hin kept. destruct ((size <? 64) && (57 + (first + size - 1) mod 8 <? size)) eqn:EU.
  { apply write_over_undefined; lia. }
  destruct (write_over first size m mem Hb Hf Hs Hc Hin ltac:(lia)) as (mem' & E & HL & HB & HQ).
  assert (HQ' : forall k, 0 <= k -> bit mem' k =
       if k <? 8 * (first / 8) then bit mem k else if k <? first + size - kept then false
       else if k <? first + size then Z.testbit m (first + size - 1 - k) else bit mem k).
  { intros k Hk. rewrite HQ by lia. unfold spans in Hc. destruct (Z.ltb_spec k (8 * (first / 8))) as [H1|H1].
    - replace (8 * (first / 8) <=? k) with false by lia. reflexivity.
    - replace (8 * (first / 8) <=? k) with true by lia. cbn [andb]. destruct (Z.ltb_spec k (first + size - kept)) as [H2|H2].
      + replace (k <? first + size) with true by lia. replace (_ <=? k) with false by lia. reflexivity.
      + destruct (k <? first + size); [|reflexivity]. replace (_ <=? k) with true by lia. reflexivity. }
  exists mem'. split; [exact E|]. split; [exact HL|]. split; [exact HB|]. split; [exact HQ'|].
  rewrite read_switch_five by (try assumption; lia). rewrite HL. replace (first + size <=? 8 * Zlen mem) with true by lia. f_equal. fold kept.
  unfold spans in Hc. apply Z.bits_inj'. intros j Hj. destruct (Z.ltb_spec j kept) as [H|H].
  - rewrite !Z.mod_pow2_bits_low by lia. rewrite field_bit by lia. rewrite Z2Nat.id by lia. rewrite HQ' by lia.
    replace (j <? size) with true by lia. replace (first + size - 1 - j <? 8 * (first / 8)) with false by lia. replace (first + size - 1 - j <? first + size - kept) with false by lia.
    replace (first + size - 1 - j <? first + size) with true by lia. cbn [andb]. f_equal. lia.
  - rewrite !Z.mod_pow2_bits_high by lia. reflexivity.
Qed.

(* ---- assignment followed by reading *)
Lemma round_trip first size m mem : bytes_ok mem -> 0 <= first -> 1 <= size <= 32 -> spans first size <= 4 -> first + size <= 8 * Zlen mem ->
  exists mem', bf_write first size m mem = Ok mem' /\ Zlen mem' = Zlen mem /\ bytes_ok mem' /\
    (forall k, 0 <= k -> bit mem' k = if (first <=? k) && (k <? first + size) then Z.testbit (m mod 2 ^ 32) (first + size - 1 - k) else bit mem k) /\
    (0 <= m < 2 ^ 32 -> bf_read SwitchByteOrder first size mem' = Ok (m mod 2 ^ size)) /\
    (forall f2 s2, 0 <= f2 -> 1 <= s2 <= 32 -> spans f2 s2 <= 4 -> f2 + s2 <= first \/ first + size <= f2 ->
       bf_read SwitchByteOrder f2 s2 mem' = bf_read SwitchByteOrder f2 s2 mem).
Proof.
  intros Hb Hf Hs Hc Hin. destruct (write_ok first size m mem Hb Hf Hs Hc Hin) as (mem' & E & HS).
  exists mem'. split; [exact E|]. pose proof HS as (Hl & Hb' & Hbits). split; [exact Hl|]. split; [exact Hb'|]. split; [exact Hbits|]. split.
  - intros Hm. rewrite read_switch_ok by assumption. rewrite Hl. replace (first + size <=? 8 * Zlen mem) with true by lia.
    f_equal. rewrite (set_spec_same mem mem' first size (u32 m)) by (try assumption; lia).
    unfold u32. rewrite (Z.mod_small m) by lia. reflexivity.
  - intros f2 s2 Hf2 Hs2 Hc2 Hd. rewrite !read_switch_ok by assumption. rewrite Hl.
    destruct (f2 + s2 <=? 8 * Zlen mem); [|reflexivity]. f_equal. apply (set_spec_other _ _ _ _ _ _ _ Hf2 HS). rewrite Z2Nat.id by lia. exact Hd.
Qed.
Lemma lbit_bit mem k : lbit mem k = bit mem (8 * (k / 8) + (7 - k mod 8)).
Proof. unfold lbit, bit. f_equal; [f_equal; f_equal; lia|lia]. Qed.
Lemma field_lt mem pos size : 0 <= size <= 32 -> 0 <= field mem pos (Z.to_nat size) < 2 ^ 32.
Proof.
  intros H. pose proof (field_range mem pos (Z.to_nat size)) as Hr. rewrite Z2Nat.id in Hr by lia.
  assert (2 ^ size <= 2 ^ 32) by (apply Z.pow_le_mono_r; lia). lia.
Qed.

Lemma nth_repeat0 n j : nth j (repeat 0 n) 0 = 0.
Proof. revert j. induction n as [|n IH]; intros [|j]; cbn; auto. Qed.
Lemma lbit_zero n k : lbit (repeat 0 n) k = false.
Proof. unfold lbit. rewrite nth_repeat0. apply Z.bits_0. Qed.
Lemma bit_zero n k : bit (repeat 0 n) k = false.
Proof. unfold bit. rewrite nth_repeat0. apply Z.bits_0. Qed.
Lemma bytes_zero n : bytes_ok (repeat 0 n).
Proof. unfold bytes_ok. apply Forall_forall. intros x Hx. apply repeat_spec in Hx. subst x. unfold byte_ok. lia. Qed.

(* in the default byte order what was assigned is read back exactly for fields lying symmetrically in one byte *)
Lemma keep_round_trip first size : 0 <= first -> 1 <= size <= 24 -> spans first size <= 4 ->
  (forall mem m mem', bytes_ok mem -> first / 8 + (size + 7) / 8 < Zlen mem -> first + size <= 8 * Zlen mem -> 0 <= m < 2 ^ size ->
     bf_write first size m mem = Ok mem' -> bf_read KeepByteOrder first size mem' = Ok m) <->
  (first / 8 = (first + size - 1) / 8 /\ first mod 8 + (first + size - 1) mod 8 = 7).
Proof.
  intros Hf Hs Hc. split.
  - intros H. 
    set (n := (Z.to_nat first + 40)%nat). set (mem := repeat 0 n).
    assert (Hl : Zlen mem = first + 40) by (unfold Zlen, mem, n; rewrite repeat_length; lia).
    destruct (write_ok first size 1 mem) as (mem' & E & HL & HB & HQ); try assumption; try lia; [apply bytes_zero|].
    assert (2 <= 2 ^ size) by (change 2 with (2 ^ 1) at 1; apply Z.pow_le_mono_r; lia).
    specialize (H mem 1 mem' (bytes_zero n) ltac:(lia) ltac:(lia) ltac:(lia) E).
    rewrite read_keep_ok in H by (try assumption; lia). rewrite HL in H. replace (first / 8 + (size + 7) / 8 <? Zlen mem) with true in H by lia.
    assert (Hv : lfield mem' first (Z.to_nat size) = 1) by congruence.
    pose proof (lfield_bit mem' first (Z.to_nat size) 0 ltac:(lia)) as Hb. rewrite Hv in Hb.
    replace (0 <? Z.of_nat (Z.to_nat size)) with true in Hb by lia. cbn [andb] in Hb. change (Z.testbit 1 0) with true in Hb.
    rewrite Z.add_0_r in Hb. rewrite lbit_bit in Hb. rewrite HQ in Hb by lia.
    destruct ((first <=? 8 * (first / 8) + (7 - first mod 8)) && (8 * (first / 8) + (7 - first mod 8) <? first + size)) eqn:Er.
    + change (u32 1) with 1 in Hb. destruct (Z.eq_dec (first + size - 1 - (8 * (first / 8) + (7 - first mod 8))) 0) as [Hz|Hz].
      * lia.
      * rewrite Z.bits_above_log2 in Hb; [discriminate|lia|change (Z.log2 1) with 0; lia].
    + unfold mem in Hb. rewrite bit_zero in Hb. discriminate.
  - intros [H1 H2] mem m mem' Hb Hk Hin Hm E.
    destruct (write_ok first size m mem Hb Hf ltac:(lia) Hc Hin) as (mem2 & E2 & HL & HB & HQ).
    assert (mem2 = mem') by congruence. subst mem2.
    rewrite read_keep_ok by (try assumption; lia). rewrite HL. replace (first / 8 + (size + 7) / 8 <? Zlen mem) with true by lia.
    f_equal. apply Z.bits_inj'. intros j Hj. rewrite lfield_bit by lia. rewrite Z2Nat.id by lia.
    destruct (Z.ltb_spec j size) as [H3|H3]; cbn [andb].
    + rewrite lbit_bit, HQ by lia.
      replace ((first <=? 8 * ((first + j) / 8) + (7 - (first + j) mod 8)) && (8 * ((first + j) / 8) + (7 - (first + j) mod 8) <? first + size)) with true by lia.
      unfold u32. assert (2 ^ size <= 2 ^ 32) by (apply Z.pow_le_mono_r; lia). rewrite Z.mod_small by lia. f_equal. lia.
    + destruct (Z.eq_dec m 0) as [->|Hne]; [symmetry; apply Z.bits_0|]. symmetry. apply Z.bits_above_log2; [lia|].
      assert (Z.log2 m < size) by (apply Z.log2_lt_pow2; lia). lia.
Qed.

(* ---- compound assignment *)
Lemma update_ok op first size m r mem : bytes_ok mem -> 0 <= first -> 1 <= size <= 32 -> spans first size <= 4 -> first + size <= 8 * Zlen mem ->
  bf_op op (field mem first (Z.to_nat size)) m = Ok r -> 0 <= r < 2 ^ 32 ->
  exists mem', bf_update op SwitchByteOrder first size m mem = Ok mem' /\ Zlen mem' = Zlen mem /\ bytes_ok mem' /\
    field mem' first (Z.to_nat size) = r mod 2 ^ size /\
    (forall k, 0 <= k -> ~ (first <= k < first + size) -> bit mem' k = bit mem k).
Proof.
  intros Hb Hf Hs Hc Hin Hop Hr. unfold bf_update. rewrite read_switch_ok by assumption.
  replace (first + size <=? 8 * Zlen mem) with true by lia. cbn [bind]. rewrite Hop. cbn [bind].
  destruct (write_ok first size r mem Hb Hf Hs Hc Hin) as (mem' & E & HS).
  exists mem'. split; [exact E|]. pose proof HS as (Hl & Hb' & Hbits). split; [exact Hl|]. split; [exact Hb'|]. split.
  - rewrite (set_spec_same mem mem' first size (u32 r)) by (try assumption; lia). unfold u32. rewrite (Z.mod_small r) by lia. reflexivity.
  - intros k Hk Hd. rewrite Hbits by lia. replace ((first <=? k) && (k <? first + size)) with false by lia. reflexivity.
Qed.
Lemma land_lt a b n : 0 <= n -> 0 <= a < 2 ^ n -> 0 <= b -> 0 <= Z.land a b < 2 ^ n.
Proof.
  intros Hn Ha Hb. split; [apply Z.land_nonneg; lia|].
  destruct (Z.eq_dec (Z.land a b) 0) as [->|Hne]; [apply Z.pow_pos_nonneg; lia|].
  apply Z.log2_lt_pow2; [pose proof (proj2 (Z.land_nonneg a b)); lia|].
  destruct (Z.eq_dec a 0) as [->|Ha0]; [rewrite Z.land_0_l in Hne; congruence|].
  pose proof (Z.log2_land a b ltac:(lia) Hb). assert (Z.log2 a < n) by (apply Z.log2_lt_pow2; lia). lia.
Qed.
Lemma bits_lt x n : 0 <= n -> 0 <= x -> (forall j, n <= j -> Z.testbit x j = false) -> x < 2 ^ n.
Proof.
  intros Hn Hx H. destruct (Z.eq_dec x 0) as [->|Hne]; [apply Z.pow_pos_nonneg; lia|].
  apply Z.log2_lt_pow2; [lia|]. destruct (Z.lt_ge_cases (Z.log2 x) n) as [|Hge]; [assumption|].
  pose proof (Z.bit_log2 x ltac:(lia)) as HB. rewrite H in HB by lia. discriminate.
Qed.
Lemma lt_bits x n j : 0 <= x < 2 ^ n -> n <= j -> 0 <= n -> Z.testbit x j = false.
Proof.
  intros Hx Hj Hn. destruct (Z.eq_dec x 0) as [->|Hne]; [apply Z.bits_0|]. apply Z.bits_above_log2; [lia|].
  assert (Z.log2 x < n) by (apply Z.log2_lt_pow2; lia). lia.
Qed.
(* what the operators mean: spec_op op v m is the value, None where C++ leaves it undefined *)
Definition spec_op (op : bfop) (v m : Z) : option Z :=
  match op with
  | OpAdd => Some (v + m) | OpSub => Some (v - m) | OpMul => Some (v * m)
  | OpDiv => if m =? 0 then None else Some (v / m) | OpMod => if m =? 0 then None else Some (v mod m)
  | OpShl => if 32 <=? m then None else Some (v * 2 ^ m) | OpShr => if 32 <=? m then None else Some (v / 2 ^ m)
  | OpOr => Some (Z.lor v m) | OpAnd => Some (Z.land v m) | OpXor => Some (Z.lxor v m)
  end.
Lemma op_range op v m : 0 <= v < 2 ^ 32 -> 0 <= m < 2 ^ 32 ->
  match spec_op op v m with
  | Some x => exists r, bf_op op v m = Ok r /\ 0 <= r < 2 ^ 32 /\ r = x mod 2 ^ 32
  | None => bf_op op v m = UB UB_overflow
  end.
Proof.
  intros Hv Hm. destruct op; cbn [spec_op bf_op]; unfold u32.
  1-3: eexists; split; [reflexivity|]; split; [apply Z.mod_pos_bound; lia|reflexivity].
  - destruct (Z.eqb_spec m 0); [reflexivity|]. eexists. split; [reflexivity|].
    assert (0 <= v / m < 2 ^ 32). { split; [apply Z.div_pos; lia|]. apply Z.div_lt_upper_bound; nia. }
    split; [assumption|]. rewrite Z.mod_small by lia. reflexivity.
  - destruct (Z.eqb_spec m 0); [reflexivity|]. eexists. split; [reflexivity|].
    pose proof (Z.mod_pos_bound v m ltac:(lia)). split; [lia|]. rewrite (Z.mod_small (v mod m)) by lia. reflexivity.
  - destruct (Z.leb_spec 32 m); [reflexivity|]. eexists. split; [reflexivity|]. rewrite Z.shiftl_mul_pow2 by lia. split; [apply Z.mod_pos_bound; lia|reflexivity].
  - destruct (Z.leb_spec 32 m); [reflexivity|]. eexists. split; [reflexivity|]. rewrite Z.shiftr_div_pow2 by lia.
    assert (0 < 2 ^ m) by (apply Z.pow_pos_nonneg; lia).
    assert (0 <= v / 2 ^ m < 2 ^ 32). { split; [apply Z.div_pos; lia|]. apply Z.div_lt_upper_bound; nia. }
    split; [assumption|]. rewrite Z.mod_small by lia. reflexivity.
  - eexists. split; [reflexivity|]. assert (0 <= Z.lor v m < 2 ^ 32).
    { split; [apply Z.lor_nonneg; lia|]. apply bits_lt; [lia|apply Z.lor_nonneg; lia|]. intros j Hj. rewrite Z.lor_spec, (lt_bits v 32), (lt_bits m 32) by lia. reflexivity. }
    split; [assumption|]. rewrite Z.mod_small by lia. reflexivity.
  - eexists. split; [reflexivity|]. pose proof (land_lt v m 32 ltac:(lia) Hv ltac:(lia)). split; [assumption|]. rewrite Z.mod_small by lia. reflexivity.
  - eexists. split; [reflexivity|]. assert (0 <= Z.lxor v m < 2 ^ 32).
    { split; [apply Z.lxor_nonneg; lia|]. apply bits_lt; [lia|apply Z.lxor_nonneg; lia|]. intros j Hj. rewrite Z.lxor_spec, (lt_bits v 32), (lt_bits m 32) by lia. reflexivity. }
    split; [assumption|]. rewrite Z.mod_small by lia. reflexivity.
Qed.
Lemma update_spec op first size m mem : bytes_ok mem -> 0 <= first -> 1 <= size <= 32 -> spans first size <= 4 -> first + size <= 8 * Zlen mem ->
  0 <= m < 2 ^ 32 ->
  match spec_op op (field mem first (Z.to_nat size)) m with
  | Some x => exists mem', bf_update op SwitchByteOrder first size m mem = Ok mem' /\ Zlen mem' = Zlen mem /\ bytes_ok mem' /\
      field mem' first (Z.to_nat size) = x mod 2 ^ size /\ (forall k, 0 <= k -> ~ (first <= k < first + size) -> bit mem' k = bit mem k)
  | None => bf_update op SwitchByteOrder first size m mem = UB UB_overflow
  end.
Proof.
  intros Hb Hf Hs Hc Hin Hm. pose proof (field_lt mem first size ltac:(lia)) as Hv.
  pose proof (op_range op (field mem first (Z.to_nat size)) m Hv Hm) as HO.
  destruct (spec_op op (field mem first (Z.to_nat size)) m) as [x|].
  - destruct HO as (r & E & Hr & Hx). destruct (update_ok op first size m r mem Hb Hf Hs Hc Hin E Hr) as (mem' & E' & H1 & H2 & H3 & H4).
    exists mem'. repeat (split; [assumption|]). split; [|exact H4]. rewrite H3, Hx.
    rewrite <- Znumtheory.Zmod_div_mod; [reflexivity|apply Z.pow_pos_nonneg; lia|lia|].
    exists (2 ^ (32 - size)). rewrite <- Z.pow_add_r by lia. f_equal. lia.
  - unfold bf_update. rewrite read_switch_ok by assumption. replace (first + size <=? 8 * Zlen mem) with true by lia. cbn [bind]. rewrite HO. reflexivity.
Qed.
