(* getBit with byteOrder = KeepByteOrder (include/UBLOX/bit_tools.h:71-78, 116-123). *)
From Verif Require Import Base BitSpec BitModel BitProofs BitField BitFieldProofs.

(* bit_tools.h:73-76 / 118-121: for (i = 0; i < len; i += 8) tmp |= ( *(++p) << (i + 8)).  The shifted byte is an int (a shift by 32 or more
   is undefined; a byte of 128 or more shifted by 24 becomes negative, C++14 and later), converted to tempType (w bits) by the |=. *)
Fixpoint gk_loop (fuel : nat) (w : Z) (buf : list Z) (len i p tmp : Z) : outcome Z :=
  match fuel with
  | O => Ok tmp
  | S f =>
      if i <? len then
        let* b := aget buf (p + 1) in
        if i + 8 <? 32 then gk_loop f w buf len (i + 8) (p + 1) (Z.lor tmp (uw w (i32 (Z.shiftl b (i + 8))))) else UB UB_overflow
      else Ok tmp
  end.
Definition get_raw_keep (w : Z) (buf : list Z) (pos len : Z) : outcome Z :=
  let* b0 := aget buf (pos / 8) in
  let* tmp := gk_loop (Z.to_nat len) w buf len 0 (pos / 8) b0 in
  Ok (Z.land (Z.shiftr tmp (pos mod 8)) (Z.shiftl 1 len - 1)).
(* getBit<len, Sign, KeepByteOrder>(buf, pos), bit_tools.h:48-91, and the run-time getBit<Sign, KeepByteOrder>(buf, pos, len), 93-136 *)
Definition getBitK (len : Z) (buf : list Z) (pos : Z) : outcome Z :=
  let* r := get_raw_keep (type_width (len + 8)) buf pos len in Ok (uw (type_width len) r).
Definition getBitKS (len : Z) (buf : list Z) (pos : Z) : outcome Z :=
  let* r := getBitK len buf pos in Ok (sign_extend (type_width (len + 8)) (type_width len) len r).
Definition getBitKRt (buf : list Z) (pos len : Z) : outcome Z :=
  let* r := get_raw_keep 64 buf pos len in Ok (uw 32 r).
Definition getBitKRtS (buf : list Z) (pos len : Z) : outcome Z :=
  let* r := getBitKRt buf pos len in Ok (sign_extend 64 32 len r).

(* ---------------------------------------------------------------- proofs *)
(* the low 32 bits (or all w) of the loop's result are the bytes; above, sign bits *)
Lemma int_bits w b s q : byte_ok b -> 0 <= s -> s + 8 <= 32 -> 0 <= q < 32 -> q < w -> Z.testbit (uw w (i32 (Z.shiftl b s))) q = (s <=? q) && Z.testbit b (q - s).
Proof.
  intros Hb Hs H8 Hq Hw. unfold uw. rewrite Z.mod_pow2_bits_low by lia.
  assert (E : Z.testbit (i32 (Z.shiftl b s)) q = Z.testbit (Z.shiftl b s) q).
  { unfold i32, sgn. cbv zeta. change (2 ^ (32 - 1)) with 2147483648. rewrite <- (Z.mod_pow2_bits_low (Z.shiftl b s) 32 q) by lia.
    set (x := Z.shiftl b s mod 2 ^ 32). destruct (x <? 2147483648); [reflexivity|].
    rewrite <- (Z.mod_pow2_bits_low (x - 2 ^ 32) 32 q) by lia. replace (x - 2 ^ 32) with (x + (-1) * 2 ^ 32) by ring. rewrite Z_mod_plus_full. rewrite Z.mod_pow2_bits_low by lia. reflexivity. }
  rewrite E. destruct (Z.leb_spec s q); cbn [andb]; [apply Z.shiftl_spec; lia|]. rewrite Z.shiftl_spec, Z.testbit_neg_r by lia. reflexivity.
Qed.
Lemma gk_loop_ok w mem size p0 : bytes_ok mem -> 0 <= p0 -> 1 <= size <= 56 -> size + 8 <= w ->
  forall fuel t ret, 0 <= t -> 8 * (t - 1) < size -> size - 8 * t <= Z.of_nat fuel -> p0 + t < Zlen mem ->
  (forall q, 0 <= q < 32 -> q < w -> Z.testbit ret q = (q <? 8 * (t + 1)) && lbit mem (8 * p0 + q)) ->
  (if size <=? 24 then
     if p0 + (size + 7) / 8 <? Zlen mem then
       exists r, gk_loop fuel w mem size (8 * t) (p0 + t) ret = Ok r /\
         (forall q, 0 <= q < 32 -> q < w -> Z.testbit r q = (q <? 8 * ((size + 7) / 8 + 1)) && lbit mem (8 * p0 + q))
     else gk_loop fuel w mem size (8 * t) (p0 + t) ret = UB UB_oob_read
   else t <= 3 -> gk_loop fuel w mem size (8 * t) (p0 + t) ret = UB (if p0 + 4 <? Zlen mem then UB_overflow else UB_oob_read)).
Proof.
  intros Hm Hp Hs Hw. induction fuel as [|f IH]; intros t ret Ht Ht1 Hf Hin HQ.
  - assert (t = (size + 7) / 8) by lia. destruct (Z.leb_spec size 24); [|lia].
    replace (p0 + (size + 7) / 8 <? Zlen mem) with true by lia. exists ret. split; [reflexivity|]. subst t. exact HQ.
  - cbn [gk_loop]. destruct (Z.ltb_spec (8 * t) size) as [H|H].
    2:{ assert (t = (size + 7) / 8) by lia. destruct (Z.leb_spec size 24); [|lia].
        replace (p0 + (size + 7) / 8 <? Zlen mem) with true by lia. exists ret. split; [reflexivity|]. subst t. exact HQ. }
    replace (p0 + t + 1) with (p0 + (t + 1)) by lia. replace (8 * t + 8) with (8 * (t + 1)) by lia.
    destruct (Z.ltb_spec (p0 + (t + 1)) (Zlen mem)) as [H2|H2].
    + rewrite aget_in' by lia. cbn [bind]. destruct (Z.ltb_spec (8 * (t + 1)) 32) as [H3|H3].
      * remember (nth (Z.to_nat (p0 + (t + 1))) mem 0) as b eqn:Hb.
        assert (Hbb : byte_ok b) by (apply (aget_byte mem (p0 + (t + 1))); [assumption|rewrite aget_in' by lia; congruence]).
        assert (HQ' : forall q, 0 <= q < 32 -> q < w -> Z.testbit (Z.lor ret (uw w (i32 (Z.shiftl b (8 * (t + 1)))))) q = (q <? 8 * (t + 1 + 1)) && lbit mem (8 * p0 + q)).
        { intros q Hq Hqw. rewrite Z.lor_spec, HQ by lia. rewrite int_bits by (assumption || lia).
          destruct (Z.ltb_spec q (8 * (t + 1))) as [H4|H4].
          - replace (q <? 8 * (t + 1 + 1)) with true by lia. replace (8 * (t + 1) <=? q) with false by lia. cbn [andb]. apply orb_false_r.
          - replace (8 * (t + 1) <=? q) with true by lia. cbn [andb orb]. destruct (Z.ltb_spec q (8 * (t + 1 + 1))) as [H6|H6]; cbn [andb].
            + replace (8 * p0 + q) with (8 * (p0 + (t + 1)) + (q - 8 * (t + 1))) by lia. rewrite lbit_nth by lia. rewrite <- Hb. reflexivity.
            + apply testbit_byte; [assumption|lia]. }
        specialize (IH (t + 1) _ ltac:(lia) ltac:(lia) ltac:(lia) H2 HQ').
        destruct (size <=? 24) eqn:E24; [exact IH|]. intros Ht3. apply IH. lia.
      * destruct (Z.leb_spec size 24); [lia|]. intros Ht3. replace (p0 + 4 <? Zlen mem) with true by lia. reflexivity.
    + unfold aget. replace ((0 <=? p0 + (t + 1)) && (p0 + (t + 1) <? Zlen mem)) with false by lia. cbn [bind].
      destruct (Z.leb_spec size 24).
      * replace (p0 + (size + 7) / 8 <? Zlen mem) with false by lia. reflexivity.
      * intros Ht3. replace (p0 + 4 <? Zlen mem) with false by lia. reflexivity.
Qed.
Lemma raw_keep_ok w first size mem : bytes_ok mem -> 0 <= first -> 1 <= size <= 24 -> size + 8 <= w ->
  get_raw_keep w mem first size = if first / 8 + (size + 7) / 8 <? Zlen mem then Ok (lfield mem first (Z.to_nat size)) else UB UB_oob_read.
Proof.
  intros Hm Hf Hs Hw. unfold get_raw_keep. destruct (Z.ltb_spec (first / 8) (Zlen mem)) as [H|H].
  2:{ unfold aget. replace ((0 <=? first / 8) && (first / 8 <? Zlen mem)) with false by lia. cbn [bind].
      replace (first / 8 + (size + 7) / 8 <? Zlen mem) with false by lia. reflexivity. }
  rewrite aget_in' by lia. cbn [bind]. remember (nth (Z.to_nat (first / 8)) mem 0) as b eqn:Hb.
  pose proof (gk_loop_ok w mem size (first / 8) Hm ltac:(lia) ltac:(lia) Hw (Z.to_nat size) 0 b ltac:(lia) ltac:(lia) ltac:(lia) ltac:(lia)) as HK.
  change (8 * 0) with 0 in HK. rewrite Z.add_0_r in HK. replace (size <=? 24) with true in HK by lia.
  assert (HQ : forall q, 0 <= q < 32 -> q < w -> Z.testbit b q = (q <? 8 * (0 + 1)) && lbit mem (8 * (first / 8) + q)).
  { intros q Hq _. destruct (Z.ltb_spec q (8 * (0 + 1))); cbn [andb].
    - rewrite lbit_nth by lia. congruence.
    - apply testbit_byte; [|lia]. apply (aget_byte mem (first / 8)); [assumption|]. rewrite aget_in' by lia. congruence. }
  specialize (HK HQ). destruct (Z.ltb_spec (first / 8 + (size + 7) / 8) (Zlen mem)) as [H2|H2].
  - destruct HK as (r & E & Hr). rewrite E. cbn [bind]. f_equal. rewrite Z.shiftl_1_l.
    replace (2 ^ size - 1) with (Z.ones size) by (rewrite Z.ones_equiv; lia). rewrite Z.land_ones by lia.
    apply Z.bits_inj'. intros j Hj. rewrite lfield_bit by lia. rewrite Z2Nat.id by lia.
    destruct (Z.ltb_spec j size) as [H3|H3]; cbn [andb].
    + rewrite Z.mod_pow2_bits_low, Z.shiftr_spec by lia. rewrite Hr by lia.
      replace (j + first mod 8 <? 8 * ((size + 7) / 8 + 1)) with true by lia. cbn [andb]. f_equal. lia.
    + apply Z.mod_pow2_bits_high. lia.
  - rewrite HK. reflexivity.
Qed.
Lemma raw_keep_wide w first size mem : bytes_ok mem -> 0 <= first -> 25 <= size <= 56 -> size + 8 <= w ->
  exists k, get_raw_keep w mem first size = UB k.
Proof.
  intros Hm Hf Hs Hw. unfold get_raw_keep. destruct (Z.ltb_spec (first / 8) (Zlen mem)) as [H|H].
  2:{ unfold aget. replace ((0 <=? first / 8) && (first / 8 <? Zlen mem)) with false by lia. eexists; reflexivity. }
  rewrite aget_in' by lia. cbn [bind]. remember (nth (Z.to_nat (first / 8)) mem 0) as b eqn:Hb.
  pose proof (gk_loop_ok w mem size (first / 8) Hm ltac:(lia) ltac:(lia) Hw (Z.to_nat size) 0 b ltac:(lia) ltac:(lia) ltac:(lia) ltac:(lia)) as HK.
  change (8 * 0) with 0 in HK. rewrite Z.add_0_r in HK. replace (size <=? 24) with false in HK by lia.
  rewrite HK; [eexists; reflexivity| |lia].
  intros q Hq _. destruct (Z.ltb_spec q (8 * (0 + 1))); cbn [andb].
  - rewrite lbit_nth by lia. congruence.
  - apply testbit_byte; [|lia]. apply (aget_byte mem (first / 8)); [assumption|]. rewrite aget_in' by lia. congruence.
Qed.
Lemma sign_extend_gen w r len x : 1 <= len <= r -> r <= w -> 0 <= x < 2 ^ len ->
  sign_extend w r len x = if Z.testbit x (len - 1) then x - 2 ^ len else x.
Proof.
  intros Hl Hw HR. unfold sign_extend. rewrite land_pow2 by lia.
  destruct (Z.testbit x (len - 1)) eqn:HB; cbn [negb]; [|reflexivity]. rewrite lor_high by lia.
  assert (HG : 2 ^ (len - 1) <= x).
  { destruct (Z.lt_ge_cases x (2 ^ (len - 1))) as [HL|HL]; [|lia]. exfalso.
    destruct (Z.eq_dec x 0) as [E0|E0]; [rewrite E0, Z.bits_0 in HB; discriminate|].
    rewrite Z.bits_above_log2 in HB; [discriminate|lia|]. apply Z.log2_lt_pow2; lia. }
  assert (Hpl : 2 ^ len = 2 * 2 ^ (len - 1)) by (rewrite <- Z.pow_succ_r by lia; f_equal; lia).
  assert (Hpr : 2 ^ (len - 1) <= 2 ^ (r - 1)) by (apply Z.pow_le_mono_r; lia).
  assert (Hpw : 2 ^ w = 2 ^ (w - r) * 2 ^ r) by (rewrite <- Z.pow_add_r by lia; f_equal; lia).
  replace (x + (2 ^ w - 2 ^ len)) with ((x - 2 ^ len) + 2 ^ (w - r) * 2 ^ r) by lia.
  apply sgn_neg; lia || (apply Z.pow_nonneg; lia).
Qed.
(* two's complement reading of a little-endian field: the last bit is the sign *)
Definition lfield_signed (mem : list Z) (pos : Z) (n : nat) : Z :=
  if lbit mem (pos + Z.of_nat n - 1) then lfield mem pos n - 2 ^ Z.of_nat n else lfield mem pos n.
Lemma lsign w r len mem pos : 1 <= len <= r -> r <= w -> sign_extend w r len (lfield mem pos (Z.to_nat len)) = lfield_signed mem pos (Z.to_nat len).
Proof.
  intros Hl Hw. pose proof (lfield_range mem pos (Z.to_nat len)) as HR. rewrite Z2Nat.id in HR by lia. rewrite sign_extend_gen by lia.
  unfold lfield_signed. rewrite lfield_bit, Z2Nat.id by lia. replace (len - 1 <? len) with true by lia. cbn [andb]. replace (pos + (len - 1)) with (pos + len - 1) by lia. reflexivity.
Qed.
Lemma uw_lfield r mem pos len : 0 <= len <= r -> uw r (lfield mem pos (Z.to_nat len)) = lfield mem pos (Z.to_nat len).
Proof.
  intros H. unfold uw. pose proof (lfield_range mem pos (Z.to_nat len)) as HR. rewrite Z2Nat.id in HR by lia.
  apply Z.mod_small. assert (2 ^ len <= 2 ^ r) by (apply Z.pow_le_mono_r; lia). lia.
Qed.
Lemma width8 len : 1 <= len <= 56 -> len + 8 <= type_width (len + 8).
Proof. intros H. apply type_width_ge. lia. Qed.
Lemma getBitK_ok len buf pos : bytes_ok buf -> 0 <= pos -> 1 <= len <= 56 ->
  (len <= 24 -> getBitK len buf pos = if pos / 8 + (len + 7) / 8 <? Zlen buf then Ok (lfield buf pos (Z.to_nat len)) else UB UB_oob_read) /\
  (25 <= len -> exists k, getBitK len buf pos = UB k).
Proof.
  intros Hb Hp Hl. unfold getBitK. split; intros H.
  - rewrite raw_keep_ok by (assumption || lia || (apply width8; lia)). destruct (_ <? _); [|reflexivity]. cbn [bind]. rewrite uw_lfield; [reflexivity|]. split; [lia|apply type_width_ge; lia].
  - destruct (raw_keep_wide (type_width (len + 8)) pos len buf Hb Hp ltac:(lia) (width8 len ltac:(lia))) as (k & E). rewrite E. exists k. reflexivity.
Qed.
Lemma getBitKS_ok len buf pos : bytes_ok buf -> 0 <= pos -> 1 <= len <= 56 ->
  (len <= 24 -> getBitKS len buf pos = if pos / 8 + (len + 7) / 8 <? Zlen buf then Ok (lfield_signed buf pos (Z.to_nat len)) else UB UB_oob_read) /\
  (25 <= len -> exists k, getBitKS len buf pos = UB k).
Proof.
  intros Hb Hp Hl. destruct (getBitK_ok len buf pos Hb Hp Hl) as [H1 H2]. unfold getBitKS. split; intros H.
  - rewrite (H1 H). destruct (_ <? _); [|reflexivity]. cbn [bind]. rewrite lsign; [reflexivity|split; [lia|apply type_width_ge; lia]|].
    unfold type_width. destruct (Z.leb_spec len 8), (Z.leb_spec len 16), (Z.leb_spec len 32), (Z.leb_spec (len + 8) 8), (Z.leb_spec (len + 8) 16), (Z.leb_spec (len + 8) 32); lia.
  - destruct (H2 H) as (k & E). rewrite E. exists k. reflexivity.
Qed.
Lemma getBitKRt_ok len buf pos : bytes_ok buf -> 0 <= pos -> 1 <= len <= 56 ->
  (len <= 24 -> getBitKRt buf pos len = if pos / 8 + (len + 7) / 8 <? Zlen buf then Ok (lfield buf pos (Z.to_nat len)) else UB UB_oob_read) /\
  (25 <= len -> exists k, getBitKRt buf pos len = UB k).
Proof.
  intros Hb Hp Hl. unfold getBitKRt. split; intros H.
  - rewrite raw_keep_ok by (assumption || lia). destruct (_ <? _); [|reflexivity]. cbn [bind]. rewrite uw_lfield; [reflexivity|lia].
  - destruct (raw_keep_wide 64 pos len buf Hb Hp ltac:(lia) ltac:(lia)) as (k & E). rewrite E. exists k. reflexivity.
Qed.
Lemma getBitKRtS_ok len buf pos : bytes_ok buf -> 0 <= pos -> 1 <= len <= 56 ->
  (len <= 24 -> getBitKRtS buf pos len = if pos / 8 + (len + 7) / 8 <? Zlen buf then Ok (lfield_signed buf pos (Z.to_nat len)) else UB UB_oob_read) /\
  (25 <= len -> exists k, getBitKRtS buf pos len = UB k).
Proof.
  intros Hb Hp Hl. destruct (getBitKRt_ok len buf pos Hb Hp Hl) as [H1 H2]. unfold getBitKRtS. split; intros H.
  - rewrite (H1 H). destruct (_ <? _); [|reflexivity]. cbn [bind]. rewrite lsign; [reflexivity|lia|lia].
  - destruct (H2 H) as (k & E). rewrite E. exists k. reflexivity.
Qed.
(* ---------------------------------------------------------------- the run-time getBit beyond 32 bits *)
Lemma getBitRt_wide len buf pos : bytes_ok buf -> 0 <= pos -> 33 <= len <= 56 -> pos + len <= 8 * Zlen buf ->
  getBitRt buf pos len = Ok (field buf pos (Z.to_nat len) mod 2 ^ 32) /\ getBitRtS buf pos len = Ok (field buf pos (Z.to_nat len) mod 2 ^ 32).
Proof.
  intros Hb Hp Hl Hin. assert (E : getBitRt buf pos len = Ok (field buf pos (Z.to_nat len) mod 2 ^ 32)).
  { unfold getBitRt. rewrite get_raw_ok by (assumption || lia). reflexivity. }
  split; [exact E|]. unfold getBitRtS. rewrite E. cbn [bind]. unfold sign_extend. rewrite land_pow2 by lia. rewrite Z.mod_pow2_bits_high by lia. reflexivity.
Qed.
