(* Proofs about bit fields (C26-C29). *)
From Verif Require Import Base ZBits BitSpec BitModel.

Lemma land_7 x : Z.land x 7 = x mod 8.
Proof. change 7 with (Z.ones 3). rewrite Z.land_ones by lia. reflexivity. Qed.

Lemma bit_ge l k : 8 * Zlen l <= k -> bit l k = false.
Proof.
  intros H. unfold bit. rewrite nth_overflow; [apply Z.bits_0|]. unfold Zlen in H. lia.
Qed.

(* ------------------------------------------------ big-endian value of a byte list *)
Definition be (l : list Z) : Z := fold_left (fun a b => a * 256 + b) l 0.
Lemma be_snoc l x : be (l ++ [x]) = be l * 256 + x.
Proof. unfold be. rewrite fold_left_app. reflexivity. Qed.
Lemma be_range l : bytes_ok l -> 0 <= be l < 2 ^ (8 * Zlen l).
Proof.
  induction l as [|x l IH] using rev_ind; intros H; [cbn; lia|].
  apply bytes_ok_app in H. destruct H as [H1 H2]. apply Forall_inv in H2. specialize (IH H1).
  rewrite be_snoc, Zlen_app. change (Zlen [x]) with 1. pose proof (Zlen_nonneg l).
  replace (8 * (Zlen l + 1)) with (8 * Zlen l + 8) by lia. rewrite Z.pow_add_r by lia.
  change (2 ^ 8) with 256. unfold byte_ok in H2. nia.
Qed.

Lemma testbit_byte x j : byte_ok x -> 8 <= j -> Z.testbit x j = false.
Proof.
  intros H Hj. unfold byte_ok in H. destruct (Z.eq_dec x 0) as [->|Hne]; [apply Z.bits_0|].
  apply Z.bits_above_log2; [lia|]. assert (Z.log2 x < 8) by (apply Z.log2_lt_pow2; [lia|change (2^8) with 256; lia]). lia.
Qed.

Lemma testbit_cat8 a x j : byte_ok x -> 0 <= j ->
  Z.testbit (a * 256 + x) j = if j <? 8 then Z.testbit x j else Z.testbit a (j - 8).
Proof.
  intros H Hj. replace (a * 256 + x) with (Z.lor (Z.shiftl a 8) x).
  2:{ rewrite Z.lor_comm, lor_low_shiftl by (try lia; change (2 ^ 8) with 256; exact H). change (2 ^ 8) with 256. lia. }
  rewrite Z.lor_spec. destruct (Z.ltb_spec j 8).
  - rewrite Z.shiftl_spec_low by lia. reflexivity.
  - rewrite Z.shiftl_spec by lia. rewrite (testbit_byte x j H) by lia. apply orb_false_r.
Qed.

Lemma be_bit l : bytes_ok l -> forall j, 0 <= j < 8 * Zlen l -> Z.testbit (be l) j = bit l (8 * Zlen l - 1 - j).
Proof.
  induction l as [|x l IH] using rev_ind; intros H j Hj; [unfold Zlen in Hj; cbn [length] in Hj; lia|].
  apply bytes_ok_app in H. destruct H as [H1 H2]. apply Forall_inv in H2. specialize (IH H1).
  rewrite be_snoc, testbit_cat8 by (assumption || lia). rewrite Zlen_app in *. change (Zlen [x]) with 1 in *.
  pose proof (Zlen_nonneg l). unfold bit.
  destruct (Z.ltb_spec j 8).
  - rewrite app_nth2 by (unfold Zlen in *; lia).
    replace (Z.to_nat ((8 * (Zlen l + 1) - 1 - j) / 8) - length l)%nat with 0%nat by (unfold Zlen in *; lia).
    cbn [nth]. f_equal. lia.
  - rewrite app_nth1 by (unfold Zlen in *; lia). rewrite IH by lia. unfold bit.
    f_equal; [f_equal; lia|lia].
Qed.

Lemma bit_mid pre l rest x : 0 <= x < 8 * Zlen l -> bit (pre ++ l ++ rest) (8 * Zlen pre + x) = bit l x.
Proof.
  intros H. unfold bit. pose proof (Zlen_nonneg pre).
  rewrite app_nth2 by (unfold Zlen in *; lia). rewrite app_nth1 by (unfold Zlen in *; lia).
  f_equal; [f_equal; unfold Zlen; lia|lia].
Qed.

(* ------------------------------------------------ field *)
Lemma field_range buf pos n : 0 <= field buf pos n < 2 ^ Z.of_nat n.
Proof.
  induction n as [|n IH]; [cbn; lia|]. cbn [field]. rewrite Nat2Z.inj_succ, Z.pow_succ_r by lia.
  destruct (bit buf (pos + Z.of_nat n)); cbn [Z.b2z]; lia.
Qed.
Lemma field_bit buf pos n : forall j, 0 <= j ->
  Z.testbit (field buf pos n) j = (j <? Z.of_nat n) && bit buf (pos + Z.of_nat n - 1 - j).
Proof.
  induction n as [|n IH]; intros j Hj.
  - cbn [field]. rewrite Z.bits_0. replace (j <? Z.of_nat 0) with false by lia. reflexivity.
  - cbn [field]. destruct (Z.eq_dec j 0) as [->|Hne].
    + rewrite Z.bit0_odd, Z.add_comm, Z.odd_add_mul_2.
      replace (0 <? Z.of_nat (S n)) with true by lia. cbn [andb].
      replace (pos + Z.of_nat (S n) - 1 - 0) with (pos + Z.of_nat n) by lia.
      destruct (bit buf (pos + Z.of_nat n)); reflexivity.
    + replace j with (Z.succ (j - 1)) at 1 by lia.
      rewrite Z.testbit_succ_r by lia. rewrite IH by lia. f_equal; [lia|f_equal; lia].
Qed.

(* any number below 2^len with the right bits is the field *)
Lemma field_unique buf pos n x : 0 <= x < 2 ^ Z.of_nat n ->
  (forall j, 0 <= j < Z.of_nat n -> Z.testbit x j = bit buf (pos + Z.of_nat n - 1 - j)) -> x = field buf pos n.
Proof.
  intros Hx H. apply Z.bits_inj'. intros j Hj. rewrite field_bit by lia.
  destruct (Z.ltb_spec j (Z.of_nat n)); cbn [andb]; [apply H; lia|].
  destruct (Z.eq_dec x 0) as [->|Hne]; [apply Z.bits_0|]. apply Z.bits_above_log2; [lia|].
  assert (Z.log2 x < Z.of_nat n) by (apply Z.log2_lt_pow2; lia). lia.
Qed.

(* ------------------------------------------------ getBit *)
Lemma gb_loop_ok w len o pre rest : forall todo done fuel i p,
  bytes_ok done -> bytes_ok todo ->
  i = 8 * Zlen done - o -> p = Zlen pre + Zlen done - 1 ->
  8 * (Zlen done + Zlen todo) - o >= len -> (todo = [] \/ 8 * (Zlen done + Zlen todo - 1) - o < len) ->
  len - i <= Z.of_nat fuel -> 8 * (Zlen done + Zlen todo) <= w -> 0 <= o < 8 -> 1 <= Zlen done ->
  gb_loop fuel w (pre ++ done ++ todo ++ rest) len i p (be done) = Ok (be (done ++ todo)).
Proof.
  induction todo as [|x todo IH]; intros done fuel i p Hd Ht Hi Hp H1 H2 Hf Hw Ho Hd1.
  - rewrite app_nil_r. rewrite Zlen_nil in *. destruct fuel as [|f]; [reflexivity|].
    cbn [gb_loop]. replace (i <? len) with false by lia. reflexivity.
  - rewrite Zlen_cons in *. pose proof (Zlen_nonneg todo).
    destruct H2 as [H2|H2]; [discriminate|].
    destruct fuel as [|f]; [lia|]. cbn [gb_loop]. replace (i <? len) with true by lia.
    replace (p + 1) with (Zlen (pre ++ done)) by (rewrite Zlen_app; lia).
    rewrite app_assoc. cbn [app].
    assert (HG : aget ((pre ++ done) ++ x :: todo ++ rest) (Zlen (pre ++ done)) = Ok x).
    { unfold aget. rewrite !Zlen_app, Zlen_cons. pose proof (Zlen_nonneg (todo ++ rest)).
      pose proof (Zlen_nonneg pre).
      replace ((0 <=? Zlen pre + Zlen done) && (Zlen pre + Zlen done <? Zlen pre + Zlen done + (1 + Zlen (todo ++ rest)))) with true by lia.
      f_equal. unfold Zlen. rewrite <- Nat2Z.inj_add, Nat2Z.id, <- app_length.
      rewrite app_nth2 by lia. rewrite Nat.sub_diag. reflexivity. }
    rewrite HG. cbn [bind].
    apply Forall_cons_iff in Ht. destruct Ht as [Hx Ht].
    assert (HB : Z.lor (uw w (Z.shiftl (be done) 8)) x = be (done ++ [x])).
    { rewrite be_snoc. pose proof (be_range done Hd) as Hr. unfold uw.
      assert (Hs : 0 <= Z.shiftl (be done) 8 < 2 ^ w).
      { rewrite Z.shiftl_mul_pow2 by lia. change (2 ^ 8) with 256.
        assert (2 ^ (8 * Zlen done + 8) <= 2 ^ w) by (apply Z.pow_le_mono_r; lia).
        rewrite Z.pow_add_r in H0 by lia. change (2 ^ 8) with 256 in H0. lia. }
      rewrite Z.mod_small by exact Hs. rewrite Z.lor_comm, lor_low_shiftl by (try lia; change (2 ^ 8) with 256; exact Hx).
      change (2 ^ 8) with 256. lia. }
    rewrite HB. specialize (IH (done ++ [x]) f (i + 8) (Zlen (pre ++ done))).
    replace ((pre ++ done) ++ x :: todo ++ rest) with (pre ++ (done ++ [x]) ++ todo ++ rest)
      by (rewrite <- !app_assoc; reflexivity).
    replace (done ++ x :: todo) with ((done ++ [x]) ++ todo) by (rewrite <- app_assoc; reflexivity).
    apply IH; rewrite ?Zlen_app; change (Zlen [x]) with 1; try lia; try assumption.
    + apply bytes_ok_app. split; [assumption|]. constructor; [assumption|constructor].
Qed.

Lemma split3 (buf : list Z) a m : 0 <= a -> 0 <= m -> a + m <= Zlen buf ->
  exists pre l rest, buf = pre ++ l ++ rest /\ Zlen pre = a /\ Zlen l = m.
Proof.
  intros Ha Hm H. exists (firstn (Z.to_nat a) buf), (firstn (Z.to_nat m) (skipn (Z.to_nat a) buf)), (skipn (Z.to_nat m) (skipn (Z.to_nat a) buf)).
  rewrite !firstn_skipn. split; [reflexivity|]. unfold Zlen in *. rewrite !firstn_length, skipn_length. lia.
Qed.

Lemma get_raw_ok w buf pos len : bytes_ok buf -> 0 <= pos -> 1 <= len ->
  pos + len <= 8 * Zlen buf -> 8 * ((pos + len - 1) / 8 - pos / 8 + 1) <= w ->
  get_raw w buf pos len = Ok (field buf pos (Z.to_nat len)).
Proof.
  intros Hb Hp Hl Hin Hw. remember ((pos + len - 1) / 8 - pos / 8 + 1) as m eqn:Hm.
  destruct (split3 buf (pos / 8) m) as (pre & l & rest & E & H1 & H2); [lia..|].
  assert (Hlb : bytes_ok l). { subst buf. apply bytes_ok_app in Hb. destruct Hb as [_ Hb]. apply bytes_ok_app in Hb. tauto. }
  destruct l as [|b0 todo]; [rewrite Zlen_nil in H2; lia|].
  unfold get_raw. rewrite !land_7.
  assert (HG : aget buf (pos / 8) = Ok b0).
  { subst buf. unfold aget. rewrite !Zlen_app, H1, Zlen_cons. pose proof (Zlen_nonneg todo); pose proof (Zlen_nonneg rest).
    replace ((0 <=? pos / 8) && (pos / 8 <? pos / 8 + (1 + Zlen todo + Zlen rest))) with true by lia.
    rewrite <- H1. unfold Zlen. rewrite Nat2Z.id, app_nth2 by lia. rewrite Nat.sub_diag. reflexivity. }
  rewrite HG. cbn [bind]. rewrite Zlen_cons in H2.
  assert (HL : gb_loop (Z.to_nat len) w buf len (8 - pos mod 8) (pos / 8) b0 = Ok (be (b0 :: todo))).
  { apply Forall_cons_iff in Hlb. destruct Hlb as [Hb0 Ht].
    replace b0 with (be [b0]) at 1 by (cbn; lia). change (b0 :: todo) with ([b0] ++ todo) in E |- *.
    rewrite E at 1. rewrite <- (app_assoc [b0] todo rest).
    apply gb_loop_ok with (o := pos mod 8); change (Zlen [b0]) with 1; try lia; try assumption.
    - constructor; [assumption|constructor].
  }
  rewrite HL. cbn [bind]. f_equal. pose proof (be_range _ Hlb) as Hr.
  rewrite Z.shiftl_1_l.
  replace (2 ^ len - 1) with (Z.ones len) by (rewrite Z.ones_equiv; lia).
  rewrite Z.land_ones by lia.
  apply field_unique; rewrite Z2Nat.id by lia; [apply Z.mod_pos_bound; apply Z.pow_pos_nonneg; lia|].
  intros j Hj. rewrite Z.mod_pow2_bits_low by lia. rewrite Z.shiftr_spec by lia.
  assert (Hz : Zlen (b0 :: todo) = m) by (rewrite Zlen_cons; lia).
  rewrite be_bit by (try assumption; lia). rewrite Hz, E.
  rewrite <- (bit_mid pre (b0 :: todo) rest) by lia. f_equal. lia.
Qed.

(* outside: the loop runs into the end of the buffer *)
Lemma gb_loop_over w buf len o : forall fuel i p tmp,
  i = 8 * (p + 1) - o -> 0 <= p -> p < Zlen buf -> len + o > 8 * Zlen buf -> len - i <= Z.of_nat fuel ->
  gb_loop fuel w buf len i p tmp = UB UB_oob_read.
Proof.
  induction fuel as [|f IH]; intros i p tmp Hi Hp Hp2 Ho Hf; [lia|].
  cbn [gb_loop]. replace (i <? len) with true by lia. unfold aget.
  destruct ((0 <=? p + 1) && (p + 1 <? Zlen buf)) eqn:E; cbn [bind]; [|reflexivity].
  apply IH; lia.
Qed.

Lemma get_raw_over w buf pos len : 0 <= pos -> 1 <= len -> 8 * Zlen buf < pos + len ->
  get_raw w buf pos len = UB UB_oob_read.
Proof.
  intros Hp Hl H. unfold get_raw. rewrite !land_7.
  destruct (aget buf (pos / 8)) as [b|k] eqn:E; cbn [bind].
  - unfold aget in E. destruct ((0 <=? pos / 8) && (pos / 8 <? Zlen buf)) eqn:E2; [|discriminate].
    assert (HG : forall X, X = pos / 8 -> gb_loop (Z.to_nat len) w buf len (8 - pos mod 8) X b = UB UB_oob_read).
    { intros X HX. apply gb_loop_over with (o := pos).
      all: lia. }
    rewrite HG by reflexivity. reflexivity.
  - unfold aget in E. destruct ((0 <=? pos / 8) && (pos / 8 <? Zlen buf)); congruence.
Qed.

(* the widths chosen by TypeHelper are wide enough for every length the templates accept *)
Lemma width_ok len pos : 1 <= len <= 56 -> 0 <= pos ->
  8 * ((pos + len - 1) / 8 - pos / 8 + 1) <= type_width (len + 8).
Proof.
  intros H Hp. unfold type_width.
  destruct (Z.leb_spec (len + 8) 8); [lia|]. destruct (Z.leb_spec (len + 8) 16); [lia|].
  destruct (Z.leb_spec (len + 8) 32); lia.
Qed.
Lemma type_width_ge len : len <= 64 -> len <= type_width len.
Proof.
  intros H. unfold type_width.
  destruct (Z.leb_spec len 8); [lia|]. destruct (Z.leb_spec len 16); [lia|]. destruct (Z.leb_spec len 32); lia.
Qed.

Lemma uw_field r buf pos len : 0 <= len <= r -> uw r (field buf pos (Z.to_nat len)) = field buf pos (Z.to_nat len).
Proof.
  intros H. unfold uw. apply Z.mod_small. pose proof (field_range buf pos (Z.to_nat len)) as HF.
  rewrite Z2Nat.id in HF by lia. assert (2 ^ len <= 2 ^ r) by (apply Z.pow_le_mono_r; lia). lia.
Qed.

Lemma getBit_ok len buf pos : bytes_ok buf -> 0 <= pos -> 1 <= len <= 56 ->
  getBit len buf pos = if pos + len <=? 8 * Zlen buf then Ok (field buf pos (Z.to_nat len)) else UB UB_oob_read.
Proof.
  intros Hb Hp Hl. unfold getBit. destruct (Z.leb_spec (pos + len) (8 * Zlen buf)).
  - rewrite get_raw_ok by (try assumption; try lia; apply width_ok; assumption). cbn [bind].
    rewrite uw_field; [reflexivity|]. pose proof (type_width_ge len). lia.
  - rewrite get_raw_over by lia. reflexivity.
Qed.

Lemma getBitRt_ok len buf pos : bytes_ok buf -> 0 <= pos -> 1 <= len <= 32 ->
  getBitRt buf pos len = if pos + len <=? 8 * Zlen buf then Ok (field buf pos (Z.to_nat len)) else UB UB_oob_read.
Proof.
  intros Hb Hp Hl. unfold getBitRt. destruct (Z.leb_spec (pos + len) (8 * Zlen buf)).
  - rewrite get_raw_ok by (assumption || lia). cbn [bind]. rewrite uw_field by lia. reflexivity.
  - rewrite get_raw_over by lia. reflexivity.
Qed.

(* ------------------------------------------------ sign extension *)
Lemma land_pow2 x n : 0 <= n -> (Z.land x (Z.shiftl 1 n) =? 0) = negb (Z.testbit x n).
Proof.
  intros Hn. destruct (Z.testbit x n) eqn:E; cbn [negb].
  - apply Z.eqb_neq. intros H. assert (HB : Z.testbit (Z.land x (Z.shiftl 1 n)) n = true).
    { rewrite Z.land_spec, E, Z.shiftl_spec by lia. rewrite Z.sub_diag. reflexivity. }
    rewrite H, Z.bits_0 in HB. discriminate.
  - apply Z.eqb_eq. apply Z.bits_inj'. intros j Hj. rewrite Z.land_spec, Z.bits_0, Z.shiftl_1_l.
    destruct (Z.eq_dec j n) as [->|Hne]; [rewrite E; reflexivity|].
    rewrite Z.pow2_bits_false by lia. apply andb_false_r.
Qed.

Lemma lor_high w len x : 0 <= len <= w -> 0 <= x < 2 ^ len ->
  Z.lor x (uw w (Z.shiftl (2 ^ w - 1) len)) = x + (2 ^ w - 2 ^ len).
Proof.
  intros Hl Hx. unfold uw.
  assert (E : Z.shiftl (2 ^ w - 1) len mod 2 ^ w = Z.shiftl (2 ^ (w - len) - 1) len).
  { rewrite !Z.shiftl_mul_pow2 by lia. symmetry. apply Z.mod_unique_pos with (q := 2 ^ len - 1).
    - assert (Hp : 2 ^ (w - len) * 2 ^ len = 2 ^ w) by (rewrite <- Z.pow_add_r by lia; f_equal; lia).
      assert (0 < 2 ^ (w - len)) by (apply Z.pow_pos_nonneg; lia). assert (0 < 2 ^ len) by (apply Z.pow_pos_nonneg; lia). nia.
    - assert (Hp : 2 ^ (w - len) * 2 ^ len = 2 ^ w) by (rewrite <- Z.pow_add_r by lia; f_equal; lia). nia. }
  rewrite E, lor_low_shiftl by lia.
  assert (Hp : 2 ^ (w - len) * 2 ^ len = 2 ^ w) by (rewrite <- Z.pow_add_r by lia; f_equal; lia). nia.
Qed.

Lemma sgn_neg r x k : 1 <= r -> 0 <= k -> - 2 ^ (r - 1) <= x < 0 -> sgn r (x + k * 2 ^ r) = x.
Proof.
  intros Hr Hk Hx. unfold sgn. rewrite Z.mod_add by (apply Z.pow_nonzero; lia).
  assert (Hp : 2 ^ r = 2 * 2 ^ (r - 1)) by (rewrite <- Z.pow_succ_r by lia; f_equal; lia).
  assert (E : x mod 2 ^ r = x + 2 ^ r).
  { symmetry. apply Z.mod_unique_pos with (q := -1); lia. }
  rewrite E. replace (x + 2 ^ r <? 2 ^ (r - 1)) with false by lia. lia.
Qed.

Lemma pow_split a b : 0 <= a -> 0 <= b -> 2 ^ (a + b) = 2 ^ a * 2 ^ b.
Proof. intros. apply Z.pow_add_r; lia. Qed.

Lemma sign_extend_ok w r len buf pos : 1 <= len <= r -> r <= w ->
  sign_extend w r len (field buf pos (Z.to_nat len)) = field_signed buf pos (Z.to_nat len).
Proof.
  intros Hl Hw. unfold sign_extend, field_signed.
  pose proof (field_range buf pos (Z.to_nat len)) as HR. rewrite Z2Nat.id in HR by lia.
  rewrite land_pow2 by lia. rewrite field_bit by lia. rewrite Z2Nat.id by lia.
  replace (len - 1 <? len) with true by lia. cbn [andb].
  replace (pos + len - 1 - (len - 1)) with pos by lia.
  destruct (bit buf pos) eqn:E; cbn [negb]; [|reflexivity].
  rewrite lor_high by lia.
  assert (HB : Z.testbit (field buf pos (Z.to_nat len)) (len - 1) = true).
  { rewrite field_bit by lia. rewrite Z2Nat.id by lia. replace (len - 1 <? len) with true by lia.
    replace (pos + len - 1 - (len - 1)) with pos by lia. rewrite E. reflexivity. }
  assert (HG : 2 ^ (len - 1) <= field buf pos (Z.to_nat len)).
  { destruct (Z.lt_ge_cases (field buf pos (Z.to_nat len)) (2 ^ (len - 1))) as [HL|HL]; [|lia]. exfalso.
    destruct (Z.eq_dec (field buf pos (Z.to_nat len)) 0) as [E0|E0]; [rewrite E0, Z.bits_0 in HB; discriminate|].
    rewrite Z.bits_above_log2 in HB; [discriminate|lia|]. apply Z.log2_lt_pow2; lia. }
  remember (field buf pos (Z.to_nat len)) as f.
  assert (Hpl : 2 ^ len = 2 * 2 ^ (len - 1)) by (rewrite <- Z.pow_succ_r by lia; f_equal; lia).
  assert (Hpr : 2 ^ (len - 1) <= 2 ^ (r - 1)) by (apply Z.pow_le_mono_r; lia).
  assert (Hpw : 2 ^ w = 2 ^ (w - r) * 2 ^ r) by (rewrite <- Z.pow_add_r by lia; f_equal; lia).
  replace (f + (2 ^ w - 2 ^ len)) with ((f - 2 ^ len) + 2 ^ (w - r) * 2 ^ r) by lia.
  apply sgn_neg; lia || (apply Z.pow_nonneg; lia).
Qed.

Lemma getBitS_ok len buf pos : bytes_ok buf -> 0 <= pos -> 1 <= len <= 56 ->
  getBitS len buf pos = if pos + len <=? 8 * Zlen buf then Ok (field_signed buf pos (Z.to_nat len)) else UB UB_oob_read.
Proof.
  intros Hb Hp Hl. unfold getBitS. rewrite getBit_ok by assumption.
  destruct (pos + len <=? 8 * Zlen buf); cbn [bind]; [|reflexivity].
  rewrite sign_extend_ok; [reflexivity|pose proof (type_width_ge len); lia|].
  unfold type_width.
  destruct (Z.leb_spec len 8), (Z.leb_spec len 16), (Z.leb_spec len 32), (Z.leb_spec (len + 8) 8),
    (Z.leb_spec (len + 8) 16), (Z.leb_spec (len + 8) 32); lia.
Qed.

Lemma getBitRtS_ok len buf pos : bytes_ok buf -> 0 <= pos -> 1 <= len <= 32 ->
  getBitRtS buf pos len = if pos + len <=? 8 * Zlen buf then Ok (field_signed buf pos (Z.to_nat len)) else UB UB_oob_read.
Proof.
  intros Hb Hp Hl. unfold getBitRtS. rewrite getBitRt_ok by assumption.
  destruct (pos + len <=? 8 * Zlen buf); cbn [bind]; [|reflexivity].
  rewrite sign_extend_ok by lia. reflexivity.
Qed.

Lemma getBitGlo_ok len buf pos : bytes_ok buf -> 0 <= pos -> 2 <= len <= 54 ->
  getBitGlo len buf pos = if pos + len <=? 8 * Zlen buf then Ok (field_glo buf pos (Z.to_nat len)) else UB UB_oob_read.
Proof.
  intros Hb Hp Hl. unfold getBitGlo. rewrite !getBit_ok by (assumption || lia).
  destruct (Z.leb_spec (pos + len) (8 * Zlen buf)).
  - replace (pos + 1 + (len - 1) <=? 8 * Zlen buf) with true by lia.
    replace (pos + 1 <=? 8 * Zlen buf) with true by lia. cbn [bind].
    unfold field_glo. change (Z.to_nat 1) with 1%nat. cbn [field Z.of_nat]. rewrite Z.add_0_r.
    replace (Z.to_nat (len - 1)) with (Z.to_nat len - 1)%nat by lia.
    destruct (bit buf pos); reflexivity.
  - replace (pos + 1 + (len - 1) <=? 8 * Zlen buf) with false by lia. reflexivity.
Qed.

(* ------------------------------------------------ setBit *)
Lemma nth_set (l : list Z) (i : nat) v j : (i < length l)%nat ->
  nth j (firstn i l ++ v :: skipn (S i) l) 0 = if (j =? i)%nat then v else nth j l 0.
Proof.
  intros H. revert i j H. induction l as [|x l IH]; intros i j H; [cbn in H; lia|].
  destruct i as [|i]; destruct j as [|j]; cbn [firstn skipn app nth Nat.eqb]; try reflexivity.
  cbn [length] in H. apply IH. lia.
Qed.

Lemma aset_bit buf q v buf' : aset buf q v = Ok buf' -> forall k, 0 <= k ->
  bit buf' k = if k / 8 =? q then Z.testbit v (7 - k mod 8) else bit buf k.
Proof.
  unfold aset. destruct ((0 <=? q) && (q <? Zlen buf)) eqn:E; [|discriminate]. intros H k Hk.
  injection H as <-. unfold bit. unfold Zlen in E. rewrite nth_set by lia.
  destruct (Nat.eqb_spec (Z.to_nat (k / 8)) (Z.to_nat q)) as [E1|E1];
    destruct (Z.eqb_spec (k / 8) q) as [E2|E2]; try lia; reflexivity.
Qed.

Lemma aset_bytes buf q v buf' : aset buf q v = Ok buf' -> bytes_ok buf -> byte_ok v -> bytes_ok buf'.
Proof.
  unfold aset. destruct ((0 <=? q) && (q <? Zlen buf)) eqn:E; [|discriminate]. intros H Hb Hv.
  injection H as <-. apply bytes_ok_app. split; [apply bytes_ok_firstn; assumption|].
  constructor; [assumption|]. apply (bytes_ok_skipn (S (Z.to_nat q))). assumption.
Qed.

Lemma aset_in buf q v : 0 <= q < Zlen buf -> exists buf', aset buf q v = Ok buf'.
Proof. intros H. unfold aset. replace ((0 <=? q) && (q <? Zlen buf)) with true by lia. eauto. Qed.
Lemma aget_in' buf q : 0 <= q < Zlen buf -> aget buf q = Ok (nth (Z.to_nat q) buf 0).
Proof. intros H. unfold aget. replace ((0 <=? q) && (q <? Zlen buf)) with true by lia. reflexivity. Qed.

(* the bits the write mask keeps and the shifted data, for the byte t places before the last *)
Lemma new_byte_bit w len data k t b x :
  1 <= len <= w -> 0 <= k < 8 -> len + k <= w -> 0 <= t -> 0 <= x < 8 -> 8 * t + 8 <= w ->
  let mask := uw w (Z.shiftl 1 len - 1) in
  let m := uw w (Z.shiftl (uw w (Z.land data mask)) k) in
  let wm := uw w (Z.lnot (Z.shiftl mask k)) in
  Z.testbit (u8 (Z.lor (u8 (Z.land b (Z.shiftr wm (8 * t)))) (Z.shiftr m (8 * t)))) x
  = if (k <=? 8 * t + x) && (8 * t + x <? k + len) then Z.testbit data (8 * t + x - k) else Z.testbit b x.
Proof.
  intros Hl Hk Hkl Ht Hx Htw. cbv zeta.
  assert (Hmask : uw w (Z.shiftl 1 len - 1) = Z.ones len).
  { unfold uw. rewrite Z.shiftl_1_l, Z.ones_equiv. apply Z.mod_small.
    assert (2 ^ len <= 2 ^ w) by (apply Z.pow_le_mono_r; lia). assert (0 < 2 ^ len) by (apply Z.pow_pos_nonneg; lia). lia. }
  rewrite Hmask. unfold u8, uw.
  rewrite Z.mod_pow2_bits_low by lia. rewrite Z.lor_spec. rewrite Z.mod_pow2_bits_low by lia.
  rewrite Z.land_spec, !Z.shiftr_spec by lia.
  rewrite !Z.mod_pow2_bits_low by lia.
  rewrite Z.lnot_spec by lia.
  destruct (Z.leb_spec k (8 * t + x)) as [H1|H1]; cbn [andb].
  - rewrite !Z.shiftl_spec by lia. replace (x + 8 * t - k) with (8 * t + x - k) by lia.
    destruct (Z.ltb_spec (8 * t + x) (k + len)) as [H2|H2].
    + rewrite Z.ones_spec_low by lia. cbn [negb]. rewrite andb_false_r, orb_false_l.
      rewrite Z.mod_pow2_bits_low by lia. rewrite Z.land_spec, Z.ones_spec_low by lia. apply andb_true_r.
    + rewrite Z.ones_spec_high by lia. cbn [negb]. rewrite andb_true_r.
      rewrite Z.mod_pow2_bits_low by lia. rewrite Z.land_spec, Z.ones_spec_high by lia. rewrite andb_false_r. apply orb_false_r.
  - rewrite !Z.shiftl_spec_low by lia. cbn [negb]. rewrite andb_true_r. apply orb_false_r.
Qed.

Definition set_bits_spec (buf buf' : list Z) (pos len data : Z) : Prop :=
  Zlen buf' = Zlen buf /\ bytes_ok buf' /\
  forall k, 0 <= k ->
    bit buf' k = if (pos <=? k) && (k <? pos + len) then Z.testbit data (pos + len - 1 - k) else bit buf k.

Lemma sb_loop_ok w len data pos buf0 :
  let last := pos + len - 1 in
  let k := 7 - last mod 8 in
  let mask := uw w (Z.shiftl 1 len - 1) in
  let m0 := uw w (Z.shiftl (uw w (Z.land data mask)) k) in
  let wm0 := uw w (Z.lnot (Z.shiftl mask k)) in
  0 <= pos -> 1 <= len -> 8 * (last / 8 - pos / 8 + 1) <= w -> last / 8 < Zlen buf0 ->
  forall fuel t buf p i,
  0 <= t -> p = last / 8 - t -> pos / 8 <= p -> i = last mod 8 + 1 + 8 * t -> len - i <= Z.of_nat fuel ->
  Zlen buf = Zlen buf0 -> bytes_ok buf ->
  (forall q, 0 <= q -> bit buf q =
     if 8 * p <=? q then (if (pos <=? q) && (q <? pos + len) then Z.testbit data (last - q) else bit buf0 q) else bit buf0 q) ->
  exists buf', sb_loop fuel buf len i p (Z.shiftr m0 (8 * t)) (Z.shiftr wm0 (8 * t)) = Ok buf' /\
    set_bits_spec buf0 buf' pos len data.
Proof.
  intros last k mask m0 wm0 Hpos Hlen Hw Hlast.
  assert (Hkk : k = 7 - last mod 8) by reflexivity.
  assert (Hll : last = pos + len - 1) by reflexivity.
  pose proof (new_byte_bit w len data k) as HN. cbv zeta in HN. fold mask in HN. fold m0 wm0 in HN.
  clearbody last k m0 wm0. clear mask.
  induction fuel as [|f IH]; intros t buf p i Ht Hp Hpp Hi Hf Hz Hb HQ.
  - exists buf. split; [reflexivity|]. split; [exact Hz|]. split; [exact Hb|]. intros q Hq. rewrite HQ by lia.
    destruct (Z.leb_spec (8 * p) q) as [H1|H1]; [subst last; reflexivity|].
    replace (pos <=? q) with false by lia. reflexivity.
  - cbn [sb_loop]. destruct (Z.ltb_spec i len) as [H1|H1].
    2:{ exists buf. split; [reflexivity|]. split; [exact Hz|]. split; [exact Hb|]. intros q Hq. rewrite HQ by lia.
        destruct (Z.leb_spec (8 * p) q) as [H2|H2]; [subst last; reflexivity|].
        replace (pos <=? q) with false by lia. reflexivity. }
    rewrite !Z.shiftr_shiftr by lia. replace (8 * t + 8) with (8 * (t + 1)) by lia.
    rewrite aget_in' by lia. cbn [bind].
    remember (nth (Z.to_nat (p - 1)) buf 0) as b eqn:Hbb.
    remember (u8 (Z.lor (u8 (Z.land b (Z.shiftr wm0 (8 * (t + 1))))) (Z.shiftr m0 (8 * (t + 1))))) as v eqn:Hv.
    destruct (aset_in buf (p - 1) v) as [buf1 E1]; [lia|]. rewrite E1. cbn [bind].
    apply IH; try lia.
    + unfold Zlen in *. rewrite (aset_ok_length _ _ _ _ E1). exact Hz.
    + eapply aset_bytes; [exact E1|exact Hb|subst v; apply u8_range].
    + intros q Hq. rewrite (aset_bit _ _ _ _ E1) by lia.
      destruct (Z.eqb_spec (q / 8) (p - 1)) as [Hq1|Hq1].
      * replace (8 * (p - 1) <=? q) with true by lia. subst v.
        rewrite HN by lia.
        replace (8 * (t + 1) + (7 - q mod 8) - k) with (last - q) by lia.
        replace ((k <=? 8 * (t + 1) + (7 - q mod 8)) && (8 * (t + 1) + (7 - q mod 8) <? k + len)) with ((pos <=? q) && (q <? pos + len)) by lia.
        destruct ((pos <=? q) && (q <? pos + len)); [reflexivity|].
        subst b. specialize (HQ q Hq). replace (8 * p <=? q) with false in HQ by lia. rewrite <- HQ.
        unfold bit. rewrite <- Hq1. reflexivity.
      * rewrite HQ by lia. destruct (Z.leb_spec (8 * p) q) as [H2|H2].
        -- replace (8 * (p - 1) <=? q) with true by lia. reflexivity.
        -- replace (8 * (p - 1) <=? q) with false by lia. reflexivity.
Qed.

Lemma set_raw_ok w buf pos data len :
  bytes_ok buf -> 0 <= pos -> 1 <= len -> 8 * ((pos + len - 1) / 8 - pos / 8 + 1) <= w ->
  pos + len <= 8 * Zlen buf ->
  exists buf', set_raw w buf pos data len = Ok buf' /\ set_bits_spec buf buf' pos len data.
Proof.
  intros Hb Hp Hl Hw Hin. unfold set_raw. rewrite !land_7. rewrite aget_in' by lia. cbn [bind].
  remember (nth (Z.to_nat ((pos + len - 1) / 8)) buf 0) as b eqn:Hbb.
  pose proof (new_byte_bit w len data (7 - (pos + len - 1) mod 8) 0 b) as HN.
  pose proof (sb_loop_ok w len data pos buf) as HL. cbv zeta in HN, HL.
  remember (uw w (Z.shiftl (uw w (Z.land data (uw w (Z.shiftl 1 len - 1)))) (7 - (pos + len - 1) mod 8))) as m0 eqn:Hm0.
  remember (uw w (Z.lnot (Z.shiftl (uw w (Z.shiftl 1 len - 1)) (7 - (pos + len - 1) mod 8)))) as wm0 eqn:Hwm0.
  change (8 * 0) with 0 in HN. rewrite !Z.shiftr_0_r in HN.
  remember (u8 (Z.lor (u8 (Z.land b wm0)) m0)) as v eqn:Hv.
  destruct (aset_in buf ((pos + len - 1) / 8) v) as [buf1 E1]; [lia|]. rewrite E1. cbn [bind].
  specialize (HL Hp Hl Hw ltac:(lia) (Z.to_nat len) 0 buf1 ((pos + len - 1) / 8) ((pos + len - 1) mod 8 + 1)).
  rewrite !Z.shiftr_0_r in HL. apply HL; try lia.
  - unfold Zlen. rewrite (aset_ok_length _ _ _ _ E1). reflexivity.
  - eapply aset_bytes; [exact E1|exact Hb|subst v; apply u8_range].
  - intros q Hq. rewrite (aset_bit _ _ _ _ E1) by lia.
    destruct (Z.eqb_spec (q / 8) ((pos + len - 1) / 8)) as [Hq1|Hq1].
    + rewrite HN by lia. replace (8 * ((pos + len - 1) / 8) <=? q) with true by lia.
      replace (0 + (7 - q mod 8) - (7 - (pos + len - 1) mod 8)) with (pos + len - 1 - q) by lia.
      replace ((7 - (pos + len - 1) mod 8 <=? 0 + (7 - q mod 8)) && (0 + (7 - q mod 8) <? 7 - (pos + len - 1) mod 8 + len)) with ((pos <=? q) && (q <? pos + len)) by lia.
      destruct ((pos <=? q) && (q <? pos + len)); [reflexivity|].
      subst b. unfold bit. rewrite <- Hq1. reflexivity.
    + destruct (Z.leb_spec (8 * ((pos + len - 1) / 8)) q) as [H2|H2]; [|reflexivity].
      replace (q <? pos + len) with false by lia. rewrite andb_false_r. reflexivity.
Qed.

Lemma set_raw_over w buf pos data len : 0 <= pos -> 1 <= len -> 8 * Zlen buf < pos + len ->
  set_raw w buf pos data len = UB UB_oob_read.
Proof.
  intros Hp Hl H. unfold set_raw. unfold aget at 1.
  replace ((0 <=? (pos + len - 1) / 8) && ((pos + len - 1) / 8 <? Zlen buf)) with false by lia. reflexivity.
Qed.

(* consequences stated with field *)
Lemma field_mod_bits buf pos n x :
  (forall j, 0 <= j < Z.of_nat n -> bit buf (pos + Z.of_nat n - 1 - j) = Z.testbit x j) -> field buf pos n = x mod 2 ^ Z.of_nat n.
Proof.
  intros H. symmetry. apply field_unique; [apply Z.mod_pos_bound; apply Z.pow_pos_nonneg; lia|].
  intros j Hj. rewrite Z.mod_pow2_bits_low by lia. symmetry. apply H. exact Hj.
Qed.
Lemma field_ext a b pos n : (forall k, pos <= k < pos + Z.of_nat n -> bit a k = bit b k) -> field a pos n = field b pos n.
Proof.
  induction n as [|n IH]; intros H; [reflexivity|]. cbn [field]. rewrite IH by (intros; apply H; lia).
  rewrite H by lia. reflexivity.
Qed.

Lemma set_spec_same buf buf' pos len data : 0 <= pos -> 1 <= len ->
  set_bits_spec buf buf' pos len data -> field buf' pos (Z.to_nat len) = data mod 2 ^ len.
Proof.
  intros Hp Hl (_ & _ & H). rewrite <- (Z2Nat.id len) at 2 by lia. apply field_mod_bits.
  rewrite Z2Nat.id by lia. intros j Hj. rewrite H by lia.
  replace ((pos <=? pos + len - 1 - j) && (pos + len - 1 - j <? pos + len)) with true by lia. f_equal. lia.
Qed.
Lemma set_spec_other buf buf' pos len data p2 n2 : 0 <= p2 ->
  set_bits_spec buf buf' pos len data -> (p2 + Z.of_nat n2 <= pos \/ pos + len <= p2) ->
  field buf' p2 n2 = field buf p2 n2.
Proof.
  intros Hp (_ & _ & H) Hd. apply field_ext. intros k Hk. rewrite H by lia.
  replace ((pos <=? k) && (k <? pos + len)) with false by lia. reflexivity.
Qed.

Lemma type_width_7 len : 1 <= len <= 56 -> len + 7 <= type_width (len + 8).
Proof. intros H. pose proof (type_width_ge (len + 8)). lia. Qed.

Lemma setBit_ok len buf pos data : bytes_ok buf -> 0 <= pos -> 1 <= len <= 56 -> pos + len <= 8 * Zlen buf ->
  exists buf', setBit len buf pos data = Ok buf' /\ set_bits_spec buf buf' pos len (u32 data).
Proof.
  intros Hb Hp Hl Hin. unfold setBit. apply set_raw_ok; try assumption; try lia.
  apply width_ok; assumption.
Qed.
Lemma setBitRt_ok len buf pos data : bytes_ok buf -> 0 <= pos -> 1 <= len <= 56 -> pos + len <= 8 * Zlen buf ->
  exists buf', setBitRt buf pos data len = Ok buf' /\ set_bits_spec buf buf' pos len (u32 data).
Proof. intros Hb Hp Hl Hin. unfold setBitRt. apply set_raw_ok; try assumption; lia. Qed.

Lemma setBit_conseq len buf buf' pos data :
  bytes_ok buf -> 0 <= pos -> 1 <= len <= 56 -> pos + len <= 8 * Zlen buf ->
  set_bits_spec buf buf' pos len (u32 data) ->
  Zlen buf' = Zlen buf /\ bytes_ok buf' /\
    (forall k, 0 <= k -> bit buf' k =
       if (pos <=? k) && (k <? pos + len) then Z.testbit (data mod 2 ^ 32) (pos + len - 1 - k) else bit buf k) /\
    (0 <= data < 2 ^ 32 -> getBit len buf' pos = Ok (data mod 2 ^ len)) /\
    (forall len2 pos2, 0 <= pos2 -> 1 <= len2 <= 56 -> pos2 + len2 <= pos \/ pos + len <= pos2 ->
       getBit len2 buf' pos2 = getBit len2 buf pos2).
Proof.
  intros Hb Hp Hl Hin HS. pose proof HS as (Hz & Hb' & HB).
  split; [exact Hz|]. split; [exact Hb'|]. split; [exact HB|]. split.
  - intros Hd. rewrite getBit_ok by assumption. rewrite Hz. replace (pos + len <=? 8 * Zlen buf) with true by lia.
    rewrite (set_spec_same buf buf' pos len (u32 data)) by (assumption || lia).
    unfold u32. rewrite (Z.mod_small data) by exact Hd. reflexivity.
  - intros len2 pos2 Hp2 Hl2 Hd. rewrite !getBit_ok by assumption. rewrite Hz.
    rewrite (set_spec_other buf buf' pos len (u32 data)) by (try assumption; rewrite ?Z2Nat.id; lia). reflexivity.
Qed.
