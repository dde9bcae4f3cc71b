(* Proofs about crc24 (C24, C25). *)
From Verif Require Import Base ZBits BitSpec BitModel BitProofs CrcSpec CrcModel.

Notation P := crc24q_poly.
Lemma P_val : P = 0x1864CFB. Proof. reflexivity. Qed.

(* ------------------------------------------------ multiples of P, as an inductive set *)
Inductive mult : Z -> Prop :=
| mult_0 : mult 0
| mult_2 x : mult x -> mult (2 * x)
| mult_P x : mult x -> mult (Z.lxor (2 * x) P).

Lemma pmul_nonneg q : 0 <= pmul_pos q P.
Proof.
  induction q as [q IH|q IH|]; cbn [pmul_pos]; [|lia|vm_compute; discriminate].
  apply Z.lxor_nonneg. split; intros _; [vm_compute; discriminate|lia].
Qed.
Lemma mult_pos q : mult (pmul_pos q P).
Proof.
  induction q as [q IH|q IH|]; cbn [pmul_pos]; [apply mult_P; exact IH|apply mult_2; exact IH|].
  exact (mult_P 0 mult_0).
Qed.
Lemma mult_iff x : pdivides P x <-> mult x.
Proof.
  split.
  - intros (q & Hq & ->). destruct q as [|q|q]; [constructor|apply mult_pos|lia].
  - induction 1 as [|x H (q & Hq & ->)|x H (q & Hq & ->)].
    + exists 0. split; [lia|reflexivity].
    + exists (2 * q). split; [lia|]. destruct q as [|q|q]; [reflexivity|reflexivity|lia].
    + exists (2 * q + 1). split; [lia|]. destruct q as [|q|q]; [reflexivity|reflexivity|lia].
Qed.
Lemma mult_nonneg x : mult x -> 0 <= x.
Proof.
  induction 1; [lia|lia|]. apply Z.lxor_nonneg. split; intros; [vm_compute; discriminate|lia].
Qed.

Lemma lxor_2 a b : Z.lxor (2 * a) (2 * b) = 2 * Z.lxor a b.
Proof.
  rewrite !(Z.mul_comm 2). change 2 with (2 ^ 1). rewrite <- !Z.shiftl_mul_pow2 by lia. symmetry. apply Z.shiftl_lxor.
Qed.

Lemma mult_lxor x y : mult x -> mult y -> mult (Z.lxor x y).
Proof.
  intros Hx. revert y. induction Hx as [|x Hx IH|x Hx IH]; intros y Hy.
  - rewrite Z.lxor_0_l. exact Hy.
  - destruct Hy as [|y Hy|y Hy].
    + rewrite Z.lxor_0_r. apply mult_2; exact Hx.
    + rewrite lxor_2. apply mult_2. apply IH; exact Hy.
    + rewrite <- Z.lxor_assoc, lxor_2. apply mult_P. apply IH; exact Hy.
  - destruct Hy as [|y Hy|y Hy].
    + rewrite Z.lxor_0_r. apply mult_P; exact Hx.
    + rewrite Z.lxor_assoc, (Z.lxor_comm P), <- Z.lxor_assoc, lxor_2. apply mult_P. apply IH; exact Hy.
    + replace (Z.lxor (Z.lxor (2 * x) P) (Z.lxor (2 * y) P)) with (2 * Z.lxor x y).
      * apply mult_2. apply IH; exact Hy.
      * rewrite <- lxor_2. rewrite Z.lxor_assoc, (Z.lxor_comm P), Z.lxor_assoc, Z.lxor_nilpotent, Z.lxor_0_r. reflexivity.
Qed.

Lemma mult_shift x n : 0 <= n -> mult x -> mult (x * 2 ^ n).
Proof.
  intros Hn H. revert n Hn. apply natlike_ind; [rewrite Z.mul_1_r; exact H|].
  intros n Hn IH. rewrite Z.pow_succ_r by lia. replace (x * (2 * 2 ^ n)) with (2 * (x * 2 ^ n)) by lia.
  apply mult_2. exact IH.
Qed.

Lemma mult_half x : mult (2 * x) -> mult x.
Proof.
  intros H. remember (2 * x) as z eqn:E. destruct H as [|y Hy|y Hy].
  - replace x with 0 by lia. constructor.
  - replace x with y by lia. exact Hy.
  - exfalso. assert (HB : Z.testbit (2 * x) 0 = Z.testbit (Z.lxor (2 * y) P) 0) by (rewrite <- E; reflexivity).
    rewrite Z.lxor_spec in HB. rewrite !Z.testbit_even_0 in HB. vm_compute in HB. discriminate.
Qed.
Lemma mult_unshift n : 0 <= n -> forall x, mult (x * 2 ^ n) -> mult x.
Proof.
  intros Hn. revert n Hn. apply (natlike_ind (fun n => forall x, mult (x * 2 ^ n) -> mult x)); [intros x; rewrite Z.mul_1_r; auto|].
  intros n Hn IH x H. rewrite Z.pow_succ_r in H by lia. apply IH. apply mult_half.
  replace (2 * (x * 2 ^ n)) with (x * (2 * 2 ^ n)) by lia. exact H.
Qed.

(* a non-zero multiple has degree at least 24 *)
Lemma mult_deg x : mult x -> x <> 0 -> 24 <= Z.log2 x.
Proof.
  induction 1 as [|x H IH|x H IH]; intros Hne; [lia| |].
  - pose proof (mult_nonneg x H). rewrite Z.log2_double by lia. assert (x <> 0) by lia. specialize (IH H1). lia.
  - destruct (Z.eq_dec x 0) as [->|Hx]; [vm_compute; discriminate|].
    pose proof (mult_nonneg x H) as Hp. specialize (IH Hx).
    assert (HL : Z.log2 (2 * x) = Z.succ (Z.log2 x)) by (apply Z.log2_double; lia).
    assert (HB : Z.testbit (Z.lxor (2 * x) P) (Z.log2 (2 * x)) = true).
    { rewrite Z.lxor_spec, Z.bit_log2 by lia. rewrite (Z.bits_above_log2 P); [reflexivity|vm_compute; discriminate|].
      change (Z.log2 P) with 24. lia. }
    destruct (Z.lt_ge_cases (Z.log2 (Z.lxor (2 * x) P)) (Z.log2 (2 * x))) as [HH|HH]; [|lia].
    rewrite Z.bits_above_log2 in HB; [discriminate| |exact HH].
    apply Z.lxor_nonneg. split; intros; [vm_compute; discriminate|lia].
Qed.
Lemma mult_small x : mult x -> 0 <= x < 2 ^ 24 -> x = 0.
Proof.
  intros H Hx. destruct (Z.eq_dec x 0) as [|Hne]; [assumption|]. pose proof (mult_deg x H Hne) as HD.
  assert (Z.log2 x < 24) by (apply Z.log2_lt_pow2; lia). lia.
Qed.

(* ------------------------------------------------ the table *)
Fixpoint quot (n : nat) (x q : Z) : Z * Z :=       (* long division by P from degree 24+n-1 down *)
  match n with
  | O => (x, q)
  | S m => if Z.testbit x (24 + Z.of_nat m) then quot m (Z.lxor x (P * 2 ^ Z.of_nat m)) (2 * q + 1) else quot m x (2 * q)
  end.
Definition table_ok : bool :=
  forallb (fun i => let i := Z.of_nat i in
    let t := nth (Z.to_nat i) CRC_TABLE 0 in
    (0 <=? t) && (t <? 2 ^ 24) && (Z.lxor (i * 2 ^ 24) t =? pmul (snd (quot 8 (i * 2 ^ 24) 0)) P)) (seq 0 256).
Lemma table_checked : table_ok = true.
Proof. vm_compute. reflexivity. Qed.

Lemma table_entry i : 0 <= i < 256 -> exists t,
  aget CRC_TABLE i = Ok t /\ 0 <= t < 2 ^ 24 /\ mult (Z.lxor (i * 2 ^ 24) t).
Proof.
  intros Hi. pose proof table_checked as H. unfold table_ok in H. rewrite forallb_forall in H.
  specialize (H (Z.to_nat i)). cbv zeta in H. rewrite Z2Nat.id in H by lia.
  assert (HI : In (Z.to_nat i) (seq 0 256)) by (apply in_seq; lia). specialize (H HI).
  exists (nth (Z.to_nat i) CRC_TABLE 0). split.
  - unfold aget. change (Zlen CRC_TABLE) with 256. replace ((0 <=? i) && (i <? 256)) with true by lia. reflexivity.
  - apply andb_true_iff in H. destruct H as [H1 H2]. split; [lia|]. apply mult_iff.
    apply Z.eqb_eq in H2. exists (snd (quot 8 (i * 2 ^ 24) 0)). split; [|exact H2].
    clear. generalize (i * 2 ^ 24) as x. assert (HG : forall n x q, 0 <= q -> 0 <= snd (quot n x q)).
    { induction n as [|n IH]; intros x q Hq; cbn [quot]; [exact Hq|].
      destruct (Z.testbit x (24 + Z.of_nat n)); apply IH; lia. }
    intros x. apply HG. lia.
Qed.

Lemma lxor_range n a b : 0 <= n -> 0 <= a < 2 ^ n -> 0 <= b < 2 ^ n -> 0 <= Z.lxor a b < 2 ^ n.
Proof.
  intros Hn Ha Hb. assert (H0 : 0 <= Z.lxor a b) by (apply Z.lxor_nonneg; lia). split; [exact H0|].
  destruct (Z.eq_dec (Z.lxor a b) 0) as [->|Hne]; [apply Z.pow_pos_nonneg; lia|].
  apply Z.log2_lt_pow2; [lia|]. pose proof (Z.log2_lxor a b ltac:(lia) ltac:(lia)) as HL.
  assert (forall x, 0 <= x < 2 ^ n -> 0 < n -> Z.log2 x < n).
  { intros x Hx Hn0. destruct (Z.eq_dec x 0) as [->|]; [cbn; lia|]. apply Z.log2_lt_pow2; lia. }
  destruct (Z.eq_dec n 0) as [->|]; [|pose proof (H a Ha); pose proof (H b Hb); lia].
  change (2 ^ 0) with 1 in *. assert (a = 0) by lia. assert (b = 0) by lia. subst. cbn in Hne. lia.
Qed.

Lemma poly_snoc l x : poly_of (l ++ [x]) = poly_of l * 256 + x.
Proof. unfold poly_of. rewrite fold_left_app. reflexivity. Qed.
Lemma poly_nonneg l : bytes_ok l -> 0 <= poly_of l.
Proof. intros H. apply (be_range l H). Qed.

Lemma testbit_high n x j : 0 <= n <= j -> 0 <= x < 2 ^ n -> Z.testbit x j = false.
Proof.
  intros Hn Hx. destruct (Z.eq_dec x 0) as [->|Hne]; [apply Z.bits_0|]. apply Z.bits_above_log2; [lia|].
  destruct (Z.eq_dec n 0) as [->|]; [change (2 ^ 0) with 1 in Hx; lia|].
  assert (Z.log2 x < n) by (apply Z.log2_lt_pow2; lia). lia.
Qed.
Lemma cat_lxor n a x : 0 <= n -> 0 <= x < 2 ^ n -> a * 2 ^ n + x = Z.lxor (a * 2 ^ n) x.
Proof.
  intros Hn Hx. rewrite Z.add_nocarry_lxor; [reflexivity|].
  apply Z.bits_inj'. intros j Hj. rewrite Z.land_spec, Z.bits_0. rewrite <- Z.shiftl_mul_pow2 by lia.
  destruct (Z.ltb_spec j n); [rewrite Z.shiftl_spec_low by lia; reflexivity|].
  rewrite (testbit_high n x j) by lia. apply andb_false_r.
Qed.
Lemma cat8_lxor a x : byte_ok x -> a * 256 + x = Z.lxor (a * 256) x.
Proof. intros Hx. change 256 with (2 ^ 8). apply cat_lxor; [lia|exact Hx]. Qed.

Lemma shift_split c : 0 <= c < 2 ^ 24 ->
  c * 256 = Z.lxor (Z.shiftr c 16 * 2 ^ 24) (Z.land (u32 (Z.shiftl c 8)) 0xFFFFFF).
Proof.
  intros Hc. change 0xFFFFFF with (Z.ones 24). rewrite Z.land_ones by lia. unfold u32.
  rewrite Z.shiftl_mul_pow2, Z.shiftr_div_pow2 by lia. change (2 ^ 8) with 256.
  change (2 ^ 32) with 4294967296. change (2 ^ 16) with 65536. change (2 ^ 24) with 16777216 in *.
  rewrite (Z.mod_small (c * 256)) by lia. change 16777216 with (2 ^ 24). rewrite <- cat_lxor; [|lia|apply Z.mod_pos_bound; lia].
  change (2 ^ 24) with 16777216. lia.
Qed.

Lemma mul_lxor_pow a b n : 0 <= n -> Z.lxor a b * 2 ^ n = Z.lxor (a * 2 ^ n) (b * 2 ^ n).
Proof. intros Hn. rewrite <- !Z.shiftl_mul_pow2 by lia. apply Z.shiftl_lxor. Qed.

Lemma aget_app_at (done todo rest : list Z) x : aget (done ++ x :: todo ++ rest) (Zlen done) = Ok x.
Proof.
  unfold aget. rewrite Zlen_app, Zlen_cons. pose proof (Zlen_nonneg (todo ++ rest)). pose proof (Zlen_nonneg done).
  replace ((0 <=? Zlen done) && (Zlen done <? Zlen done + (1 + Zlen (todo ++ rest)))) with true by lia.
  unfold Zlen. rewrite Nat2Z.id, app_nth2 by lia. rewrite Nat.sub_diag. reflexivity.
Qed.

Lemma crc_step_alg M c b t : 0 <= M -> 0 <= c < 2 ^ 24 -> byte_ok b ->
  Z.lxor ((M * 256 + b) * 2 ^ 24) (Z.lxor (Z.land (u32 (Z.shiftl c 8)) 0xFFFFFF) t)
  = Z.lxor (Z.lxor (M * 2 ^ 24) c * 2 ^ 8) (Z.lxor (Z.lxor (Z.shiftr c 16) b * 2 ^ 24) t).
Proof.
  intros HM Hc Hb. rewrite cat8_lxor by assumption. rewrite !mul_lxor_pow by lia.
  change (2 ^ 8) with 256. rewrite (shift_split c Hc).
  replace (M * 2 ^ 24 * 256) with (M * 256 * 2 ^ 24) by lia.
  remember (M * 256 * 2 ^ 24) as A. remember (b * 2 ^ 24) as B. remember (Z.shiftr c 16 * 2 ^ 24) as C.
  remember (Z.land (u32 (Z.shiftl c 8)) 0xFFFFFF) as D.
  apply Z.bits_inj'. intros j Hj. rewrite !Z.lxor_spec.
  destruct (Z.testbit A j), (Z.testbit B j), (Z.testbit C j), (Z.testbit D j), (Z.testbit t j); reflexivity.
Qed.

Lemma crc_loop_ok todo : forall done rest c,
  bytes_ok done -> bytes_ok todo -> 0 <= c < 2 ^ 24 -> mult (Z.lxor (poly_of done * 2 ^ 24) c) ->
  exists r, crc_loop (length todo) (done ++ todo ++ rest) (Zlen done) c = Ok r /\
    0 <= r < 2 ^ 24 /\ mult (Z.lxor (poly_of (done ++ todo) * 2 ^ 24) r).
Proof.
  induction todo as [|b todo IH]; intros done rest c Hd Ht Hc HM.
  - exists c. rewrite app_nil_r. auto.
  - apply Forall_cons_iff in Ht. destruct Ht as [Hb Ht]. cbn [length crc_loop app]. rewrite aget_app_at. cbn [bind].
    assert (Hidx : 0 <= Z.lxor (Z.shiftr c 16) b < 256).
    { change 256 with (2 ^ 8). apply lxor_range; [lia| |exact Hb].
      rewrite Z.shiftr_div_pow2 by lia. change (2 ^ 16) with 65536. change (2 ^ 8) with 256. change (2 ^ 24) with 16777216 in Hc. lia. }
    destruct (table_entry _ Hidx) as (t & Et & Ht2 & Hmt). rewrite Et. cbn [bind].
    assert (Hsnoc : done ++ b :: todo = (done ++ [b]) ++ todo) by (rewrite <- app_assoc; reflexivity).
    assert (Hd' : bytes_ok (done ++ [b])) by (apply bytes_ok_app; split; [assumption|constructor; [assumption|constructor]]).
    specialize (IH (done ++ [b]) rest (Z.lxor (Z.land (u32 (Z.shiftl c 8)) 0xFFFFFF) t) Hd' Ht).
    rewrite <- app_assoc in IH. cbn [app] in IH. rewrite Zlen_app in IH. change (Zlen [b]) with 1 in IH.
    rewrite Hsnoc. replace ((done ++ [b]) ++ todo) with ((done ++ [b]) ++ todo) by reflexivity.
    rewrite <- (app_assoc done [b] todo) in *. cbn [app] in *. apply IH.
    + apply lxor_range; [lia| |exact Ht2]. change 0xFFFFFF with (Z.ones 24). rewrite Z.land_ones by lia.
      apply Z.mod_pos_bound. lia.
    + rewrite poly_snoc. rewrite crc_step_alg by (assumption || (apply poly_nonneg; assumption)).
      apply mult_lxor; [apply mult_shift; [lia|exact HM]|exact Hmt].
Qed.

Lemma crc24_spec m rest : bytes_ok m -> exists r, crc24 (m ++ rest) (Zlen m) = Ok r /\ is_crc24q m r.
Proof.
  intros Hm. destruct (crc_loop_ok m [] rest 0) as (r & E & Hr & HM); [constructor|exact Hm|lia|constructor|].
  exists r. unfold crc24, Zlen. rewrite Nat2Z.id. split; [exact E|]. split; [exact Hr|]. apply mult_iff. exact HM.
Qed.

Lemma crc24q_unique m r1 r2 : is_crc24q m r1 -> is_crc24q m r2 -> r1 = r2.
Proof.
  intros [H1 D1] [H2 D2]. apply mult_iff in D1. apply mult_iff in D2. pose proof (mult_lxor _ _ D1 D2) as HX.
  replace (Z.lxor (Z.lxor (poly_of m * 2 ^ 24) r1) (Z.lxor (poly_of m * 2 ^ 24) r2)) with (Z.lxor r1 r2) in HX.
  - apply mult_small in HX; [|apply lxor_range; lia]. apply Z.lxor_eq. exact HX.
  - apply Z.bits_inj'. intros j Hj. rewrite !Z.lxor_spec.
    destruct (Z.testbit (poly_of m * 2 ^ 24) j), (Z.testbit r1 j), (Z.testbit r2 j); reflexivity.
Qed.

Lemma crc24_iff m rest r : bytes_ok m -> (crc24 (m ++ rest) (Zlen m) = Ok r <-> is_crc24q m r).
Proof.
  intros Hm. destruct (crc24_spec m rest Hm) as (r' & E & HC). rewrite E. split.
  - intros H. injection H as <-. exact HC.
  - intros H. f_equal. eapply crc24q_unique; eassumption.
Qed.
