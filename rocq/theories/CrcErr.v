(* Error detection of CRC-24Q (C25). *)
From Coq Require Import FinFun.
From Verif Require Import Base ZBits BitSpec BitModel BitProofs CrcSpec CrcModel CrcProofs.

(* positions at which two buffers differ *)
Definition errors (l l' : list Z) : list Z :=
  filter (fun k => xorb (bit l k) (bit l' k)) (map Z.of_nat (seq 0 (8 * length l))).

(* what the receiver does with a block: recompute over all but the last three bytes and compare *)
Definition block_check (l : list Z) : Prop :=
  exists r, crc24 l (Zlen l - 3) = Ok r /\ poly_of (skipn (length l - 3) l) = r.

(* ------------------------------------------------ a block is valid iff it is a multiple of the generator *)
Lemma poly_app m c : bytes_ok c -> poly_of (m ++ c) = poly_of m * 2 ^ (8 * Zlen c) + poly_of c.
Proof.
  induction c as [|x c IH] using rev_ind; intros Hc.
  - rewrite app_nil_r. change (Zlen []) with 0. change (poly_of []) with 0. lia.
  - apply bytes_ok_app in Hc. destruct Hc as [Hc _]. rewrite app_assoc, !poly_snoc, IH, Zlen_app by exact Hc.
    change (Zlen [x]) with 1. replace (8 * (Zlen c + 1)) with (8 * Zlen c + 8) by lia.
    pose proof (Zlen_nonneg c). rewrite Z.pow_add_r by lia. change (2 ^ 8) with 256. lia.
Qed.

Lemma crc24_mult m c : bytes_ok c -> length c = 3%nat -> (is_crc24q m (poly_of c) <-> mult (poly_of (m ++ c))).
Proof.
  intros Hc Hl. assert (Hr : 0 <= poly_of c < 2 ^ 24).
  { pose proof (be_range c Hc) as H. unfold Zlen in H. rewrite Hl in H. exact H. }
  rewrite poly_app by exact Hc. unfold Zlen. rewrite Hl. change (8 * Z.of_nat 3) with 24.
  rewrite cat_lxor by (try lia; exact Hr). unfold is_crc24q. rewrite mult_iff. tauto.
Qed.

Lemma block_ok_iff l : bytes_ok l -> (3 <= length l)%nat -> (block_ok l <-> mult (poly_of l)).
Proof.
  intros Hl H3. split.
  - intros (m & c & -> & Hc & HC). apply bytes_ok_app in Hl. apply crc24_mult; tauto.
  - intros H. exists (firstn (length l - 3) l), (skipn (length l - 3) l).
    assert (Hs : length (skipn (length l - 3) l) = 3%nat) by (rewrite skipn_length; lia).
    split; [symmetry; apply firstn_skipn|]. split; [exact Hs|].
    apply crc24_mult; [apply bytes_ok_skipn; exact Hl|exact Hs|]. rewrite firstn_skipn. exact H.
Qed.

Lemma block_check_iff l : bytes_ok l -> (3 <= length l)%nat -> (block_check l <-> block_ok l).
Proof.
  intros Hl H3. unfold block_check.
  assert (Hs : length (skipn (length l - 3) l) = 3%nat) by (rewrite skipn_length; lia).
  assert (Hf : Zlen l - 3 = Zlen (firstn (length l - 3) l)) by (unfold Zlen; rewrite firstn_length; lia).
  pose proof (bytes_ok_firstn (length l - 3) l Hl) as Hbf.
  split.
  - intros (r & E & Hr). exists (firstn (length l - 3) l), (skipn (length l - 3) l).
    split; [symmetry; apply firstn_skipn|]. split; [exact Hs|]. rewrite Hr.
    rewrite <- (firstn_skipn (length l - 3) l) in E at 1. rewrite Hf in E.
    apply (crc24_iff _ _ _ Hbf) in E. exact E.
  - intros HB. apply (block_ok_iff l Hl H3) in HB. exists (poly_of (skipn (length l - 3) l)). split; [|reflexivity].
    rewrite <- (firstn_skipn (length l - 3) l) at 1. rewrite Hf. apply (crc24_iff _ _ _ Hbf).
    apply crc24_mult; [apply bytes_ok_skipn; exact Hl|exact Hs|]. rewrite firstn_skipn. exact HB.
Qed.

(* ------------------------------------------------ the error polynomial *)
Definition epoly (l l' : list Z) : Z := Z.lxor (poly_of l) (poly_of l').

Lemma epoly_mult l l' : mult (poly_of l) -> mult (poly_of l') -> mult (epoly l l').
Proof. apply mult_lxor. Qed.

Lemma epoly_range l l' : bytes_ok l -> bytes_ok l' -> length l' = length l -> 0 <= epoly l l' < 2 ^ (8 * Zlen l).
Proof.
  intros H1 H2 HL. pose proof (be_range l H1). pose proof (be_range l' H2) as H'. pose proof (Zlen_nonneg l).
  replace (Zlen l') with (Zlen l) in H' by (unfold Zlen; congruence).
  apply lxor_range; [lia|assumption..].
Qed.

Lemma epoly_bit l l' j : bytes_ok l -> bytes_ok l' -> length l' = length l -> 0 <= j < 8 * Zlen l ->
  Z.testbit (epoly l l') j = xorb (bit l (8 * Zlen l - 1 - j)) (bit l' (8 * Zlen l - 1 - j)).
Proof.
  intros H1 H2 HL Hj. unfold epoly. rewrite Z.lxor_spec.
  change (poly_of l) with (be l). change (poly_of l') with (be l').
  rewrite (be_bit l) by assumption. assert (HZ : Zlen l' = Zlen l) by (unfold Zlen; congruence).
  rewrite (be_bit l') by (try assumption; lia). rewrite HZ. reflexivity.
Qed.

Lemma in_errors l l' k : In k (errors l l') <-> 0 <= k < 8 * Zlen l /\ bit l k <> bit l' k.
Proof.
  unfold errors. rewrite filter_In, in_map_iff. split.
  - intros [(n & <- & Hn) HX]. apply in_seq in Hn. split; [unfold Zlen; lia|]. intros E. rewrite E, xorb_nilpotent in HX. discriminate.
  - intros [Hk HX]. split.
    + exists (Z.to_nat k). split; [lia|]. apply in_seq. unfold Zlen in Hk. lia.
    + destruct (bit l k), (bit l' k); try reflexivity; exfalso; apply HX; reflexivity.
Qed.

Lemma epoly_bit_in l l' j : bytes_ok l -> bytes_ok l' -> length l' = length l -> 0 <= j ->
  Z.testbit (epoly l l') j = true <-> In (8 * Zlen l - 1 - j) (errors l l').
Proof.
  intros H1 H2 HL Hj. rewrite in_errors. destruct (Z.lt_ge_cases j (8 * Zlen l)) as [Hlt|Hge].
  - rewrite epoly_bit by (assumption || lia). split.
    + intros HX. split; [lia|]. intros E. rewrite E, xorb_nilpotent in HX. discriminate.
    + intros [_ HX]. destruct (bit l (8 * Zlen l - 1 - j)), (bit l' (8 * Zlen l - 1 - j)); try reflexivity; exfalso; apply HX; reflexivity.
  - pose proof (epoly_range l l' H1 H2 HL). pose proof (Zlen_nonneg l).
    rewrite (testbit_high (8 * Zlen l)) by lia. split; [discriminate|]. intros [H4 _]. lia.
Qed.

(* ------------------------------------------------ bursts *)
Lemma burst_not_mult E J : 0 < E -> 0 <= J -> (forall j, 0 <= j -> Z.testbit E j = true -> J <= j < J + 24) -> ~ mult E.
Proof.
  intros HE HJ HB HM.
  assert (Hs : E = Z.shiftr E J * 2 ^ J).
  { rewrite <- Z.shiftl_mul_pow2 by lia. apply Z.bits_inj'. intros j Hj.
    destruct (Z.ltb_spec j J).
    - rewrite Z.shiftl_spec_low by lia. destruct (Z.testbit E j) eqn:HT; [|reflexivity]. specialize (HB j Hj HT). lia.
    - rewrite Z.shiftl_spec, Z.shiftr_spec by lia. f_equal. lia. }
  rewrite Hs in HM. apply mult_unshift in HM; [|exact HJ].
  assert (H0 : 0 <= Z.shiftr E J) by (apply Z.shiftr_nonneg; lia).
  apply mult_small in HM; [rewrite HM in Hs; lia|]. split; [exact H0|].
  destruct (Z.eq_dec (Z.shiftr E J) 0) as [->|Hne]; [lia|]. apply Z.log2_lt_pow2; [lia|].
  assert (HT : Z.testbit (Z.shiftr E J) (Z.log2 (Z.shiftr E J)) = true) by (apply Z.bit_log2; lia).
  pose proof (Z.log2_nonneg (Z.shiftr E J)). rewrite Z.shiftr_spec in HT by lia.
  apply HB in HT; lia.
Qed.

Lemma detect_burst l l' k : bytes_ok l -> bytes_ok l' -> length l' = length l -> (3 <= length l)%nat ->
  block_ok l -> errors l l' <> [] -> (forall e, In e (errors l l') -> k <= e < k + 24) -> ~ block_ok l'.
Proof.
  intros H1 H2 HL H3 HB Hne HK HB'. apply (block_ok_iff l H1 H3) in HB. apply block_ok_iff in HB'; [|assumption|lia].
  pose proof (epoly_mult l l' HB HB') as HM. revert HM.
  pose proof (epoly_range l l' H1 H2 HL) as HR.
  apply burst_not_mult with (J := Z.max 0 (8 * Zlen l - 24 - k)); [|lia|].
  - destruct (errors l l') as [|e es] eqn:EE; [congruence|].
    assert (He : In e (errors l l')) by (rewrite EE; left; reflexivity).
    pose proof He as Hin. apply in_errors in Hin.
    replace e with (8 * Zlen l - 1 - (8 * Zlen l - 1 - e)) in He by lia.
    apply epoly_bit_in in He; [|assumption|assumption|assumption|lia].
    destruct (Z.eq_dec (epoly l l') 0) as [E0|]; [rewrite E0, Z.bits_0 in He; discriminate|lia].
  - intros j Hj HT. apply epoly_bit_in in HT; [|assumption..]. pose proof HT as HT2. apply in_errors in HT2. apply HK in HT. lia.
Qed.

(* ------------------------------------------------ odd number of errors *)
Fixpoint xsum (n : nat) (f : nat -> bool) : bool :=
  match n with O => false | S m => xorb (xsum m f) (f m) end.
Lemma xsum_ext n f g : (forall k, (k < n)%nat -> f k = g k) -> xsum n f = xsum n g.
Proof. induction n as [|n IH]; intros H; [reflexivity|]. cbn [xsum]. rewrite IH by (intros; apply H; lia). rewrite H by lia. reflexivity. Qed.
Lemma xsum_front n : forall f, xsum (S n) f = xorb (f 0%nat) (xsum n (fun k => f (S k))).
Proof.
  induction n as [|n IH]; intros f; [cbn; destruct (f 0%nat); reflexivity|].
  remember (S n) as m. cbn [xsum]. subst m. rewrite IH. cbn [xsum]. rewrite <- xorb_assoc. reflexivity.
Qed.
Lemma xsum_rev n : forall f, xsum n (fun k => f (n - 1 - k)%nat) = xsum n f.
Proof.
  induction n as [|n IH]; intros f; [reflexivity|]. rewrite xsum_front.
  replace (S n - 1 - 0)%nat with n by lia. cbn [xsum]. rewrite xorb_comm. f_equal.
  rewrite <- IH. apply xsum_ext. intros k Hk. f_equal. lia.
Qed.
Lemma xsum_xor n f g : xsum n (fun k => xorb (f k) (g k)) = xorb (xsum n f) (xsum n g).
Proof.
  induction n as [|n IH]; [reflexivity|]. cbn [xsum]. rewrite IH.
  destruct (xsum n f), (xsum n g), (f n), (g n); reflexivity.
Qed.
Lemma xsum_stable f n m : (n <= m)%nat -> (forall k, (n <= k)%nat -> f k = false) -> xsum m f = xsum n f.
Proof.
  intros Hnm H. induction Hnm as [|m Hm IH]; [reflexivity|]. cbn [xsum]. rewrite IH, H by lia. apply xorb_false_r.
Qed.

Definition zbit (x : Z) (k : nat) : bool := Z.testbit x (Z.of_nat k).

Lemma mult_even x : mult x -> exists N, forall n, (N <= n)%nat -> xsum n (zbit x) = false.
Proof.
  induction 1 as [|x H (N & IH)|x H (N & IH)].
  - exists 0%nat. intros n _. induction n as [|n IHn]; [reflexivity|]. cbn [xsum]. rewrite IHn. unfold zbit. rewrite Z.bits_0. reflexivity.
  - exists (S N). intros [|n] Hn; [lia|]. rewrite xsum_front. unfold zbit at 1. rewrite Z.testbit_even_0, xorb_false_l.
    rewrite (xsum_ext _ _ (zbit x)); [apply IH; lia|]. intros k _. unfold zbit. rewrite Nat2Z.inj_succ. rewrite Z.double_bits_succ. reflexivity.
  - exists (S N + 25)%nat. intros [|n] Hn; [lia|].
    rewrite (xsum_ext _ _ (fun k => xorb (zbit (2 * x) k) (zbit P k))) by (intros k _; unfold zbit; apply Z.lxor_spec).
    rewrite xsum_xor. rewrite (xsum_stable (zbit P) 25 (S n)); [|lia|].
    + change (xsum 25 (zbit P)) with false. rewrite xorb_false_r.
      rewrite xsum_front. unfold zbit at 1. rewrite Z.testbit_even_0, xorb_false_l.
      rewrite (xsum_ext _ _ (zbit x)); [apply IH; lia|]. intros k _. unfold zbit. rewrite Nat2Z.inj_succ. rewrite Z.double_bits_succ. reflexivity.
    + intros k Hk. unfold zbit. apply testbit_high with (n := 25); [lia|]. vm_compute. split; [discriminate|reflexivity].
Qed.

Lemma odd_filter (f : Z -> bool) n :
  Z.odd (Zlen (filter f (map Z.of_nat (seq 0 n)))) = xsum n (fun k => f (Z.of_nat k)).
Proof.
  induction n as [|n IH]; [reflexivity|]. rewrite seq_S, map_app, filter_app, Zlen_app, Z.odd_add, IH.
  cbn [xsum map filter plus]. destruct (f (Z.of_nat n)); reflexivity.
Qed.

Lemma detect_odd l l' : bytes_ok l -> bytes_ok l' -> length l' = length l -> (3 <= length l)%nat ->
  block_ok l -> Z.odd (Zlen (errors l l')) = true -> ~ block_ok l'.
Proof.
  intros H1 H2 HL H3 HB Hodd HB'. apply (block_ok_iff l H1 H3) in HB. apply block_ok_iff in HB'; [|assumption|lia].
  pose proof (epoly_mult l l' HB HB') as HM. destruct (mult_even _ HM) as (N & HN).
  unfold errors in Hodd. rewrite odd_filter in Hodd.
  rewrite <- xsum_rev in Hodd.
  assert (E : xsum (8 * length l) (zbit (epoly l l')) = true).
  { rewrite <- Hodd. apply xsum_ext. intros k Hk. unfold zbit. rewrite epoly_bit by (try assumption; unfold Zlen; lia).
    replace (8 * Zlen l - 1 - Z.of_nat k) with (Z.of_nat (8 * length l - 1 - k)) by (unfold Zlen; lia). reflexivity. }
  rewrite <- (xsum_stable _ _ (8 * length l + N)) in E; [|lia|].
  - rewrite HN in E by lia. discriminate.
  - intros k Hk. unfold zbit. pose proof (epoly_range l l' H1 H2 HL). apply testbit_high with (n := 8 * Zlen l); [|assumption].
    unfold Zlen. lia.
Qed.

(* ------------------------------------------------ two errors *)
Definition xstep (r : Z) : Z := let t := 2 * r in if Z.testbit t 24 then Z.lxor t P else t.
Fixpoint xpow (n : nat) : Z := match n with O => 1 | S m => xstep (xpow m) end.
Fixpoint no_one (n : nat) (r : Z) : bool :=
  match n with O => true | S m => let r' := xstep r in negb (r' =? 1) && no_one m r' end.
Lemma sweep : no_one (Z.to_nat 8231) 1 = true.
Proof. vm_compute. reflexivity. Qed.

Lemma xpow_ok n : 0 <= xpow n < 2 ^ 24 /\ mult (Z.lxor (2 ^ Z.of_nat n) (xpow n)).
Proof.
  induction n as [|n [IH1 IH2]]; [split; [cbn; lia|exact mult_0]|].
  assert (HS : mult (Z.lxor (2 ^ Z.of_nat (S n)) (2 * xpow n))).
  { rewrite Nat2Z.inj_succ, Z.pow_succ_r by lia. rewrite lxor_2. apply mult_2. exact IH2. }
  cbn [xpow]. unfold xstep. cbv zeta. destruct (Z.testbit (2 * xpow n) 24) eqn:E.
  - split.
    + assert (H25 : 0 <= Z.lxor (2 * xpow n) P < 2 ^ 25).
      { apply lxor_range; [lia|lia|]. vm_compute. split; [discriminate|reflexivity]. }
      split; [lia|]. destruct (Z.eq_dec (Z.lxor (2 * xpow n) P) 0) as [->|Hne]; [lia|].
      apply Z.log2_lt_pow2; [lia|]. assert (Z.log2 (Z.lxor (2 * xpow n) P) < 25) by (apply Z.log2_lt_pow2; lia).
      destruct (Z.eq_dec (Z.log2 (Z.lxor (2 * xpow n) P)) 24) as [E2|]; [|lia].
      assert (HT : Z.testbit (Z.lxor (2 * xpow n) P) 24 = true) by (rewrite <- E2; apply Z.bit_log2; lia).
      rewrite Z.lxor_spec, E in HT. vm_compute in HT. discriminate.
    + rewrite <- Z.lxor_assoc. apply mult_lxor; [exact HS|]. exact (mult_P 0 mult_0).
  - split; [|exact HS]. split; [lia|]. destruct (Z.eq_dec (2 * xpow n) 0) as [->|Hne]; [lia|].
    apply Z.log2_lt_pow2; [lia|]. assert (Z.log2 (2 * xpow n) < 25) by (apply Z.log2_lt_pow2; lia).
    destruct (Z.eq_dec (Z.log2 (2 * xpow n)) 24) as [E2|]; [|lia].
    assert (HT : Z.testbit (2 * xpow n) 24 = true) by (rewrite <- E2; apply Z.bit_log2; lia). congruence.
Qed.

Lemma no_one_ok n : forall k m, no_one n (xpow k) = true -> (k < m <= k + n)%nat -> xpow m <> 1.
Proof.
  induction n as [|n IH]; intros k m H Hm; [lia|]. cbn [no_one] in H. cbv zeta in H. apply andb_true_iff in H. destruct H as [HA HB].
  change (xstep (xpow k)) with (xpow (S k)) in *. destruct (Nat.eq_dec m (S k)) as [->|Hne].
  - intros E. rewrite E in HA. discriminate.
  - apply (IH (S k)); [exact HB|lia].
Qed.

Lemma two_not_mult d : 0 < d < 8232 -> ~ mult (Z.lxor (2 ^ d) 1).
Proof.
  intros Hd HM. destruct (xpow_ok (Z.to_nat d)) as [HR HX]. rewrite Z2Nat.id in HX by lia.
  pose proof (mult_lxor _ _ HM HX) as HY.
  replace (Z.lxor (Z.lxor (2 ^ d) 1) (Z.lxor (2 ^ d) (xpow (Z.to_nat d)))) with (Z.lxor 1 (xpow (Z.to_nat d))) in HY.
  - apply mult_small in HY; [|apply lxor_range; lia]. apply Z.lxor_eq in HY. symmetry in HY. revert HY.
    apply (no_one_ok (Z.to_nat 8231) 0 (Z.to_nat d)); [exact sweep|lia].
  - apply Z.bits_inj'. intros j Hj. rewrite !Z.lxor_spec.
    destruct (Z.testbit (2 ^ d) j), (Z.testbit 1 j), (Z.testbit (xpow (Z.to_nat d)) j); reflexivity.
Qed.

Lemma two_not_mult' a b : 0 <= a < b -> b - a < 8232 -> ~ mult (Z.lxor (2 ^ b) (2 ^ a)).
Proof.
  intros Ha Hd HM. apply (two_not_mult (b - a)); [lia|]. apply (mult_unshift a); [lia|].
  rewrite mul_lxor_pow by lia. rewrite <- Z.pow_add_r by lia. rewrite Z.mul_1_l. replace (b - a + a) with b by lia. exact HM.
Qed.

Lemma detect_two l l' : bytes_ok l -> bytes_ok l' -> length l' = length l -> (3 <= length l)%nat -> Zlen l <= 1029 ->
  block_ok l -> Zlen (errors l l') = 2 -> ~ block_ok l'.
Proof.
  intros H1 H2 HL H3 H1029 HB Htwo HB'. apply (block_ok_iff l H1 H3) in HB. apply block_ok_iff in HB'; [|assumption|lia].
  pose proof (epoly_mult l l' HB HB') as HM. revert HM.
  destruct (errors l l') as [|e1 [|e2 [|e3 r]]] eqn:EE; try (unfold Zlen in Htwo; cbn [length] in Htwo; lia).
  assert (Hnd : NoDup (errors l l')).
  { unfold errors. apply NoDup_filter. apply FinFun.Injective_map_NoDup; [intros x y; lia|apply seq_NoDup]. }
  rewrite EE in Hnd. inversion Hnd as [|x xs Hni _]; subst. cbn [In] in Hni.
  assert (Hi1 : In e1 (errors l l')) by (rewrite EE; left; reflexivity). assert (Hi2 : In e2 (errors l l')) by (rewrite EE; right; left; reflexivity).
  apply in_errors in Hi1. apply in_errors in Hi2.
  assert (Hx : epoly l l' = Z.lxor (2 ^ (8 * Zlen l - 1 - e1)) (2 ^ (8 * Zlen l - 1 - e2))).
  { apply Z.bits_inj'. intros j Hj. rewrite Z.lxor_spec.
    destruct (Z.testbit (epoly l l') j) eqn:HT.
    - apply epoly_bit_in in HT; [|assumption..]. rewrite EE in HT. cbn [In] in HT.
      destruct HT as [HT|[HT|[]]]; rewrite HT.
      + replace (8 * Zlen l - 1 - (8 * Zlen l - 1 - j)) with j by lia. rewrite Z.pow2_bits_true, Z.pow2_bits_false by lia. reflexivity.
      + replace (8 * Zlen l - 1 - (8 * Zlen l - 1 - j)) with j by lia. rewrite Z.pow2_bits_true, Z.pow2_bits_false by lia. reflexivity.
    - assert (HN : ~ In (8 * Zlen l - 1 - j) (errors l l')).
      { intros HI. apply epoly_bit_in in HI; [congruence|assumption..]. }
      rewrite EE in HN. cbn [In] in HN. rewrite !Z.pow2_bits_false by lia. reflexivity. }
  rewrite Hx. destruct (Z.lt_ge_cases e1 e2).
  - apply two_not_mult'; lia.
  - rewrite Z.lxor_comm. apply two_not_mult'; lia.
Qed.
