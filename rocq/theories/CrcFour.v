(* Detection of up to five errors by CRC-24Q in blocks of at most 541 bits (C25, C41). *)
From Coq Require Import FinFun MSetPositive Permutation.
From Verif Require Import Base ZBits BitSpec BitModel BitProofs CrcSpec CrcModel CrcProofs CrcErr.

(* ------------------------------------------------ polynomials given by their exponents *)
Definition wsum (L : list Z) : Z := fold_right (fun e a => Z.lxor (2 ^ e) a) 0 L.
Definition rsum (L : list Z) : Z := fold_right (fun e a => Z.lxor (xpow (Z.to_nat e)) a) 0 L.
Lemma lxor_swap a b c d : Z.lxor (Z.lxor a b) (Z.lxor c d) = Z.lxor (Z.lxor a c) (Z.lxor b d).
Proof.
  apply Z.bits_inj'. intros j Hj. rewrite !Z.lxor_spec. destruct (Z.testbit a j), (Z.testbit b j), (Z.testbit c j), (Z.testbit d j); reflexivity.
Qed.
Lemma wsum_rsum L : (forall e, In e L -> 0 <= e) -> 0 <= rsum L < 2 ^ 24 /\ mult (Z.lxor (wsum L) (rsum L)).
Proof.
  induction L as [|e L IH]; intros H; [split; [cbn; lia|exact mult_0]|]. cbn [wsum rsum fold_right]. fold (wsum L) (rsum L).
  destruct IH as [I1 I2]; [intros x Hx; apply H; right; exact Hx|]. destruct (xpow_ok (Z.to_nat e)) as [X1 X2].
  rewrite Z2Nat.id in X2 by (apply H; left; reflexivity). split; [apply lxor_range; lia|]. rewrite lxor_swap. apply mult_lxor; assumption.
Qed.
Lemma mult_rsum L : (forall e, In e L -> 0 <= e) -> mult (wsum L) -> rsum L = 0.
Proof.
  intros H HM. destruct (wsum_rsum L H) as [R M]. apply mult_small; [|exact R].
  replace (rsum L) with (Z.lxor (wsum L) (Z.lxor (wsum L) (rsum L))) by (rewrite <- Z.lxor_assoc, Z.lxor_nilpotent; apply Z.lxor_0_l).
  apply mult_lxor; assumption.
Qed.
Lemma wsum_bit L j : NoDup L -> (forall e, In e L -> 0 <= e) -> 0 <= j -> Z.testbit (wsum L) j = true <-> In j L.
Proof.
  induction L as [|e L IH]; intros HN H Hj; [cbn; rewrite Z.bits_0; split; [discriminate|tauto]|].
  inversion HN as [|x xs NI ND]; subst. assert (He : 0 <= e) by (apply H; left; reflexivity).
  assert (IH' : Z.testbit (wsum L) j = true <-> In j L) by (apply IH; [exact ND|intros x Hx; apply H; right; exact Hx|exact Hj]).
  cbn [wsum fold_right In]. fold (wsum L). rewrite Z.lxor_spec. destruct (Z.eq_dec e j) as [->|NE].
  - rewrite Z.pow2_bits_true by lia. destruct (Z.testbit (wsum L) j); [exfalso; apply NI; apply IH'; reflexivity|]. cbn. tauto.
  - rewrite Z.pow2_bits_false by lia. rewrite xorb_false_l, IH'. split; [tauto|]. intros [X|X]; [contradiction|exact X].
Qed.
Lemma wsum_nonneg L : (forall e, In e L -> 0 <= e) -> 0 <= wsum L.
Proof.
  induction L as [|e L IH]; intros H; [cbn; lia|]. cbn [wsum fold_right]. fold (wsum L). apply Z.lxor_nonneg.
  assert (0 < 2 ^ e) by (apply Z.pow_pos_nonneg; [lia|apply H; left; reflexivity]).
  assert (0 <= wsum L) by (apply IH; intros x Hx; apply H; right; exact Hx). lia.
Qed.
Lemma wsum_eq E L : 0 <= E -> NoDup L -> (forall e, In e L -> 0 <= e) -> (forall j, 0 <= j -> Z.testbit E j = true <-> In j L) -> E = wsum L.
Proof.
  intros HE HN H HB. apply Z.bits_inj'. intros j Hj. apply eq_true_iff_eq. rewrite HB, wsum_bit by assumption. reflexivity.
Qed.

(* an odd number of terms is never a multiple *)
Lemma xsum_pow e n : 0 <= e < Z.of_nat n -> xsum n (zbit (2 ^ e)) = true.
Proof.
  intros He. assert (G : forall m, xsum m (zbit (2 ^ e)) = (e <? Z.of_nat m)).
  { induction m as [|m IH]; [cbn [xsum]; lia|]. cbn [xsum]. rewrite IH. unfold zbit. destruct (Z.eq_dec e (Z.of_nat m)) as [->|NE].
    - rewrite Z.pow2_bits_true by lia. replace (Z.of_nat m <? Z.of_nat m) with false by lia. replace (Z.of_nat m <? Z.of_nat (S m)) with true by lia. reflexivity.
    - rewrite Z.pow2_bits_false by lia. rewrite xorb_false_r. lia. }
  rewrite G. lia.
Qed.
Lemma xsum_0 n : xsum n (zbit 0) = false.
Proof. induction n as [|n IH]; [reflexivity|]. cbn [xsum]. rewrite IH. unfold zbit. rewrite Z.bits_0. reflexivity. Qed.
Lemma xsum_wsum L n : (forall e, In e L -> 0 <= e < Z.of_nat n) -> xsum n (zbit (wsum L)) = Nat.odd (length L).
Proof.
  induction L as [|e L IH]; intros H; [apply xsum_0|]. cbn [wsum fold_right]. fold (wsum L).
  rewrite (xsum_ext _ _ (fun k => xorb (zbit (2 ^ e) k) (zbit (wsum L) k))) by (intros k _; unfold zbit; apply Z.lxor_spec).
  rewrite xsum_xor, xsum_pow by (apply H; left; reflexivity). rewrite IH by (intros x Hx; apply H; right; exact Hx).
  cbn [length]. rewrite Nat.odd_succ, <- Nat.negb_odd. apply xorb_true_l.
Qed.
Lemma bounded L : (forall e, In e L -> 0 <= e) -> exists N, forall e, In e L -> 0 <= e < Z.of_nat N.
Proof.
  induction L as [|e L IH]; intros H; [exists 0%nat; intros e []|]. destruct IH as (N & HN); [intros x Hx; apply H; right; exact Hx|].
  exists (N + Z.to_nat e + 1)%nat. intros x [<-|Hx]; [specialize (H e (or_introl eq_refl)); lia|]. specialize (HN x Hx). lia.
Qed.
Lemma odd_not_mult L : (forall e, In e L -> 0 <= e) -> Nat.odd (length L) = true -> ~ mult (wsum L).
Proof.
  intros H HO HM. destruct (mult_even _ HM) as (N & HN). destruct (bounded L H) as (M & HB).
  specialize (HN (N + M)%nat ltac:(lia)). rewrite xsum_wsum in HN; [congruence|]. intros e He. specialize (HB e He). lia.
Qed.

(* ------------------------------------------------ the differences of two powers below 541 *)
Fixpoint xs (n : nat) (r : Z) : list Z := match n with O => [] | S m => r :: xs m (xstep r) end.
Fixpoint allp (X : list Z) : list Z := match X with [] => [] | x :: r => map (Z.lxor x) r ++ allp r end.
Fixpoint fresh (l : list Z) (s : PositiveSet.t) : bool :=
  match l with
  | [] => true
  | Zpos p :: r => negb (PositiveSet.mem p s) && fresh r (PositiveSet.add p s)
  | _ => false
  end.
Lemma sweep4 : fresh (allp (xs 541 1)) PositiveSet.empty = true.
Proof. vm_compute. reflexivity. Qed.
Lemma fresh_ok : forall l s, fresh l s = true -> NoDup l /\ (forall v, In v l -> exists p, v = Zpos p /\ PositiveSet.mem p s = false).
Proof.
  induction l as [|v l IH]; intros s H; [split; [constructor|intros v []]|]. cbn [fresh] in H. destruct v as [|p|p]; try discriminate.
  apply andb_true_iff in H. destruct H as [H1 H2]. apply negb_true_iff in H1. destruct (IH _ H2) as [N I]. split.
  - constructor; [|exact N]. intros HI. destruct (I _ HI) as (q & E & M). injection E as <-.
    assert (PositiveSet.In p (PositiveSet.add p s)) as X by (apply PositiveSet.add_spec; left; reflexivity). apply PositiveSet.mem_spec in X. congruence.
  - intros v [<-|HI]; [exists p; auto|]. destruct (I _ HI) as (q & E & M). exists q. split; [exact E|].
    destruct (PositiveSet.mem q s) eqn:X; [|reflexivity]. apply PositiveSet.mem_spec in X.
    assert (PositiveSet.In q (PositiveSet.add p s)) as Y by (apply PositiveSet.add_spec; right; exact X). apply PositiveSet.mem_spec in Y. congruence.
Qed.
Fixpoint pairsof (l : list nat) : list (nat * nat) := match l with [] => [] | x :: r => map (pair x) r ++ pairsof r end.
Definition diff (p : nat * nat) : Z := Z.lxor (xpow (fst p)) (xpow (snd p)).
Lemma allp_pairs l : allp (map xpow l) = map diff (pairsof l).
Proof. induction l as [|x l IH]; [reflexivity|]. cbn [map allp pairsof]. rewrite map_app, !map_map, IH. reflexivity. Qed.
Lemma xs_pow : forall n k, xs n (xpow k) = map xpow (seq k n).
Proof. induction n as [|n IH]; intros k; [reflexivity|]. cbn [xs seq map]. change (xstep (xpow k)) with (xpow (S k)). rewrite IH. reflexivity. Qed.
Lemma in_pairs : forall n k a b, (k <= a < b)%nat -> (b < k + n)%nat -> In (a, b) (pairsof (seq k n)).
Proof.
  induction n as [|n IH]; intros k a b H1 H2; [lia|]. cbn [seq pairsof]. apply in_or_app. destruct (Nat.eq_dec a k) as [->|NE].
  - left. apply in_map. apply in_seq. lia.
  - right. apply IH; lia.
Qed.
Lemma NoDup_map_eq {A B} (f : A -> B) l x y : NoDup (map f l) -> In x l -> In y l -> f x = f y -> x = y.
Proof.
  induction l as [|a l IH]; intros HN HX HY E; [destruct HX|]. cbn [map] in HN. inversion HN as [|u us NI ND]; subst.
  destruct HX as [->|HX], HY as [->|HY]; auto.
  - exfalso. apply NI. rewrite E. apply in_map. exact HY.
  - exfalso. apply NI. rewrite <- E. apply in_map. exact HX.
Qed.
Lemma diffs : NoDup (map diff (pairsof (seq 0 541))) /\ forall v, In v (map diff (pairsof (seq 0 541))) -> v <> 0.
Proof.
  rewrite <- allp_pairs, <- xs_pow. change (xpow 0) with 1. destruct (fresh_ok _ _ sweep4) as [N I]. split; [exact N|].
  intros v Hv E. destruct (I v Hv) as (p & X & _). congruence.
Qed.
Lemma diff_sym a b : diff (a, b) = diff (b, a). Proof. unfold diff. apply Z.lxor_comm. Qed.
Lemma diff_nz a b : (a < 541)%nat -> (b < 541)%nat -> a <> b -> diff (a, b) <> 0.
Proof.
  intros Ha Hb NE. destruct (Nat.lt_ge_cases a b).
  - apply diffs. apply in_map. apply in_pairs; lia.
  - rewrite diff_sym. apply diffs. apply in_map. apply in_pairs; lia.
Qed.
Lemma diff_inj a b c d : (a < 541)%nat -> (b < 541)%nat -> (c < 541)%nat -> (d < 541)%nat -> a <> b -> c <> d ->
  diff (a, b) = diff (c, d) -> (a = c /\ b = d) \/ (a = d /\ b = c).
Proof.
  assert (G : forall a b c d, (a < b < 541)%nat -> (c < d < 541)%nat -> diff (a, b) = diff (c, d) -> a = c /\ b = d).
  { intros a' b' c' d' H1 H2 E. assert (X : (a', b') = (c', d')) by (apply (NoDup_map_eq diff (pairsof (seq 0 541))); [apply diffs|apply in_pairs; lia|apply in_pairs; lia|exact E]).
    injection X as -> ->. auto. }
  intros Ha Hb Hc Hd N1 N2 E. destruct (Nat.lt_ge_cases a b), (Nat.lt_ge_cases c d).
  - left. apply G; [lia|lia|exact E].
  - right. rewrite (diff_sym c d) in E. apply G; [lia|lia|exact E].
  - right. rewrite (diff_sym a b) in E. destruct (G b a c d) as [-> ->]; [lia|lia|exact E|auto].
  - left. rewrite (diff_sym a b), (diff_sym c d) in E. destruct (G b a d c) as [-> ->]; [lia|lia|exact E|auto].
Qed.

Lemma few_not_mult E L : 0 <= E -> NoDup L -> (forall e, In e L -> 0 <= e < 541) -> (forall j, 0 <= j -> Z.testbit E j = true <-> In j L) ->
  (1 <= length L <= 5)%nat -> ~ mult E.
Proof.
  intros HE HN HR HB HL HM. assert (H0 : forall e, In e L -> 0 <= e) by (intros e He; apply HR; exact He).
  rewrite (wsum_eq E L HE HN H0 HB) in HM. destruct (Nat.odd (length L)) eqn:EO; [exact (odd_not_mult L H0 EO HM)|].
  pose proof (mult_rsum L H0 HM) as RS. clear E HE HB HM.
  destruct L as [|a [|b [|c [|d [|e r]]]]]; try (cbn [length] in HL; lia); try discriminate.
  - assert (Ra := HR a (or_introl eq_refl)). assert (Rb := HR b (or_intror (or_introl eq_refl))). inversion HN as [|x y NI _]; subst. cbn [In] in NI.
    cbn [rsum fold_right] in RS. rewrite Z.lxor_0_r in RS. apply (diff_nz (Z.to_nat a) (Z.to_nat b)); [lia|lia|lia|exact RS].
  - assert (Ra := HR a (or_introl eq_refl)). assert (Rb := HR b (or_intror (or_introl eq_refl))).
    assert (Rc := HR c (or_intror (or_intror (or_introl eq_refl)))). assert (Rd := HR d (or_intror (or_intror (or_intror (or_introl eq_refl))))).
    inversion HN as [|x y N1 HN1]; subst. inversion HN1 as [|x y N2 HN2]; subst. inversion HN2 as [|x y N3 _]; subst. cbn [In] in N1, N2, N3.
    cbn [rsum fold_right] in RS. rewrite Z.lxor_0_r in RS.
    assert (X : diff (Z.to_nat a, Z.to_nat b) = diff (Z.to_nat c, Z.to_nat d)).
    { unfold diff. cbn [fst snd]. rewrite <- Z.lxor_assoc in RS. apply Z.lxor_eq in RS. exact RS. }
    destruct (diff_inj (Z.to_nat a) (Z.to_nat b) (Z.to_nat c) (Z.to_nat d) ltac:(lia) ltac:(lia) ltac:(lia) ltac:(lia) ltac:(lia) ltac:(lia) X); lia.
  - destruct r; [discriminate|cbn [length] in HL; lia].
Qed.

(* ------------------------------------------------ blocks *)
Lemma detect_few l l' : bytes_ok l -> bytes_ok l' -> length l' = length l -> (3 <= length l)%nat -> Zlen l <= 67 ->
  block_ok l -> 1 <= Zlen (errors l l') <= 5 -> ~ block_ok l'.
Proof.
  intros H1 H2 HL H3 H67 HB HE HB'. apply (block_ok_iff l H1 H3) in HB. apply block_ok_iff in HB'; [|assumption|lia].
  pose proof (epoly_mult l l' HB HB') as HM. revert HM. pose proof (epoly_range l l' H1 H2 HL) as HR.
  apply (few_not_mult _ (map (fun k => 8 * Zlen l - 1 - k) (errors l l'))).
  - lia.
  - apply Injective_map_NoDup; [intros x y; lia|]. unfold errors. apply NoDup_filter. apply Injective_map_NoDup; [intros x y; lia|apply seq_NoDup].
  - intros e He. apply in_map_iff in He. destruct He as (k & <- & Hk). apply in_errors in Hk. lia.
  - intros j Hj. rewrite (epoly_bit_in l l' j H1 H2 HL Hj). split.
    + intros HI. apply in_map_iff. eexists. split; [|exact HI]. lia.
    + intros HI. apply in_map_iff in HI. destruct HI as (k & EK & HI). replace (8 * Zlen l - 1 - j) with k by lia. exact HI.
  - rewrite map_length. unfold Zlen in HE. lia.
Qed.

(* the bound is exact: the four exponents 541, 410, 166, 0 form a multiple *)
Fixpoint xorl (l m : list Z) : list Z := match l, m with a :: l', b :: m' => Z.lxor a b :: xorl l' m' | _, _ => [] end.
Lemma xorl_len : forall l m, length l = length m -> length (xorl l m) = length l.
Proof. induction l as [|a l IH]; intros [|b m] H; try discriminate; [reflexivity|]. cbn [xorl length]. rewrite IH; [reflexivity|]. injection H as H. exact H. Qed.
Lemma byte_lxor a b : byte_ok a -> byte_ok b -> byte_ok (Z.lxor a b).
Proof. unfold byte_ok. intros Ha Hb. apply (lxor_range 8); [lia|exact Ha|exact Hb]. Qed.
Lemma xorl_bytes : forall l m, bytes_ok l -> bytes_ok m -> bytes_ok (xorl l m).
Proof.
  induction l as [|a l IH]; intros [|b m] Hl Hm; try constructor.
  - apply byte_lxor; [inversion Hl|inversion Hm]; assumption.
  - apply IH; [inversion Hl|inversion Hm]; assumption.
Qed.
Lemma xorl_snoc : forall l m a b, length l = length m -> xorl (l ++ [a]) (m ++ [b]) = xorl l m ++ [Z.lxor a b].
Proof. induction l as [|x l IH]; intros [|y m] a b H; try discriminate; [reflexivity|]. cbn [xorl app]. rewrite IH; [reflexivity|]. injection H as H. exact H. Qed.
Lemma poly_xorl : forall l m, length l = length m -> bytes_ok l -> bytes_ok m -> poly_of (xorl l m) = Z.lxor (poly_of l) (poly_of m).
Proof.
  induction l as [|a l IH] using rev_ind; intros m H Hl Hm.
  - destruct m; [reflexivity|discriminate].
  - destruct m as [|b m _] using rev_ind; [rewrite app_length in H; cbn in H; lia|]. rewrite !app_length in H. cbn [length] in H.
    apply bytes_ok_app in Hl. apply bytes_ok_app in Hm. destruct Hl as [Hl Ha]. destruct Hm as [Hm Hb]. inversion Ha; inversion Hb; subst.
    rewrite xorl_snoc by lia. rewrite !poly_snoc, IH by (assumption || lia).
    rewrite (cat8_lxor (poly_of l)), (cat8_lxor (poly_of m)), (cat8_lxor (Z.lxor _ _)) by (try apply byte_lxor; assumption).
    change 256 with (2 ^ 8). rewrite mul_lxor_pow by lia. apply lxor_swap.
Qed.
Lemma poly_zeros n m : poly_of (repeat 0 n ++ m) = poly_of m.
Proof. induction n as [|n IH]; [reflexivity|]. exact IH. Qed.
(* 68 bytes with bits 541, 410, 166 and 0 (from the end) set *)
Definition mask68 : list Z := [32] ++ repeat 0 15 ++ [4] ++ repeat 0 30 ++ [64] ++ repeat 0 19 ++ [1].
Definition badset : list Z := [541; 410; 166; 0].
Lemma undetected_four l : bytes_ok l -> (68 <= length l)%nat -> block_ok l ->
  exists l', bytes_ok l' /\ length l' = length l /\ block_ok l' /\ Zlen (errors l l') = 4.
Proof.
  intros H1 HL HB. set (m := repeat 0 (length l - 68) ++ mask68).
  assert (Lm : length l = length m) by (unfold m; rewrite app_length, repeat_length; change (length mask68) with 68%nat; lia).
  assert (BM : bytes_ok m).
  { unfold m. apply bytes_ok_app. split; [|repeat (constructor; [unfold byte_ok; lia|]); constructor].
    apply Forall_forall. intros x Hx. apply repeat_spec in Hx. subst x. unfold byte_ok. lia. }
  assert (PM : poly_of m = wsum badset) by (unfold m; rewrite poly_zeros; vm_compute; reflexivity).
  pose proof (xorl_bytes l m H1 BM) as B'. pose proof (xorl_len l m Lm) as L'. pose proof (poly_xorl l m Lm H1 BM) as P'.
  exists (xorl l m). split; [exact B'|]. split; [exact L'|].
  assert (EP : epoly l (xorl l m) = wsum badset).
  { unfold epoly. rewrite P', <- Z.lxor_assoc, Z.lxor_nilpotent, Z.lxor_0_l. exact PM. }
  assert (NB : NoDup badset) by (unfold badset; repeat constructor; cbn; lia). assert (PB : forall e, In e badset -> 0 <= e <= 541) by (cbn; lia).
  split.
  - apply block_ok_iff; [exact B'|lia|]. apply block_ok_iff in HB; [|exact H1|lia]. rewrite P', PM. apply mult_lxor; [exact HB|].
    destruct (wsum_rsum badset) as [_ M]; [intros e He; apply PB; exact He|].
    assert (RZ : rsum badset = 0) by (vm_compute; reflexivity). rewrite RZ, Z.lxor_0_r in M. exact M.
  - assert (PE : Permutation (errors l (xorl l m)) (map (fun j => 8 * Zlen l - 1 - j) badset)).
    { apply NoDup_Permutation.
      - unfold errors. apply NoDup_filter. apply Injective_map_NoDup; [intros x y; lia|apply seq_NoDup].
      - apply Injective_map_NoDup; [intros x y; lia|exact NB].
      - intros k. split.
        + intros HI. pose proof HI as HK. apply in_errors in HK. apply in_map_iff. exists (8 * Zlen l - 1 - k). split; [lia|].
          apply wsum_bit; [exact NB|intros e He; apply PB; exact He|lia|]. rewrite <- EP. apply epoly_bit_in; [exact H1|exact B'|exact L'|lia|].
          replace (8 * Zlen l - 1 - (8 * Zlen l - 1 - k)) with k by lia. exact HI.
        + intros HI. apply in_map_iff in HI. destruct HI as (j & <- & HJ). specialize (PB j HJ). apply epoly_bit_in; [exact H1|exact B'|exact L'|lia|].
          rewrite EP. apply wsum_bit; [exact NB|intros e He; unfold badset in *; cbn in He; lia|lia|exact HJ]. }
    apply Permutation_length in PE. unfold Zlen. rewrite PE. reflexivity.
Qed.
