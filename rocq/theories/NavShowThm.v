(* Proofs about NavShow.v. *)
From Coq Require Import QArith Qabs Qpower Lqa String Ascii.
From Verif Require Import Base UtcModel Dbl NavModel TextSpec ReportSpec ExShow ExShowThm ExLogThm UtcShow UtcShowThm ExSat ExSatThm NavShow.
Local Open Scope string_scope.
Local Open Scope Z_scope.

(* ---------------------------------------------------------------- digits *)
Lemma string_app l1 l2 : string_of_list_ascii (l1 ++ l2)%list = string_of_list_ascii l1 ++ string_of_list_ascii l2.
Proof. induction l1 as [|a l IH]; [reflexivity|]. cbn [string_of_list_ascii List.app append]. f_equal. exact IH. Qed.
Lemma digs_text k : forall v, 0 <= v < 10 ^ Z.of_nat k -> digits_text k v (digs k v).
Proof.
  induction k as [|k IH]; intros v H.
  - exists []. change (10 ^ Z.of_nat 0) with 1 in H. split; [reflexivity|]. split; [constructor|]. split; [cbn; lia|reflexivity].
  - rewrite Nat2Z.inj_succ, Z.pow_succ_r in H by lia. destruct (IH (v / 10) ltac:(lia)) as (ds & L & F & E & T).
    exists (ds ++ [v mod 10])%list. rewrite app_length, L. cbn [length]. split; [lia|]. split.
    { apply Forall_app. split; [exact F|]. repeat constructor; lia. }
    split. { rewrite fold_left_app. cbn [fold_left]. rewrite E. lia. }
    cbn [digs]. rewrite T, map_app, string_app. f_equal. cbn [map string_of_list_ascii]. unfold digit, ascii_of_nat. do 2 f_equal. lia.
Qed.
Lemma strip_spec j : forall n i q, strip j n = (i, q) -> (i <= j)%nat /\ n = q * 10 ^ Z.of_nat (j - i) /\ (i <> O -> q mod 10 <> 0).
Proof.
  induction j as [|j IH]; intros n i q H.
  - cbn in H. injection H as <- <-. cbn. repeat split; lia.
  - cbn [strip] in H. destruct (Z.eqb_spec (n mod 10) 0) as [E|E].
    + destruct (IH _ _ _ H) as (A & B & C). split; [lia|]. split; [|exact C].
      replace (Z.of_nat (S j - i)) with (Z.succ (Z.of_nat (j - i))) by lia. rewrite Z.pow_succ_r by lia. lia.
    + injection H as <- <-. rewrite Nat.sub_diag. cbn [Z.of_nat]. change (10 ^ 0) with 1. repeat split; [lia|lia|]. intros _. exact E.
Qed.
Lemma mant_trimmed j n : 0 <= n -> trimmed j n (mant j n).
Proof.
  intros H. unfold mant. destruct (strip j n) as [i q] eqn:S. destruct (strip_spec j n i q S) as (A & B & C). exists i, q. split; [exact A|]. split; [exact B|].
  assert (Hq : 0 <= q). { assert (0 < 10 ^ Z.of_nat (j - i)) by (apply Z.pow_pos_nonneg; lia). nia. }
  destruct i as [|i]; [reflexivity|]. split; [apply C; discriminate|]. unfold fixed_point.
  assert (P : 0 < 10 ^ Z.of_nat (Datatypes.S i)) by (apply Z.pow_pos_nonneg; lia).
  exists (digs (Datatypes.S i) (q mod 10 ^ Z.of_nat (Datatypes.S i))). split; [|reflexivity]. apply digs_text. apply Z.mod_pos_bound. exact P.
Qed.

(* ---------------------------------------------------------------- the exponent *)
Lemma exp_up_spec f : forall n q, 0 < q -> q <= n -> n < q * 10 ^ Z.of_nat f -> 0 <= exp_up f n q /\ q * 10 ^ exp_up f n q <= n < q * 10 ^ (exp_up f n q + 1).
Proof.
  induction f as [|f IH]; intros n q Hq H1 H2; [cbn in H2; lia|]. cbn [exp_up]. destruct (Z.ltb_spec n (10 * q)) as [L|L].
  - split; [lia|]. change (10 ^ 0) with 1. change (10 ^ (0 + 1)) with 10. lia.
  - rewrite Nat2Z.inj_succ, Z.pow_succ_r in H2 by lia. destruct (IH n (10 * q) ltac:(lia) L ltac:(nia)) as [A B]. split; [lia|].
    rewrite (Z.add_comm 1). replace (10 ^ (exp_up f n (10 * q) + 1)) with (10 * 10 ^ exp_up f n (10 * q)) in * by (rewrite Z.pow_add_r by lia; change (10 ^ 1) with 10; ring).
    rewrite (Z.pow_add_r 10 (exp_up f n (10 * q) + 1) 1) by lia. rewrite (Z.pow_add_r 10 _ 1) by lia. change (10 ^ 1) with 10. nia.
Qed.
Lemma exp_down_spec f : forall n q, 0 < q -> 0 < n -> n < 10 * q -> q <= n * 10 ^ Z.of_nat f -> exp_down (S f) n q <= 0 /\
  q <= n * 10 ^ (- exp_down (S f) n q) < 10 * q.
Proof.
  induction f as [|f IH]; intros n q Hq Hn H1 H2.
  - cbn [Z.of_nat] in H2. change (10 ^ 0) with 1 in H2. cbn [exp_down]. destruct (Z.leb_spec q n); [|lia]. change (10 ^ (- 0)) with 1. lia.
  - cbn [exp_down]. destruct (Z.leb_spec q n) as [L|L]; [change (10 ^ (- 0)) with 1; lia|].
    rewrite Nat2Z.inj_succ, Z.pow_succ_r in H2 by lia. destruct (IH (10 * n) q Hq ltac:(lia) ltac:(lia) ltac:(nia)) as [A B].
    change (exp_down (S f) (10 * n) q) with (if q <=? 10 * n then 0 else exp_down f (10 * (10 * n)) q - 1) in *.
    set (k := if q <=? 10 * n then 0 else exp_down f (10 * (10 * n)) q - 1) in *. split; [lia|].
    replace (- (k - 1)) with (- k + 1) by lia. rewrite Z.pow_add_r by lia. change (10 ^ 1) with 10. nia.
Qed.
(* a / b: the number scaled so that six digits stand before the point *)
Definition scaled (n q k : Z) : Z * Z := if k <=? 5 then (n * 10 ^ (5 - k), q) else (n, q * 10 ^ (k - 5)).
Lemma exp10_spec n q : 0 < n -> 0 < q -> forall a b, scaled n q (exp10 n q) = (a, b) -> 0 < b /\ 100000 * b <= a < 1000000 * b.
Proof.
  intros Hn Hq a b. unfold scaled, exp10. destruct (Z.leb_spec q n) as [L|L].
  - set (f := Z.to_nat (Z.log2 n + 1)). pose proof (Z.log2_spec n Hn) as [_ HL]. pose proof (Z.log2_nonneg n) as HP.
    assert (HF : n < q * 10 ^ Z.of_nat f).
    { unfold f. rewrite Z2Nat.id by lia. assert (2 ^ (Z.log2 n + 1) <= 10 ^ (Z.log2 n + 1)) by (apply Z.pow_le_mono_l; lia).
      assert (0 < 10 ^ (Z.log2 n + 1)) by (apply Z.pow_pos_nonneg; lia). rewrite <- Z.add_1_r in HL. nia. }
    destruct (exp_up_spec f n q Hq L HF) as [K B]. set (k := exp_up f n q) in *. clearbody k. rewrite Z.pow_add_r in B by lia. change (10 ^ 1) with 10 in B.
    destruct (Z.leb_spec k 5) as [E|E]; intros X; apply pair_equal_spec in X; destruct X as [<- <-].
    + split; [exact Hq|]. assert (P : 10 ^ k * 10 ^ (5 - k) = 100000) by (rewrite <- Z.pow_add_r by lia; replace (k + (5 - k)) with 5 by lia; reflexivity).
      assert (T : 0 < 10 ^ (5 - k)) by (apply Z.pow_pos_nonneg; lia). set (p := 10 ^ k) in *. set (t := 10 ^ (5 - k)) in *. clearbody p t. clear HF HL.
      assert (q * p * t <= n * t) by (apply Z.mul_le_mono_nonneg_r; lia). assert (n * t < q * (p * 10) * t) by (apply Z.mul_lt_mono_pos_r; lia).
      assert (q * p * t = 100000 * q) by (rewrite <- P; ring). lia.
    + assert (P : 10 ^ k = 100000 * 10 ^ (k - 5)) by (change 100000 with (10 ^ 5); rewrite <- Z.pow_add_r by lia; f_equal; lia).
      assert (T : 0 < 10 ^ (k - 5)) by (apply Z.pow_pos_nonneg; lia). rewrite P in B. set (t := 10 ^ (k - 5)) in *. clearbody t. clear HF HL P.
      split; [nia|]. lia.
  - pose proof (Z.log2_spec q Hq) as [_ HL]. pose proof (Z.log2_nonneg q) as HP.
    replace (Z.to_nat (Z.log2 q + 2)) with (S (Z.to_nat (Z.log2 q + 1))) by lia. set (f := Z.to_nat (Z.log2 q + 1)).
    assert (HF : q <= n * 10 ^ Z.of_nat f).
    { unfold f. rewrite Z2Nat.id by lia. assert (2 ^ (Z.log2 q + 1) <= 10 ^ (Z.log2 q + 1)) by (apply Z.pow_le_mono_l; lia).
      rewrite <- Z.add_1_r in HL. nia. }
    destruct (exp_down_spec f n q Hq Hn ltac:(lia) HF) as [K B]. set (k := exp_down (S f) n q) in *. clearbody k.
    destruct (Z.leb_spec k 5) as [E|E]; [|lia]. intros X; apply pair_equal_spec in X; destruct X as [<- <-]. split; [exact Hq|].
    replace (5 - k) with (5 + - k) by lia. rewrite Z.pow_add_r by lia. change (10 ^ 5) with 100000. nia.
Qed.

(* ---------------------------------------------------------------- rounding *)
Local Open Scope Q_scope.
Lemma p10_pos k : 0 < Qpower (10 # 1) k.
Proof. apply Qpower_0_lt. reflexivity. Qed.
Lemma p10_add a b : Qpower (10 # 1) (a + b) == Qpower (10 # 1) a * Qpower (10 # 1) b.
Proof. apply Qpower_plus. discriminate. Qed.
Lemma p10_Z k : (0 <= k)%Z -> Qpower (10 # 1) k == inject_Z (10 ^ k).
Proof. intros H. change (10 # 1) with (inject_Z 10). rewrite Zpower_Qpower by exact H. reflexivity. Qed.
(* y = a / b, r its rounding to an integer *)
Lemma round_best a b y : (0 < b)%Z -> y * inject_Z b == inject_Z a -> forall z,
  Qabs (y - inject_Z (round_div a b)) <= Qabs (y - inject_Z z) /\
  (Qabs (y - inject_Z (round_div a b)) == Qabs (y - inject_Z z) -> z <> round_div a b -> Z.even (round_div a b) = true).
Proof.
  intros Hb Hy z. destruct (round_div_bound a b Hb) as [HB HE]. set (r := round_div a b) in *. clearbody r.
  assert (HbQ : 0 < inject_Z b) by (rewrite <- (Zlt_Qlt 0); exact Hb).
  assert (S : forall w, Qabs (y - inject_Z w) * inject_Z b == inject_Z (Z.abs (a - w * b))).
  { intros w. rewrite <- (Qabs_pos (inject_Z b)) at 1 by (apply Qlt_le_weak; exact HbQ). rewrite <- Qabs_Qmult.
    setoid_replace ((y - inject_Z w) * inject_Z b) with (inject_Z (a - w * b)) by (unfold Z.sub; rewrite inject_Z_plus, inject_Z_opp, inject_Z_mult, <- Hy; ring). reflexivity. }
  destruct (Z.eq_dec z r) as [->|N]; [split; [apply Qle_refl|intros _ X; contradiction]|].
  assert (D : (b <= Z.abs (z * b - r * b))%Z) by nia. split.
  - apply (Qmult_le_r _ _ (inject_Z b) HbQ). rewrite !S, <- Zle_Qle. lia.
  - intros E _. apply HE. assert (X : (Z.abs (a - r * b) = Z.abs (a - z * b))%Z). { apply inject_Z_injective. rewrite <- !S. rewrite E. reflexivity. } lia.
Qed.
Lemma sixd_nearest n q d k : (0 < n)%Z -> (0 < q)%Z -> sixd n q = (d, k) -> forall x, x * inject_Z q == inject_Z n -> nearest_six x d k.
Proof.
  intros Hn Hq. unfold sixd. destruct (scaled n q (exp10 n q)) as [a b] eqn:SC. pose proof (exp10_spec n q Hn Hq a b SC) as [Hb B]. unfold scaled in SC.
  set (K := exp10 n q) in *. clearbody K.
  assert (RD : (if K <=? 5 then round_div (n * 10 ^ (5 - K)) q else round_div n (q * 10 ^ (K - 5)))%Z = round_div a b) by (destruct (Z.leb_spec K 5); apply pair_equal_spec in SC; destruct SC as [<- <-]; reflexivity).
  rewrite RD. clear RD. intros H x Hx.
  set (u := Qpower (10 # 1) (K - 5)). assert (Hu : 0 < u) by apply p10_pos.
  set (y := x / u). assert (Hxy : x == y * u) by (unfold y; field; intros X; rewrite X in Hu; discriminate).
  assert (Hy : y * inject_Z b == inject_Z a).
  { destruct (Z.leb_spec K 5) as [E|E]; apply pair_equal_spec in SC; destruct SC as [<- <-].
    - rewrite inject_Z_mult, <- Hx, <- p10_Z by lia. unfold y. assert (U : u * Qpower (10 # 1) (5 - K) == 1). { unfold u. rewrite <- p10_add. replace (K - 5 + (5 - K))%Z with 0%Z by lia. reflexivity. }
      setoid_replace (Qpower (10 # 1) (5 - K)) with (/ u). field. intros X; rewrite X in Hu; discriminate.
      apply (Qmult_inj_l _ _ u). intros X; rewrite X in Hu; discriminate. rewrite U. field. intros X; rewrite X in Hu; discriminate.
    - rewrite inject_Z_mult, <- p10_Z by lia. fold u. rewrite <- Hx. unfold y. field. intros X; rewrite X in Hu; discriminate. }
  pose proof (round_best a b y Hb Hy) as RB. destruct (round_div_bound a b Hb) as [HB _]. set (r := round_div a b) in *.
  assert (Rr : (100000 <= r <= 1000000)%Z) by nia. clearbody r.
  assert (HbQ : 0 < inject_Z b) by (rewrite <- (Zlt_Qlt 0); exact Hb).
  assert (Y1 : inject_Z 100000 <= y). { apply (Qmult_le_r _ _ (inject_Z b) HbQ). rewrite Hy, <- inject_Z_mult, <- Zle_Qle. lia. }
  assert (Y2 : y < inject_Z 1000000). { apply (Qmult_lt_r _ _ (inject_Z b) HbQ). rewrite Hy, <- inject_Z_mult, <- Zlt_Qlt. lia. }
  (* the value of (d, k) is r units *)
  assert (V : six_sig d k == inject_Z r * u /\ six_ok d /\ ((d, k) = (r, K) \/ (d = 100000 /\ k = K + 1 /\ r = 1000000))%Z).
  { unfold six_sig, six_ok. destruct (Z.eqb_spec r 1000000) as [E|E]; injection H as <- <-.
    - split; [|split; [lia|right; repeat split; lia]]. rewrite E. replace (K + 1 - 5)%Z with (K - 5 + 1)%Z by lia. rewrite p10_add. fold u. change (Qpower (10 # 1) 1) with (10 # 1). change (inject_Z 1000000) with (1000000 # 1). change (inject_Z 100000) with (100000 # 1). ring.
    - split; [reflexivity|]. split; [lia|]. left. reflexivity. }
  destruct V as (V1 & V2 & V3). split; [exact V2|]. intros n' k' Hn'. unfold six_ok in Hn'.
  set (v := inject_Z n' * Qpower (10 # 1) (k' - K)).
  assert (V' : six_sig n' k' == v * u). { unfold six_sig, v, u. replace (k' - 5)%Z with (k' - K + (K - 5))%Z by lia. rewrite p10_add. ring. }
  assert (A : forall w, Qabs (x - w * u) == Qabs (y - w) * u).
  { intros w. rewrite <- (Qabs_pos u) at 2 by (apply Qlt_le_weak; exact Hu). rewrite <- Qabs_Qmult. setoid_replace (x - w * u) with ((y - w) * u) by (rewrite Hxy; ring). reflexivity. }
  rewrite V1, V', !A.
  assert (G : Qabs (y - inject_Z r) <= Qabs (y - v) /\ (Qabs (y - inject_Z r) == Qabs (y - v) -> (n', k') <> (d, k) -> Z.even d = true)).
  { assert (Ev : (d = 100000)%Z -> Z.even d = true) by (intros ->; reflexivity).
    destruct (Z_lt_le_dec k' K) as [C|C]; [|destruct (Z.eq_dec k' K) as [->|C']].
    - (* below *)
      assert (LT : v < inject_Z 100000).
      { unfold v. assert (Qpower (10 # 1) (k' - K) <= 1 # 10). { change (1 # 10) with (Qpower (10 # 1) (-1)). apply Qpower_le_compat_l; [lia|discriminate]. }
        assert (N : inject_Z n' <= inject_Z 999999) by (rewrite <- Zle_Qle; lia). change (inject_Z 999999) with (999999 # 1) in N. change (inject_Z 100000) with (100000 # 1).
        assert (0 <= inject_Z n') by (change 0 with (inject_Z 0); rewrite <- Zle_Qle; lia).
        apply Qle_lt_trans with (inject_Z n' * (1 # 10)); [rewrite !(Qmult_comm (inject_Z n')); apply Qmult_le_compat_r; assumption|lra]. }
      destruct (RB 100000%Z) as [R1 _]. rewrite (Qabs_pos (y - v)) by lra. rewrite (Qabs_pos (y - inject_Z 100000)) in R1 by lra.
      split; [lra|]. intros X _. lra.
    - (* the same exponent *)
      assert (VV : v == inject_Z n') by (unfold v; rewrite Z.sub_diag; change (Qpower (10 # 1) 0) with 1; ring). rewrite VV.
      destruct (RB n') as [R1 R2]. split; [exact R1|]. intros X Y. destruct V3 as [E|(E & _)]; [|apply Ev; exact E].
      injection E as <- <-. apply R2; [exact X|]. intros Z. apply Y. congruence.
    - (* above *)
      assert (GE : inject_Z 1000000 <= v).
      { unfold v. assert (10 # 1 <= Qpower (10 # 1) (k' - K)). { change (10 # 1) with (Qpower (10 # 1) 1) at 1. apply Qpower_le_compat_l; [lia|discriminate]. }
        assert (N : inject_Z 100000 <= inject_Z n') by (rewrite <- Zle_Qle; lia). change (inject_Z 100000) with (100000 # 1) in N. change (inject_Z 1000000) with (1000000 # 1).
        assert (0 <= inject_Z n') by (change 0 with (inject_Z 0); rewrite <- Zle_Qle; lia).
        apply Qle_trans with (inject_Z n' * (10 # 1)); [lra|rewrite !(Qmult_comm (inject_Z n')); apply Qmult_le_compat_r; assumption]. }
      destruct (RB 1000000%Z) as [R1 R2]. rewrite (Qabs_neg (y - v)) by lra. rewrite (Qabs_neg (y - inject_Z 1000000)) in R1, R2 by lra.
      split; [lra|]. intros X _. destruct V3 as [E|(E & _)]; [|apply Ev; exact E]. injection E as -> ->. apply R2; [lra|]. intros Z. rewrite <- Z in H. cbn in H. injection H as H1 _. lia. }
  destruct G as [G1 G2]. split.
  - apply Qmult_le_compat_r; [exact G1|apply Qlt_le_weak; exact Hu].
  - intros X. apply G2. apply (Qmult_inj_r _ _ u); [intros Z; rewrite Z in Hu; discriminate|exact X].
Qed.

(* ---------------------------------------------------------------- the text of a double *)
Lemma dQ_abs x : Qabs (dQ x) == inject_Z (Z.abs (dm x)) * Qpower (2 # 1) (de x).
Proof.
  unfold dQ. rewrite Qabs_Qmult. rewrite (Qabs_pos (Qpower _ _)) by (apply Qlt_le_weak; apply Qpower_0_lt; reflexivity). reflexivity.
Qed.
Lemma dQ_zero x : dQ x == 0 <-> dm x = 0%Z.
Proof.
  unfold dQ. assert (P : 0 < Qpower (2 # 1) (de x)) by (apply Qpower_0_lt; reflexivity). split; intros H.
  - apply Qmult_integral in H. destruct H as [H|H]; [|rewrite H in P; discriminate]. apply inject_Z_injective. exact H.
  - rewrite H. ring.
Qed.
Lemma dQ_neg x : dQ x < 0 <-> (dm x < 0)%Z.
Proof.
  unfold dQ. assert (P : 0 < Qpower (2 # 1) (de x)) by (apply Qpower_0_lt; reflexivity). rewrite (Zlt_Qlt (dm x) 0). change (inject_Z 0) with 0.
  set (p := Qpower (2 # 1) (de x)) in *. set (m := inject_Z (dm x)). clearbody p m. split; intros H.
  - destruct (Qlt_le_dec m 0) as [L|L]; [exact L|exfalso]. assert (0 <= m * p) by (apply Qmult_le_0_compat; [exact L|apply Qlt_le_weak; exact P]). lra.
  - setoid_replace 0 with (0 * p) by ring. apply Qmult_lt_r; assumption.
Qed.
Local Open Scope Z_scope.
Lemma show_dbl_general x : general_text (dQ x) (show_dbl x).
Proof.
  unfold show_dbl. destruct (Z.eqb_spec (dm x) 0) as [E|E].
  - left. split; [apply dQ_zero; exact E|reflexivity].
  - right. split; [intros X; apply dQ_zero in X; contradiction|].
    assert (S : exists n q, 0 < n /\ 0 < q /\ (if 0 <=? de x then sixd (Z.abs (dm x) * 2 ^ de x) 1 else sixd (Z.abs (dm x)) (2 ^ (- de x))) = sixd n q /\
      (Qabs (dQ x) * inject_Z q == inject_Z n)%Q).
    { assert (HA : 0 < Z.abs (dm x)) by lia. destruct (Z.leb_spec 0 (de x)) as [L|L].
      - exists (Z.abs (dm x) * 2 ^ de x), 1. assert (0 < 2 ^ de x) by (apply Z.pow_pos_nonneg; lia). split; [nia|]. split; [lia|]. split; [reflexivity|].
        rewrite dQ_abs, inject_Z_mult. change (2 # 1)%Q with (inject_Z 2). rewrite Zpower_Qpower by exact L. change (inject_Z 1) with 1%Q. ring.
      - exists (Z.abs (dm x)), (2 ^ (- de x)). assert (0 < 2 ^ (- de x)) by (apply Z.pow_pos_nonneg; lia). split; [exact HA|]. split; [assumption|]. split; [reflexivity|].
        rewrite dQ_abs, Zpower_Qpower by lia. change (inject_Z 2) with (2 # 1)%Q. rewrite <- Qmult_assoc, <- Qpower_plus by discriminate. rewrite Z.add_opp_diag_r. change (Qpower (2 # 1) 0) with 1%Q. ring. }
    destruct S as (n & q & Hn & Hq & -> & HQ). destruct (sixd n q) as [d k] eqn:SD. pose proof (sixd_nearest n q d k Hn Hq SD (Qabs (dQ x)) HQ) as NS.
    pose proof (proj1 NS) as D6. unfold six_ok in D6.
    assert (SG : (if dm x <? 0 then "-" else "") = (if Qlt_le_dec (dQ x) 0 then "-" else "")).
    { destruct (Qlt_le_dec (dQ x) 0) as [L|L]; destruct (Z.ltb_spec (dm x) 0) as [M|M]; try reflexivity; exfalso.
      - apply dQ_neg in L. lia.
      - apply dQ_neg in M. apply Qlt_not_le in M. contradiction. }
    rewrite SG. destruct ((-4 <=? k) && (k <? 6)) eqn:B.
    + exists d, k, (mant (Z.to_nat (5 - k)) d). split; [exact NS|]. cbv zeta. rewrite B. split; [apply mant_trimmed; lia|reflexivity].
    + exists d, k, (mant 5 d). split; [exact NS|]. cbv zeta. rewrite B. split; [apply mant_trimmed; lia|reflexivity].
Qed.
(* the text is determined *)
Lemma trimmed_fun j n t t' : trimmed j n t -> trimmed j n t' -> t = t'.
Proof.
  assert (W : forall i i' q q', (i < i' <= j)%nat -> n = q * 10 ^ Z.of_nat (j - i) -> n = q' * 10 ^ Z.of_nat (j - i') -> q' mod 10 = 0).
  { intros i i' q q' H E E'. replace (Z.of_nat (j - i)) with (1 + (Z.of_nat (i' - i - 1) + Z.of_nat (j - i'))) in E by lia. rewrite !Z.pow_add_r in E by lia.
    assert (P : 10 ^ Z.of_nat (j - i') <> 0) by (apply Z.pow_nonzero; lia). rewrite E' in E. replace (q * (10 ^ 1 * (10 ^ Z.of_nat (i' - i - 1) * 10 ^ Z.of_nat (j - i')))) with ((q * 10 ^ Z.of_nat (i' - i - 1) * 10) * 10 ^ Z.of_nat (j - i')) in E by (change (10 ^ 1) with 10; ring).
    apply Z.mul_reg_r in E; [|exact P]. rewrite E. apply Z.mod_mul. lia. }
  intros (i & q & H & E & M) (i' & q' & H' & E' & M').
  destruct (lt_eq_lt_dec i i') as [[L|L]|L].
  - exfalso. destruct i' as [|i']; [lia|]. destruct M' as [M' _]. apply M'. exact (W i (Datatypes.S i') q q' ltac:(lia) E E').
  - subst i'. assert (q' = q). { assert (P : 10 ^ Z.of_nat (j - i) <> 0) by (apply Z.pow_nonzero; lia). apply (Z.mul_reg_r _ _ _ P). congruence. } subst q'.
    destruct i as [|i]; [congruence|]. destruct M as [_ M], M' as [_ M']. exact (fixed_point_fun _ _ _ _ _ M M').
  - exfalso. destruct i as [|i]; [lia|]. destruct M as [M _]. apply M. exact (W i' (Datatypes.S i) q' q ltac:(lia) E' E).
Qed.
Local Open Scope Q_scope.
Lemma six_sig_shift n k e : six_sig n (k + e) == inject_Z n * Qpower (10 # 1) e * Qpower (10 # 1) (k - 5).
Proof. unfold six_sig. replace (k + e - 5)%Z with (e + (k - 5))%Z by lia. rewrite p10_add. ring. Qed.
Lemma between_closer x v w v' : v < w -> w < v' -> Qabs (x - v) == Qabs (x - v') -> Qabs (x - w) < Qabs (x - v).
Proof.
  intros H1 H2. apply Qabs_case; intros A; apply Qabs_case; intros B; intros E; try lra; apply Qabs_case; intros C; lra.
Qed.
Lemma nearest_order x n k n' k' : nearest_six x n k -> nearest_six x n' k' -> (k < k')%Z \/ (k = k' /\ n < n')%Z -> False.
Proof.
  intros [O1 N1] [O2 N2] H. unfold six_ok in O1, O2.
  assert (NE : (n', k') <> (n, k)) by (intros X; injection X; intros; lia).
  destruct (N1 n' k' O2) as [A1 B1]. destruct (N2 n k O1) as [A2 B2].
  assert (EQ : Qabs (x - six_sig n k) == Qabs (x - six_sig n' k')) by (apply Qle_antisym; assumption).
  assert (EV := B1 EQ NE). assert (EV' : Z.even n' = true) by (apply B2; [symmetry; exact EQ|intros X; apply NE; symmetry; exact X]).
  assert (O3 : six_ok (n + 1)). { unfold six_ok. destruct (Z.eq_dec n 999999) as [->|]; [discriminate EV|lia]. }
  assert (U : 0 < Qpower (10 # 1) (k - 5)) by apply p10_pos.
  assert (L1 : six_sig n k < six_sig (n + 1) k). { unfold six_sig. apply Qmult_lt_r; [exact U|]. rewrite <- Zlt_Qlt. lia. }
  assert (L2 : six_sig (n + 1) k < six_sig n' k').
  { destruct H as [H|[<- H]].
    - replace k' with (k + (k' - k))%Z by lia. rewrite six_sig_shift. unfold six_sig. apply Qmult_lt_r; [exact U|].
      assert (T : 10 # 1 <= Qpower (10 # 1) (k' - k)). { change (10 # 1) with (Qpower (10 # 1) 1) at 1. apply Qpower_le_compat_l; [lia|discriminate]. }
      assert (G : inject_Z 100000 <= inject_Z n') by (rewrite <- Zle_Qle; lia). change (inject_Z 100000) with (100000 # 1) in G.
      assert (G0 : 0 <= inject_Z n') by lra. unfold six_ok in O3. assert (G3 : inject_Z (n + 1) <= inject_Z 999999) by (rewrite <- Zle_Qle; lia). change (inject_Z 999999) with (999999 # 1) in G3.
      apply Qlt_le_trans with (inject_Z n' * (10 # 1)); [lra|]. rewrite !(Qmult_comm (inject_Z n')). apply Qmult_le_compat_r; assumption.
    - unfold six_sig. apply Qmult_lt_r; [exact U|]. rewrite <- Zlt_Qlt. destruct (Z.eq_dec n' (n + 1)) as [->|]; [|lia]. exfalso. rewrite Z.even_add, EV in EV'. discriminate EV'. }
  pose proof (between_closer x _ _ _ L1 L2 EQ) as C. destruct (N1 (n + 1)%Z k O3) as [A _]. apply Qle_not_lt in A. contradiction.
Qed.
Lemma nearest_fun x n k n' k' : nearest_six x n k -> nearest_six x n' k' -> n = n' /\ k = k'.
Proof.
  intros A B. destruct (Ztrichotomy k k') as [L|[E|L]]; [exfalso; exact (nearest_order _ _ _ _ _ A B (or_introl L))| |exfalso; apply (nearest_order _ _ _ _ _ B A); left; lia].
  subst k'. split; [|reflexivity]. destruct (Ztrichotomy n n') as [L|[L|L]]; [exfalso|exact L|exfalso].
  - apply (nearest_order _ _ _ _ _ A B). right. lia.
  - apply (nearest_order _ _ _ _ _ B A). right. lia.
Qed.
Lemma general_text_fun x t t' : general_text x t -> general_text x t' -> t = t'.
Proof.
  intros [[A1 A2]|[A (n & k & m & N & T)]] [[B1 B2]|[B (n' & k' & m' & N' & T')]]; try contradiction; [congruence|].
  destruct (nearest_fun _ _ _ _ _ N N') as [<- <-]. cbv zeta in T, T'. destruct ((-4 <=? k) && (k <? 6))%Z; destruct T as [T ->], T' as [T' ->]; rewrite (trimmed_fun _ _ _ _ T T'); reflexivity.
Qed.
Local Open Scope Z_scope.

(* ---------------------------------------------------------------- the report *)
From Verif Require Import UtcSpec NavSpec NavGpsSpec NavStrSpec NavGalSpec NavObj NavGpsThm NavGloThm NavIso NavPage NavGal NavGalThm Calendar.
Lemma show_clock t : printable t -> exists a, show_utc t = Ok a /\ clock_text t a.
Proof.
  intros H. eexists. split; [exact (show_utc_text t H)|]. eexists (civil (sec t / 86400)), _, _, _. split; [apply on_day_civil|].
  split; [|split; [|split; [|split; [|reflexivity]]]]; lia.
Qed.
Lemma show_time t : printable t -> exists a, show_utc t = Ok a /\ time_text t (a ++ " (" ++ number (sec t) ++ ", " ++ number (nsec t) ++ ")").
Proof. intros H. destruct (show_clock t H) as (a & A & B). exists a. split; [exact A|]. exists a. split; [exact B|reflexivity]. Qed.
Definition shown_texts (e : eph) : list string :=
  [dec (i32 (ei e Ftow)); dec (ei e Fiodc); dec (ei e Fiode); dec (ei e Fweek); dec (i32 (ei e Ftoes)); dec (i32 (ei e Ftocs)); dec (ei e Fhealth); dec (ei e Falert); dec (ei e Fspoof);
   dec (ei e FcodeL2); dec (ei e Fura); dec (ei e FL2P); dec (ei e Ffit); dec (ei e Faodo)] ++
  map (fun f => show_dbl (ed e f)) [Ftgd0; Ftgd1; Ftgd2; Ftgd3; Faf2; Faf1; Faf0; Fm0; Fdeltan; Fecc; Fsqrta; Fomega0; Fi0; Fw; Fomegadot; Fidot; Fcuc; Fcus; Fcrc; Fcrs; Fcic; Fcis].
Lemma report_shown e : printable (e_toe e) -> printable (e_toc e) -> ei e FgnssID = 2 ->
  exists t, show_eph e = Ok t /\ galileo_report e (week_line e ++ t ++ nl).
Proof.
  intros H1 H2 G. destruct (show_time _ H1) as (a & A1 & A2). destruct (show_time _ H2) as (b & B1 & B2).
  unfold show_eph, ltm. rewrite A1, B1. cbn [bind]. eexists. split; [reflexivity|].
  eexists _, _, (shown_texts e). split; [exact A2|]. split; [exact B2|]. split.
  - unfold report_lines, shown_texts. cbn [map List.app]. repeat (apply Forall2_cons; [first [reflexivity|apply show_dbl_general]|]). apply Forall2_nil.
  - rewrite G. unfold report_lines, shown_texts, week_line, li, ld, line. cbn [map List.app combine fst snd String.concat].
    change (String (ascii_of_nat 10) "") with nl. change (Type_name 2) with "Galileo". change dec with number.
    generalize (number (i32 (ei e Ftow))) (number (ei e Fiodc)) (number (ei e Fiode)) (number (ei e Fweek)) (number (i32 (ei e Ftoes))) (number (i32 (ei e Ftocs))) (number (ei e Fhealth)).
    intros. rewrite !sapp_assoc. cbn [append]. reflexivity.
Qed.
Lemma glo_quiet cbs now gn sv fr dw g g' ev r : decodeGlonass cbs now gn sv fr dw g = Ok (g', ev, r) -> ~ In (EvFell FN_PRINT) ev.
Proof.
  unfold decodeGlonass. intros H.
  assert (S : forall b x y z w, glo_string now b x = Ok (y, z, w) -> z = [] \/ z = [EvFell FN_GLOFRAME]).
  { intros b x y z w X. unfold glo_string in X.
    repeat (cbv zeta in X; match type of X with
      | bind ?q _ = Ok _ => let a := fresh "v" in apply bind_inv in X; destruct X as (a & _ & X)
      | (if ?c then _ else _) = Ok _ => destruct c end); first [left; congruence|right; congruence]. }
  assert (N : forall z c, z = [] \/ z = [EvFell FN_GLOFRAME] -> ~ In (EvFell FN_PRINT) (z ++ map (fun k => EvGeph k c) cbs)%list).
  { intros z c X I. apply in_app_or in I. destruct I as [I|I]; [destruct X as [-> | ->]; [exact I|destruct I as [I|[]]; discriminate I]|].
    apply in_map_iff in I. destruct I as (k & I & _). discriminate I. }
  destruct (sv =? 255); [injection H as _ <- _; intros []|]. destruct (utc_eq now _); [injection H as _ <- _; intros []|]. cbv zeta in H.
  apply bind_inv in H. destruct H as (ok & _ & H). destruct (negb ok); [injection H as _ <- _; intros []|].
  apply bind_inv in H. destruct H as (b1 & _ & H). apply bind_inv in H. destruct H as (b2 & _ & H).
  apply bind_inv in H. destruct H as (((x, z), w) & E & H). apply S in E. destruct (negb w).
  - assert (ev = z) by congruence. subst z. destruct E as [-> | ->]; [intros []|intros [X|[]]; discriminate X].
  - match type of H with Ok (_, (z ++ map (fun c => EvGeph c ?g) cbs)%list, _) = _ => assert (ev = (z ++ map (fun c => EvGeph c g) cbs)%list) by congruence end. subst ev. apply N. exact E.
Qed.
Lemma release_printable w0 w1 w4 e : l_late w0 w1 w4 = false -> ei e FgnssID = 2 -> printable (e_toe (ldone w0 w1 w4 e)) /\ printable (e_toc (ldone w0 w1 w4 e)) /\ ei (ldone w0 w1 w4 e) FgnssID = 2.
Proof.
  intros L G. pose proof (wfield_range w1 16 14 ltac:(lia)) as R1. pose proof (wfield_range w4 54 14 ltac:(lia)) as R4. pose proof (wfield_range w0 96 12 ltac:(lia)) as R0.
  change (2 ^ Z.of_nat 14) with 16384 in *. change (2 ^ Z.of_nat 12) with 4096 in *.
  assert (W : 0 <= l_week w0 w1) by (unfold l_week; cbv zeta; destruct (302400 <? _); [lia|destruct (_ <? -302400); lia]).
  unfold l_late in L. set (k := l_week w0 w1) in *. assert (B : k * 604800 + 60 * Z.max (wfield w1 16 14) (wfield w4 54 14) < 2 ^ 31) by lia.
  split; [|split]; [| |exact G]; unfold printable, ldone; cbn [e_toe e_toc seti set_toc set_toe sec]; fold k; change (2 ^ 31) with 2147483648 in *; lia.
Qed.
Lemma says_start s m : sf_gnss m = 2 -> nav_says s m =
  (let* (_, e, _, r) := decodeGalileo (n_ecb s) (n_rows s) (sf_dw m) (start_rec s m) in if r then let* t := show_eph e in Ok (week_line e ++ t ++ nl) else Ok "").
Proof.
  intros G. unfold nav_says. rewrite G. cbn [Z.eqb Pos.eqb].
  destruct (slot_spec (fun e => ei e Fsat =? sf_sv m) eph_new eph_new (n_eph s)) as (l & i & ES & EN & _). rewrite ES, EN. unfold start_rec. rewrite G. reflexivity.
Qed.
Lemma says_step junk s m s' ev r : msg_ok m -> (sf_sv m <> 0 -> row_ok (n_rows s (sf_sv m - 1))) -> convertUBX junk s m = Ok (s', ev, r) ->
  exists t, nav_says s m = Ok t /\ told ev t.
Proof.
  intros (Hdw & _ & Hsv & _) HR HC. destruct (Z.eq_dec (sf_gnss m) 2) as [G|G].
  - rewrite (says_start s m G). pose proof (convert_gal junk s m G) as HV.
    pose proof (gal_decode (n_ecb s) (n_rows s) (sf_dw m) (start_rec s m) (sf_sv m) Hdw eq_refl Hsv HR) as HD.
    destruct (l_usable (sf_dw m)).
    + destruct (sf_sv m =? 0); [rewrite HD in HV; congruence|]. destruct HD as (row' & _ & _ & ED). rewrite ED in *. unfold gal_out in *. cbv zeta in *.
      destruct (l_ready (row_held row')); [destruct (l_late _ _ _) eqn:LL|].
      * congruence.
      * cbn [bind]. destruct HV as (s1 & EC & _). set (d := ldone _ _ _ _) in *.
        destruct (release_printable (row_word row' 0) (row_word row' 1) (row_word row' 4) (lfill (row_word row' 1) (row_word row' 2) (row_word row' 3) (row_word row' 4) (row_word row' 5) (start_rec s m)) LL) as (P1 & P2 & P3); [exact G|].
        fold d in P1, P2, P3. destruct (report_shown d P1 P2 P3) as (t & T1 & T2). rewrite T1. cbn [bind]. eexists. split; [reflexivity|].
        left. exists d, (n_ecb s). split; [congruence|exact T2].
      * cbn [bind]. exists "". split; [reflexivity|]. right. destruct HV as (s1 & EC & _). assert (ev = []) by congruence. subst ev. split; [intros []|reflexivity].
    + rewrite HD in *. cbn [bind]. exists "". split; [reflexivity|]. right. destruct HV as (s1 & EC & _). assert (ev = []) by congruence. subst ev. split; [intros []|reflexivity].
  - exists "". unfold nav_says. replace (sf_gnss m =? 2) with false by lia. split; [reflexivity|]. right. split; [|reflexivity].
    destruct (Z.eq_dec (sf_gnss m) 6) as [G6|G6]; [|destruct (Z.eq_dec (sf_gnss m) 0) as [G0|G0]].
    + pose proof (convert_glo junk s m G6) as HV. destruct (decodeGlonass _ _ _ _ _ _ _) as [((g', ev'), b')|k] eqn:E; [|congruence].
      destruct HV as (s1 & EC & _). assert (ev = ev') by congruence. subst ev'. exact (glo_quiet _ _ _ _ _ _ _ _ _ _ E).
    + pose proof (convert_gps junk s m G0) as HV. destruct (decodeGPS _ _ _) as [((e', d), b')|k]; [|congruence].
      destruct HV as (s1 & EC & _). assert (ev = calls_eph (n_ecb s) d) by congruence. subst ev. unfold calls_eph. destruct d; [|intros []].
      intros I. apply in_map_iff in I. destruct I as (c & I & _). discriminate I.
    + destruct (convert_other junk s m G0 G G6) as (s1 & EC & _). assert (X : ev = [EvFell (if sf_gnss m =? 3 then FN_BEIDOU else FN_CONVERT)]) by congruence. subst ev.
      destruct (sf_gnss m =? 3); intros [I|[]]; discriminate I.
Qed.
(* over a history *)
Definition store_sound (st : rows) : Prop := forall sv, 1 <= sv <= 255 -> row_ok (st (sv - 1)).
Lemma store_step junk s o s' ev : store_sound (n_rows s) -> (forall m, o = NMsg m -> msg_ok m) -> nav_step junk s o = Ok (s', ev) -> store_sound (n_rows s').
Proof.
  intros HS HM H sv Hsv. apply (gal_hist junk s sv ltac:(lia) (HS sv Hsv) [o] s' ev).
  - intros m [I|[]]. apply HM. exact I.
  - cbn [nav_run]. rewrite H. cbn [bind]. rewrite app_nil_r. reflexivity.
Qed.
Lemma console_run junk : forall h s s' ev, store_sound (n_rows s) -> msgs_ok h -> nav_run junk s h = Ok (s', ev) ->
  exists ts, nav_console junk s h = Ok ts /\ length ts = length h /\
    forall h1 o h2, h = (h1 ++ o :: h2)%list -> exists s1 e1 s2 e2, nav_run junk s h1 = Ok (s1, e1) /\ nav_step junk s1 o = Ok (s2, e2) /\ told e2 (nth (length h1) ts "").
Proof.
  induction h as [|o h IH]; intros s s' ev HS HM HR.
  - exists []. split; [reflexivity|]. split; [reflexivity|]. intros h1 o h2 E. destruct h1; discriminate E.
  - cbn [nav_run] in HR. apply bind_inv in HR. destruct HR as ((s1, e1) & E1 & HR). apply bind_inv in HR. destruct HR as ((s2, e2) & E2 & _).
    assert (M1 : forall m, o = NMsg m -> msg_ok m) by (intros m ->; apply HM; left; reflexivity).
    destruct (IH s1 s2 e2 (store_step junk s o s1 e1 HS M1 E1) (fun m I => HM m (or_intror I)) E2) as (ts & T1 & T2 & T3).
    assert (T : exists t, (match o with NMsg m => nav_says s m | _ => Ok "" end) = Ok t /\ told e1 t).
    { destruct o as [m|u|c|c]; cbn [nav_step] in E1.
      - apply bind_inv in E1. destruct E1 as (((sa, ea), ra) & EC & E1). assert (ea = e1) by congruence. subst ea.
        apply (says_step junk s m sa e1 ra (M1 m eq_refl)); [|exact EC]. intros NZ. apply HS.
        destruct (M1 m eq_refl) as (_ & _ & Hsv & _). unfold byte_ok in Hsv. lia.
      - exists "". split; [reflexivity|]. right. assert (e1 = []) by congruence. subst e1. split; [intros []|reflexivity].
      - exists "". split; [reflexivity|]. right. assert (e1 = []) by congruence. subst e1. split; [intros []|reflexivity].
      - exists "". split; [reflexivity|]. right. assert (e1 = []) by congruence. subst e1. split; [intros []|reflexivity]. }
    destruct T as (t & Q1 & Q2). exists (t :: ts). split; [|split; [cbn; congruence|]].
    + cbn [nav_console]. rewrite Q1. cbn [bind]. rewrite E1. cbn [bind]. rewrite T1. reflexivity.
    + intros h1 x h2 E. destruct h1 as [|y h1].
      * injection E as <- <-. exists s, [], s1, e1. split; [reflexivity|]. split; [exact E1|exact Q2].
      * injection E as <- ->. destruct (T3 h1 x h2 eq_refl) as (sa & ea & sb & eb & A & B & C). exists sa, (e1 ++ ea)%list, sb, eb. split; [|split; [exact B|exact C]].
        cbn [nav_run]. rewrite E1. cbn [bind]. rewrite A. reflexivity.
Qed.
Lemma gal_says junk s m sv : msg_ok m -> is_gal sv m = true -> sv <> 0 -> row_ok (n_rows s (sv - 1)) ->
  let H' := l_step (row_held (n_rows s (sv - 1))) (sf_dw m) in
  if l_usable (sf_dw m) && l_ready H' then l_toolate H' = false -> exists s' d t,
    convertUBX junk s m = Ok (s', EvFell FN_PRINT :: map (fun c => EvEph c d) (n_ecb s), Some true) /\ gal_release sv H' d /\ nav_says s m = Ok t /\ galileo_report d t
  else nav_says s m = Ok "".
Proof.
  intros (Hdw & _ & Hsv & _) HM NZ HR H'. unfold is_gal in HM. assert (G : sf_gnss m = 2) by lia. assert (SV : sf_sv m = sv) by lia.
  rewrite (says_start s m G). pose proof (convert_gal junk s m G) as HV.
  pose proof (gal_decode (n_ecb s) (n_rows s) (sf_dw m) (start_rec s m) sv Hdw SV ltac:(rewrite <- SV; exact Hsv) (fun _ => HR)) as HD.
  destruct (l_usable (sf_dw m)) eqn:EU; cbn [andb]; [|rewrite HD; reflexivity].
  replace (sv =? 0) with false in HD by lia. destruct HD as (row' & _ & RH & ED). rewrite ED in *. fold H' in RH. unfold gal_out in *. cbv zeta in *.
  assert (RX : forall k, 0 <= k <= 6 -> row_held row' k = H' k) by (intros k _; apply RH). rewrite (ready_ext _ _ RX) in *.
  destruct (l_ready H') eqn:ER; [|reflexivity]. intros TL0.
  destruct (late_words H' (row_word row') ER) as (TL & W0 & W1 & W2 & W3 & W4 & W5).
  { intros k w HK. rewrite <- RH in HK. unfold row_held in HK. destruct (_ && Z.testbit _ _); [|discriminate]. injection HK as HK. symmetry. exact HK. }
  rewrite TL in TL0. rewrite TL0 in *. cbn [bind]. destruct HV as (s1 & EC & _). set (e1 := lfill _ _ _ _ _ _) in *.
  destruct (release_printable (row_word row' 0) (row_word row' 1) (row_word row' 4) e1 TL0) as (P1 & P2 & P3); [exact G|].
  destruct (report_shown _ P1 P2 P3) as (t & T1 & T2). rewrite T1. cbn [bind]. eexists s1, _, _. split; [exact EC|]. split; [|split; [reflexivity|exact T2]].
  eexists _, _, _, _, _, _. split; [exact W0|]. split; [exact W1|]. split; [exact W2|]. split; [exact W3|]. split; [exact W4|]. split; [exact W5|].
  exact (content_ok sv _ _ _ _ _ _ (start_rec s m) SV G TL0).
Qed.
Lemma release_says junk s0 sv h s ev m : row_ok (n_rows s0 (sv - 1)) -> msgs_ok h -> msg_ok m -> is_gal sv m = true -> sv <> 0 ->
  nav_run junk s0 h = Ok (s, ev) ->
  let H' := l_step (l_hist sv (row_held (n_rows s0 (sv - 1))) h) (sf_dw m) in
  if l_usable (sf_dw m) && l_ready H' then l_toolate H' = false -> exists s' d t,
    convertUBX junk s m = Ok (s', EvFell FN_PRINT :: map (fun c => EvEph c d) (n_ecb s), Some true) /\ gal_release sv H' d /\ nav_says s m = Ok t /\ galileo_report d t
  else nav_says s m = Ok "".
Proof.
  intros R0 HM Hm HG NZ HR H'. destruct (gal_hist junk s0 sv NZ R0 h s ev HM HR) as [I1 I2].
  pose proof (gal_says junk s m sv Hm HG NZ I1) as HX. cbv zeta in HX.
  assert (EX : forall k, l_step (row_held (n_rows s (sv - 1))) (sf_dw m) k = H' k) by (apply l_step_ext; exact I2).
  destruct (ready_ext' _ _ EX) as (X1 & X2 & X3). rewrite X1, X2 in HX. destruct (_ && _); [|exact HX].
  intros F. destruct (HX F) as (s' & d & t & A & B & C & D). exists s', d, t. split; [exact A|]. split; [apply X3; exact B|]. split; assumption.
Qed.
(* the numbers of the record that no Galileo message provides *)
Definition not_galileo_i (f : ifld) : Prop := In f [Ftow; Ftocs; Fhealth; Falert; Fspoof; FcodeL2; Fura; FL2P; Ffit; Faodo].
Definition not_galileo_d (f : dfld) : Prop := In f [Ftgd2; Ftgd3].
Lemma galileo_keeps junk s m s' ev r : sf_gnss m = 2 -> convertUBX junk s m = Ok (s', ev, r) ->
  (forall f, not_galileo_i f -> ei (eph_of s' (sf_sv m)) f = ei (eph_of s (sf_sv m)) f) /\ (forall f, not_galileo_d f -> ed (eph_of s' (sf_sv m)) f = ed (eph_of s (sf_sv m)) f).
Proof.
  intros G HC. pose proof (convert_gal junk s m G) as HV.
  destruct (decodeGalileo (n_ecb s) (n_rows s) (sf_dw m) (start_rec s m)) as [(((st, e'), ev'), b)|k] eqn:E; [|congruence].
  destruct HV as (s1 & EC & EE & _). assert (s1 = s') by congruence. subst s1. rewrite EE.
  assert (K : (forall f, not_galileo_i f -> ei e' f = ei (start_rec s m) f) /\ (forall f, not_galileo_d f -> ed e' f = ed (start_rec s m) f)).
  { clear EC EE HC. generalize dependent (start_rec s m). intros e E.
    assert (GI : forall b x y ok, gal_inav b x = Ok (y, ok) -> (forall f, not_galileo_i f -> ei y f = ei x f) /\ (forall f, not_galileo_d f -> ed y f = ed x f)).
    { clear. intros b x y ok H. unfold gal_inav in H.
      repeat (cbv zeta in H; match type of H with
      | bind ?q _ = Ok _ => let a := fresh "v" in apply bind_inv in H; destruct H as (a & _ & H)
      | (if ?c then _ else _) = Ok _ => destruct c end);
      apply (f_equal (fun o => match o with Ok p => Some (fst p) | UB _ => None end)) in H; cbn [fst] in H; injection H as <-;
      (split; intros f I; unfold not_galileo_i, not_galileo_d in I; cbn [In] in I; repeat (destruct I as [<-|I]; [reflexivity|]); destruct I). }
    unfold decodeGalileo in E.
    repeat (cbv zeta in E; match type of E with
      | bind (gal_inav _ _) _ = Ok _ => let Q := fresh in apply bind_inv in E; destruct E as ((e1, ok1) & Q & E); apply GI in Q
      | bind ?q _ = Ok _ => let a := fresh "v" in apply bind_inv in E; destruct E as (a & _ & E)
      | (if ?c then _ else _) = Ok _ => destruct c
      | UB _ = Ok _ => discriminate E end);
    apply (f_equal (fun o => match o with Ok p => Some (snd (fst (fst p))) | UB _ => None end)) in E; cbn [fst snd] in E; injection E as <-; first [split; reflexivity|assumption]. }
  split; intros f I; [rewrite (proj1 K f I)|rewrite (proj2 K f I)]; unfold start_rec; [|reflexivity].
  unfold not_galileo_i in I. cbn [In] in I. repeat (destruct I as [<-|I]; [reflexivity|]). destruct I.
Qed.

(* ---------------------------------------------------------------- read_log.cpp *)
Definition log_times (ec gc : Z) (x : utc * nev) : list utc :=
  match snd x with
  | EvEph c e => if c =? ec then [fst x; e_toe e] else []
  | EvGeph c g => if c =? gc then [fst x; g_toe g; g_tof g] else []
  | EvFell _ => []
  end.
Lemma log_event_said ec gc now v : Forall printable (log_times ec gc (now, v)) -> exists t, log_event ec gc now v = Ok t /\ said_of ec gc now v t.
Proof.
  unfold log_times, log_event, said_of. cbn [fst snd]. destruct v as [c e|c g|f].
  - destruct (c =? ec); [|intros _; eexists; split; reflexivity]. intros H. inversion H as [|? ? P1 H1]; subst. inversion H1 as [|? ? P2 _]; subst.
    destruct (show_clock now P1) as (a & A1 & A2). destruct (show_clock _ P2) as (b & B1 & B2). unfold log_eph. rewrite A1, B1. cbn [bind]. eexists. split; [reflexivity|].
    exists a, b. split; [exact A2|]. split; [exact B2|]. cbv zeta. unfold line, bar1. change (String (ascii_of_nat 10) "") with nl. change dec with number. rewrite !sapp_assoc. reflexivity.
  - destruct (c =? gc); [|intros _; eexists; split; reflexivity]. intros H. inversion H as [|? ? P1 H1]; subst. inversion H1 as [|? ? P2 H2]; subst. inversion H2 as [|? ? P3 _]; subst.
    destruct (show_clock now P1) as (a & A1 & A2). destruct (show_clock _ P2) as (b & B1 & B2). destruct (show_clock _ P3) as (d & D1 & D2). unfold log_geph. rewrite A1, B1, D1. cbn [bind].
    eexists. split; [reflexivity|]. exists a, b, d. split; [exact A2|]. split; [exact B2|]. split; [exact D2|]. cbv zeta. unfold line, bar2. change (String (ascii_of_nat 10) "") with nl. change dec with number. rewrite !sapp_assoc. reflexivity.
  - intros _. eexists. split; reflexivity.
Qed.
Lemma log_run_said ec gc : forall h, Forall printable (flat_map (log_times ec gc) h) ->
  exists ts, log_run ec gc h = Ok ts /\ Forall2 (fun x t => said_of ec gc (fst x) (snd x) t) h ts.
Proof.
  induction h as [|(now, v) h IH]; intros H; [exists []; split; [reflexivity|constructor]|].
  cbn [flat_map] in H. apply Forall_app in H. destruct H as [H1 H2]. destruct (log_event_said ec gc now v H1) as (t & T1 & T2). destruct (IH H2) as (ts & S1 & S2).
  exists (t :: ts). split; [|constructor; assumption]. cbn [log_run]. rewrite T1. cbn [bind]. rewrite S1. reflexivity.
Qed.
