From Verif Require Import Base NmeaModel.

(* ------------------------------------------------ specification *)
(* no pair of neighbours "$G" or CR LF in l *)
Definition plain (l : list Z) : Prop := forall a b, l <> a ++ [36; 71] ++ b /\ l <> a ++ [13; 10] ++ b.
(* bytes before the first NUL *)
Fixpoint upto0 (l : list Z) : list Z := match l with [] => [] | c :: r => if c =? 0 then [] else c :: upto0 r end.
Definition sentence (body : list Z) : list Z := [36; 71] ++ body ++ [13; 10].

Definition NInv (s : nmea) : Prop := Zlen (n_buf s) = 82 /\ 0 <= n_len s <= 81.

Lemma cstr_spec l : (In 0 l -> cstr l = Ok (upto0 l)) /\ (~ In 0 l -> cstr l = UB UB_cstring).
Proof.
  induction l as [|c l [I1 I2]]; cbn [In cstr upto0]; split; try tauto.
  - intros H. destruct (Z.eqb_spec c 0) as [->|Hc]; [reflexivity|]. rewrite I1 by tauto. reflexivity.
  - intros H. destruct (Z.eqb_spec c 0) as [->|Hc]; [tauto|]. rewrite I2 by tauto. reflexivity.
Qed.
Lemma in0_dec (l : list Z) : In 0 l \/ ~ In 0 l.
Proof. destruct (in_dec Z.eq_dec 0 l); auto. Qed.

(* the buffer after the byte has been stored *)
Definition stored (s : nmea) (b : Z) : list Z := firstn (Z.to_nat (n_len s)) (n_buf s) ++ b :: skipn (S (Z.to_nat (n_len s))) (n_buf s).
Lemma aset_stored s b : NInv s -> aset (n_buf s) (n_len s) b = Ok (stored s b) /\ Zlen (stored s b) = 82.
Proof.
  intros [HB HL]. unfold stored. set (k := Z.to_nat (n_len s)).
  assert (Hk : (k < length (n_buf s))%nat) by (unfold Zlen in HB; lia).
  destruct (skipn k (n_buf s)) as [|y r] eqn:E.
  { exfalso. apply (f_equal (@length Z)) in E. rewrite skipn_length in E. cbn in E. lia. }
  assert (EB : n_buf s = firstn k (n_buf s) ++ y :: r) by (rewrite <- E; symmetry; apply firstn_skipn).
  assert (EK : n_len s = Zlen (firstn k (n_buf s))) by (unfold Zlen; rewrite firstn_length; lia).
  assert (ES : skipn (S k) (n_buf s) = r).
  { rewrite EB. rewrite skipn_app. replace (S k - length (firstn k (n_buf s)))%nat with 1%nat by (rewrite firstn_length; lia).
    rewrite skipn_all2 by (rewrite firstn_length; lia). reflexivity. }
  rewrite ES. split.
  - rewrite EK at 1. rewrite EB at 1. apply aset_app.
  - rewrite EB in HB. rewrite Zlen_app, Zlen_cons in *. lia.
Qed.

Lemma u64_small x : 0 <= x < 1000 -> u64 x = x.
Proof. intros H. unfold u64. apply Z.mod_small. change (2 ^ 64) with 18446744073709551616. lia. Qed.

Lemma set2 l : Zlen l = 82 -> exists l2, aset l 0 36 = Ok l2 /\ exists l3, aset l2 1 71 = Ok l3 /\ l3 = [36; 71] ++ skipn 2 l.
Proof.
  intros H. destruct l as [|a [|b l]]; [discriminate H|discriminate H|].
  exists (36 :: b :: l). split; [exact (aset_app nil (b :: l) a 36)|]. exists (36 :: 71 :: l). split; [exact (aset_app [36] l b 71)|reflexivity].
Qed.

Inductive nstep (s : nmea) (b : Z) : Prop :=
| NS_start l : b = 71 -> n_prev s = 36 -> nmea_read s b = Ok (mkNmea 2 true false 71 ([36; 71] ++ l), false, None) -> l = skipn 2 (stored s b) -> nstep s b
| NS_end : b = 10 -> n_prev s = 13 -> In 0 (stored s b) ->
    nmea_read s b = Ok (mkNmea 0 false true 10 (repeat 0 (Z.to_nat N_SIZE)), true, Some (upto0 (stored s b))) -> nstep s b
| NS_over : b = 10 -> n_prev s = 13 -> ~ In 0 (stored s b) -> nmea_read s b = UB UB_cstring -> nstep s b
| NS_more : ~ (b = 71 /\ n_prev s = 36) -> ~ (b = 10 /\ n_prev s = 13) -> n_len s < 81 ->
    nmea_read s b = Ok (mkNmea (n_len s + 1) (n_start s) (n_end s) b (stored s b), false, None) -> nstep s b
| NS_full : ~ (b = 71 /\ n_prev s = 36) -> ~ (b = 10 /\ n_prev s = 13) -> n_len s = 81 ->
    nmea_read s b = Ok (mkNmea 0 false false b (stored s b), false, None) -> nstep s b.

Lemma nmea_step s b : NInv s -> nstep s b.
Proof.
  intros HI. destruct (aset_stored s b HI) as [EA EL]. destruct HI as [HB HL].
  destruct (Z.eqb_spec b 71) as [E1|E1].
  { destruct (Z.eqb_spec (n_prev s) 36) as [E2|E2].
    - destruct (set2 (stored s b) EL) as (l2 & A2 & l3 & A3 & E3).
      apply (NS_start s b (skipn 2 (stored s b))); [exact E1|exact E2| |reflexivity].
      unfold nmea_read. rewrite EA. cbn [bind n_prev n_buf n_len n_start n_end]. unfold N_START1, N_START2, N_END1, N_END2. rewrite E1, E2 in *. cbn [Z.eqb Pos.eqb andb].
      rewrite A2. cbn [bind]. rewrite A3. cbn [bind n_prev n_buf n_len n_start n_end]. rewrite E3. reflexivity.
    - assert (R : nmea_read s b = (let s3 := if 82 <=? u64 (n_len s + 1) then mkNmea 0 false false (n_prev s) (stored s b) else mkNmea (u64 (n_len s + 1)) (n_start s) (n_end s) (n_prev s) (stored s b) in
                 Ok (mkNmea (n_len s3) (n_start s3) (n_end s3) b (n_buf s3), false, None))).
      { unfold nmea_read. rewrite EA. cbn [bind n_prev n_buf n_len n_start n_end]. unfold N_START1, N_START2, N_END1, N_END2, N_SIZE.
        replace ((b =? 71) && (n_prev s =? 36)) with false by lia. cbn [bind n_prev n_buf n_len]. replace ((b =? 10) && (n_prev s =? 13)) with false by lia. reflexivity. }
      rewrite u64_small in R by lia. cbv zeta in R.
      destruct (Z.eqb_spec (n_len s) 81) as [E3|E3].
      + apply NS_full; [lia|lia|exact E3|]. rewrite R. replace (82 <=? n_len s + 1) with true by lia. reflexivity.
      + apply NS_more; [lia|lia|lia|]. rewrite R. replace (82 <=? n_len s + 1) with false by lia. reflexivity. }
  destruct ((b =? 10) && (n_prev s =? 13)) eqn:EE.
  { assert (b = 10 /\ n_prev s = 13) as [Eb Ep] by lia.
    assert (R : nmea_read s b = (let* t := cstr (stored s b) in Ok (mkNmea 0 false true b (repeat 0 (Z.to_nat N_SIZE)), true, Some t))).
    { unfold nmea_read. rewrite EA. cbn [bind n_prev n_buf n_len n_start n_end]. unfold N_START1, N_START2, N_END1, N_END2.
      replace ((b =? 71) && (n_prev s =? 36)) with false by lia. cbn [bind n_prev n_buf]. rewrite EE. reflexivity. }
    destruct (in0_dec (stored s b)) as [H0|H0].
    - apply NS_end; [exact Eb|exact Ep|exact H0|]. rewrite R, (proj1 (cstr_spec _) H0). cbn [bind]. rewrite Eb. reflexivity.
    - apply NS_over; [exact Eb|exact Ep|exact H0|]. rewrite R, (proj2 (cstr_spec _) H0). reflexivity. }
  assert (R : nmea_read s b = (let s3 := if 82 <=? u64 (n_len s + 1) then mkNmea 0 false false (n_prev s) (stored s b) else mkNmea (u64 (n_len s + 1)) (n_start s) (n_end s) (n_prev s) (stored s b) in
               Ok (mkNmea (n_len s3) (n_start s3) (n_end s3) b (n_buf s3), false, None))).
  { unfold nmea_read. rewrite EA. cbn [bind n_prev n_buf n_len n_start n_end]. unfold N_START1, N_START2, N_END1, N_END2, N_SIZE.
    replace ((b =? 71) && (n_prev s =? 36)) with false by lia. cbn [bind n_prev n_buf n_len]. rewrite EE. reflexivity. }
  rewrite u64_small in R by lia. cbv zeta in R.
  destruct (Z.eqb_spec (n_len s) 81) as [E3|E3].
  + apply NS_full; [lia|lia|exact E3|]. rewrite R. replace (82 <=? n_len s + 1) with true by lia. reflexivity.
  + apply NS_more; [lia|lia|lia|]. rewrite R. replace (82 <=? n_len s + 1) with false by lia. reflexivity.
Qed.

Lemma ninv_step s b s' ok t : NInv s -> nmea_read s b = Ok (s', ok, t) -> NInv s' /\ n_prev s' = b /\ (ok = true <-> b = 10 /\ n_prev s = 13).
Proof.
  intros HI E. destruct (aset_stored s b HI) as [_ EL]. pose proof HI as [HB HL].
  destruct (nmea_step s b HI) as [l E1 E2 R ->|E1 E2 H0 R|E1 E2 H0 R|N1 N2 H3 R|N1 N2 H3 R]; rewrite R in E; [| |discriminate| |];
    assert (EQ := f_equal (fun o => match o with Ok (x, _, _) => x | UB _ => s end) E); cbn beta iota in EQ;
    assert (EQ2 := f_equal (fun o => match o with Ok (_, x, _) => x | UB _ => true end) E); cbn beta iota in EQ2; subst s' ok; unfold NInv; cbn [n_buf n_len n_prev].
  - split; [|split; [congruence|split; [discriminate|lia]]]. split; [|lia]. change ([36; 71] ++ skipn 2 (stored s b)) with (36 :: 71 :: skipn 2 (stored s b)).
    rewrite !Zlen_cons. unfold Zlen in *. rewrite skipn_length. lia.
  - split; [|split; [congruence|tauto]]. split; [vm_compute; reflexivity|lia].
  - split; [|split; [reflexivity|split; [discriminate|tauto]]]. split; [exact EL|lia].
  - split; [|split; [reflexivity|split; [discriminate|tauto]]]. split; [exact EL|lia].
Qed.

Lemma nreach_inv buf0 s : Zlen buf0 = 82 -> NReach buf0 s -> NInv s.
Proof.
  intros Hz H. induction H as [|s b s' ok t _ IH _ E|s _ IH].
  - split; [exact Hz|cbn; lia].
  - apply (ninv_step s b s' ok t IH E).
  - destruct IH as [H1 _]. split; [exact H1|cbn; lia].
Qed.

(* ------------------------------------------------ whole streams *)
Lemma nmea_safe buf0 s b : Zlen buf0 = 82 -> NReach buf0 s -> byte_ok b ->
  (exists s' ok t, nmea_read s b = Ok (s', ok, t) /\ NReach buf0 s' /\ 0 <= n_len s' <= 81) \/
  (nmea_read s b = UB UB_cstring /\ b = 10 /\ n_prev s = 13 /\ ~ In 0 (stored s b)).
Proof.
  intros Hz HR Hb. pose proof (nreach_inv buf0 s Hz HR) as HI.
  destruct (nmea_read s b) as [[[s' ok] t]|k] eqn:E.
  - left. exists s', ok, t. split; [reflexivity|]. split; [eapply NR_read; eassumption|]. apply (ninv_step s b s' ok t HI E).
  - right. destruct (nmea_step s b HI) as [l E1 E2 R _|E1 E2 H0 R|E1 E2 H0 R|N1 N2 H3 R|N1 N2 H3 R]; rewrite R in E; try discriminate. split; [congruence|tauto].
Qed.

Lemma nmea_results : forall bs s s' outs, NInv s -> nmea_feed s bs = Ok (s', outs) ->
  length outs = length bs /\
  forall k, (k < length bs)%nat -> (fst (nth k outs (false, None)) = true <-> nth k bs 0 = 10 /\ nth k (n_prev s :: bs) 0 = 13).
Proof.
  induction bs as [|b r IH]; intros s s' outs HI E; cbn [nmea_feed] in E.
  - assert (outs = []) by congruence. subst outs. split; [reflexivity|]. intros k Hk. cbn in Hk. lia.
  - destruct (nmea_read s b) as [[[s1 ok] t]|] eqn:E1; cbn [bind] in E; [|discriminate].
    destruct (nmea_feed s1 r) as [[s2 o]|] eqn:E2; cbn [bind] in E; [|discriminate].
    assert (outs = (ok, t) :: o) by congruence. subst outs.
    destruct (ninv_step s b s1 ok t HI E1) as (HI1 & EP & EO). destruct (IH s1 s2 o HI1 E2) as [HL HK].
    split; [cbn [length]; congruence|]. intros [|k] Hk; cbn [nth fst].
    + exact EO.
    + cbn [length] in Hk. rewrite (HK k) by lia. rewrite EP. reflexivity.
Qed.

(* ------------------------------------------------ one sentence *)
Lemma stored_app pre y r st en pv b : stored (mkNmea (Zlen pre) st en pv (pre ++ y :: r)) b = pre ++ b :: r.
Proof.
  unfold stored. cbn [n_len n_buf]. replace (Z.to_nat (Zlen pre)) with (length pre) by (unfold Zlen; lia).
  rewrite firstn_app, Nat.sub_diag, firstn_all. cbn [firstn]. rewrite app_nil_r.
  rewrite skipn_app. replace (S (length pre) - length pre)%nat with 1%nat by lia. rewrite skipn_all2 by lia. reflexivity.
Qed.

Definition nquiet (n : nat) : list (bool * option (list Z)) := repeat (false, None) n.
Lemma plain_tl a l : plain (a :: l) -> plain l.
Proof. intros H x y. destruct (H (a :: x) y) as [H1 H2]. split; intros E; [apply H1|apply H2]; rewrite E; reflexivity. Qed.
Lemma body_feed body : forall pre rest st en pv,
  plain (pv :: body) -> Zlen pre + Zlen body <= 81 -> Zlen (pre ++ rest) = 82 ->
  nmea_feed (mkNmea (Zlen pre) st en pv (pre ++ rest)) body =
  Ok (mkNmea (Zlen (pre ++ body)) st en (last body pv) (pre ++ body ++ skipn (length body) rest), nquiet (length body)).
Proof.
  induction body as [|b r IH]; intros pre rest st en pv HP HL HZ.
  - cbn. rewrite app_nil_r. reflexivity.
  - rewrite Zlen_cons in HL. pose proof (Zlen_nonneg r). rewrite Zlen_app in HZ. pose proof (Zlen_nonneg pre).
    destruct rest as [|y rest]; [change (@Zlen Z []) with 0 in HZ; lia|].
    assert (HI : NInv (mkNmea (Zlen pre) st en pv (pre ++ y :: rest))).
    { split; cbn [n_buf n_len]; [rewrite Zlen_app; exact HZ|lia]. }
    assert (R : nmea_read (mkNmea (Zlen pre) st en pv (pre ++ y :: rest)) b = Ok (mkNmea (Zlen pre + 1) st en b (pre ++ b :: rest), false, None)).
    { destruct (nmea_step _ b HI) as [l E1 E2 R _|E1 E2 HH0 R|E1 E2 HH0 R|N1 N2 H3 R|N1 N2 H3 R]; cbn [n_prev n_len] in *.
      - exfalso. subst. destruct (HP [] r) as [Hq _]. apply Hq. reflexivity.
      - exfalso. subst. destruct (HP [] r) as [_ Hq]. apply Hq. reflexivity.
      - exfalso. subst. destruct (HP [] r) as [_ Hq]. apply Hq. reflexivity.
      - rewrite R. cbn [n_start n_end]. rewrite stored_app. reflexivity.
      - lia. }
    cbn [nmea_feed]. rewrite R. cbn [bind].
    assert (EN : mkNmea (Zlen pre + 1) st en b (pre ++ b :: rest) = mkNmea (Zlen (pre ++ [b])) st en b ((pre ++ [b]) ++ rest)).
    { rewrite Zlen_app, <- app_assoc. reflexivity. }
    rewrite EN, IH.
    + cbn [bind length nquiet repeat skipn]. rewrite <- !app_assoc. cbn [app]. f_equal. f_equal.
      replace (last (b :: r) pv) with (last r b); [reflexivity|]. destruct r as [|z r]; [reflexivity|]. cbn [last].
      clear. revert z. induction r as [|w r IH]; intros z; [reflexivity|]. apply (IH w).
    + apply plain_tl in HP. exact HP.
    + rewrite Zlen_app. change (Zlen [b]) with 1. lia.
    + rewrite Zlen_app. rewrite Zlen_cons in HZ. rewrite Zlen_app. change (Zlen [b]) with 1. lia.
Qed.

Lemma nmea_feed_app a : forall s b,
  nmea_feed s (a ++ b) = (let* (s1, o1) := nmea_feed s a in let* (s2, o2) := nmea_feed s1 b in Ok (s2, o1 ++ o2)).
Proof.
  induction a as [|x a IH]; intros s b; cbn [app nmea_feed bind].
  - destruct (nmea_feed s b) as [[s2 o2]|k]; reflexivity.
  - destruct (nmea_read s x) as [[[s1 ok] t]|k]; cbn [bind]; [|reflexivity]. rewrite IH.
    destruct (nmea_feed s1 a) as [[s2 o2]|k]; cbn [bind]; [|reflexivity].
    destruct (nmea_feed s2 b) as [[s3 o3]|k]; cbn [bind]; reflexivity.
Qed.

Lemma upto0_app a b : ~ In 0 a -> upto0 (a ++ b) = a ++ upto0 b.
Proof.
  induction a as [|x a IH]; intros H; [reflexivity|]. cbn [app upto0]. cbn [In] in H.
  destruct (Z.eqb_spec x 0) as [->|_]; [tauto|]. rewrite IH by tauto. reflexivity.
Qed.

(* "$G" opens a sentence in any state *)
Lemma open_sentence s : NInv s -> exists s1 tl, nmea_feed s [36; 71] = Ok (s1, nquiet 2) /\
  s1 = mkNmea 2 true false 71 ([36; 71] ++ tl) /\ Zlen tl = 80 /\
  (forall z, n_buf s = repeat z 82 -> n_len s = 0 -> tl = repeat z 80).
Proof.
  intros HI. pose proof HI as [HB HL].
  assert (E1 : exists s1, nmea_read s 36 = Ok (s1, false, None) /\ n_prev s1 = 36 /\ NInv s1 /\
     (n_len s = 0 -> n_len s1 = 1 /\ n_buf s1 = stored s 36)).
  { destruct (nmea_step s 36 HI) as [l E1 E2 R _|E1 E2 H0 R|E1 E2 H0 R|N1 N2 H3 R|N1 N2 H3 R]; try discriminate E1.
    - eexists. split; [exact R|]. split; [reflexivity|]. split; [apply (ninv_step _ _ _ _ _ HI R)|]. cbn [n_len n_buf]. intros HH. split; [lia|reflexivity].
    - eexists. split; [exact R|]. split; [reflexivity|]. split; [apply (ninv_step _ _ _ _ _ HI R)|]. lia. }
  destruct E1 as (s1 & R1 & EP & HI1 & HC). destruct (aset_stored s1 71 HI1) as [_ EL].
  destruct (nmea_step s1 71 HI1) as [l E1 E2 R El|E1 E2 H0 R|E1 E2 H0 R|N1 N2 H3 R|N1 N2 H3 R]; try discriminate E1; [|lia|lia].
  exists (mkNmea 2 true false 71 ([36; 71] ++ l)), l. split; [cbn [nmea_feed]; rewrite R1; cbn [bind]; rewrite R; reflexivity|]. split; [reflexivity|].
  split; [rewrite El; unfold Zlen in *; rewrite skipn_length; lia|].
  intros z Ez H0. destruct (HC H0) as [H1 H2]. rewrite El. unfold stored at 1. rewrite H1, H2. unfold stored. rewrite H0, Ez. reflexivity.
Qed.

Lemma sentence_spec s body : NInv s -> plain (71 :: body ++ [13]) ->
  ~ In 0 body -> Zlen body <= 78 ->
  exists tl, Zlen tl = 80 /\ (forall z, n_buf s = repeat z 82 -> n_len s = 0 -> tl = repeat z 80) /\
    let stale := skipn (length body + 2) tl in
    (In 0 stale -> exists s', nmea_feed s (sentence body) = Ok (s', nquiet (length body + 3) ++ [(true, Some (sentence body ++ upto0 stale))]) /\
        n_buf s' = repeat 0 (Z.to_nat N_SIZE) /\ n_len s' = 0 /\ nmea_parsing s' = false) /\
    (~ In 0 stale -> nmea_feed s (sentence body) = UB UB_cstring).
Proof.
  intros HI HP H0 HL. destruct (open_sentence s HI) as (s1 & tl & E1 & Es1 & HT & HC). exists tl. split; [exact HT|]. split; [exact HC|].
  set (stale := skipn (length body + 2) tl). cbv zeta.
  assert (EB : nmea_feed s1 (body ++ [13]) = Ok (mkNmea (Zlen body + 3) true false 13 ([36; 71] ++ (body ++ [13]) ++ skipn (length (body ++ [13])) tl), nquiet (length body + 1))).
  { rewrite Es1. pose proof (body_feed (body ++ [13]) [36; 71] tl true false 71 HP) as HBF.
    change (Zlen [36; 71]) with 2 in HBF. rewrite HBF.
    - rewrite last_last, app_length, !Zlen_app. change (Zlen [36; 71]) with 2. change (Zlen [13]) with 1. cbn [length].
      replace (2 + (Zlen body + 1)) with (Zlen body + 3) by lia. reflexivity.
    - rewrite Zlen_app. change (Zlen [13]) with 1. lia.
    - rewrite Zlen_app, HT. reflexivity. }
  set (s2 := mkNmea (Zlen body + 3) true false 13 ([36; 71] ++ (body ++ [13]) ++ skipn (length (body ++ [13])) tl)) in *.
  assert (HI2 : NInv s2).
  { split; [|cbn [s2 n_len]; pose proof (Zlen_nonneg body); lia]. cbn [s2 n_buf]. rewrite !Zlen_app. unfold Zlen in *. rewrite skipn_length, app_length. cbn [length]. lia. }
  assert (ESK : exists y, skipn (length (body ++ [13])) tl = y :: stale).
  { destruct (skipn (length (body ++ [13])) tl) as [|y q] eqn:E.
    - exfalso. apply (f_equal (@length Z)) in E. rewrite skipn_length, app_length in E. cbn [length] in E. unfold Zlen in *. lia.
    - exists y. f_equal. unfold stale. replace (length body + 2)%nat with (1 + length (body ++ [13%Z]))%nat by (rewrite app_length; cbn [length]; lia).
      rewrite <- skipn_add, E. reflexivity. }
  destruct ESK as [y ESK].
  assert (EST : stored s2 10 = sentence body ++ stale).
  { assert (Es2 : s2 = mkNmea (Zlen ([36; 71] ++ body ++ [13])) true false 13 (([36; 71] ++ body ++ [13]) ++ y :: stale)).
    { unfold s2. rewrite ESK. f_equal; [rewrite !Zlen_app; change (Zlen [36; 71]) with 2; change (Zlen [13]) with 1; lia]. }
    rewrite Es2, stored_app. unfold sentence. rewrite <- !app_assoc. reflexivity. }
  assert (HN0 : ~ In 0 (sentence body)).
  { unfold sentence. intros Hin. cbn [app In] in Hin. destruct Hin as [Hin|[Hin|Hin]]; try discriminate. apply in_app_or in Hin. destruct Hin as [Hin|Hin]; [tauto|].
    cbn [In] in Hin. lia. }
  assert (SPLIT : sentence body = [36; 71] ++ (body ++ [13]) ++ [10]) by (unfold sentence; rewrite <- app_assoc; reflexivity).
  split; intros Hs.
  - destruct (nmea_step s2 10 HI2) as [l F1 F2 R _|F1 F2 G0 R|F1 F2 G0 R|N1 N2 H3 R|N1 N2 H3 R]; try discriminate F1; [| |exfalso; apply N2; split; reflexivity|exfalso; apply N2; split; reflexivity].
    + rewrite EST, upto0_app in R by exact HN0.
      exists (mkNmea 0 false true 10 (repeat 0 (Z.to_nat N_SIZE))).
      split; [|split; [reflexivity|split; reflexivity]].
      assert (EF : nmea_feed s ([36; 71] ++ (body ++ [13]) ++ [10]) = Ok (mkNmea 0 false true 10 (repeat 0 (Z.to_nat N_SIZE)), nquiet 2 ++ nquiet (length body + 1) ++ [(true, Some (sentence body ++ upto0 stale))])).
      { rewrite nmea_feed_app, E1. cbn [bind]. rewrite nmea_feed_app, EB. cbn [bind nmea_feed]. rewrite R. reflexivity. }
      rewrite <- SPLIT in EF. rewrite EF. f_equal. f_equal. replace (length body + 3)%nat with (2 + (length body + 1))%nat by lia.
      unfold nquiet. rewrite (repeat_app _ 2 (length body + 1)), <- app_assoc. reflexivity.
    + exfalso. apply G0. rewrite EST. apply in_or_app. right. exact Hs.
  - destruct (nmea_step s2 10 HI2) as [l F1 F2 R _|F1 F2 G0 R|F1 F2 G0 R|N1 N2 H3 R|N1 N2 H3 R]; try discriminate F1; [| |exfalso; apply N2; split; reflexivity|exfalso; apply N2; split; reflexivity].
    + exfalso. rewrite EST in G0. apply in_app_or in G0. tauto.
    + assert (EF : nmea_feed s ([36; 71] ++ (body ++ [13]) ++ [10]) = UB UB_cstring).
      { rewrite nmea_feed_app, E1. cbn [bind]. rewrite nmea_feed_app, EB. cbn [bind nmea_feed]. rewrite R. reflexivity. }
      rewrite <- SPLIT in EF. exact EF.
Qed.
