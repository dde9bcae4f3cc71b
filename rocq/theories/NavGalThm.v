(* Galileo over histories. *)
From Verif Require Import Base UtcModel UtcSpec Dbl NavModel NavSpec NavGpsSpec NavStrSpec NavStr NavGalSpec NavObj NavGpsThm NavGloThm NavIso NavGlo NavPage NavGal.
From Verif Require Import CrcSpec.

Lemma rows_other junk s m s' ev r sv : convertUBX junk s m = Ok (s', ev, r) -> is_gal sv m = false -> n_rows s' (sv - 1) = n_rows s (sv - 1).
Proof.
  intros RS EG. unfold is_gal in EG.
  destruct (Z.eq_dec (sf_gnss m) 6) as [G|G6]; [|destruct (Z.eq_dec (sf_gnss m) 2) as [G|G2]; [|destruct (Z.eq_dec (sf_gnss m) 0) as [G|G0]]].
  - pose proof (convert_glo junk s m G) as HV. destruct (decodeGlonass _ _ _ _ _ _ _) as [((g', ev'), b')|k]; [|rewrite HV in RS; discriminate].
    destruct HV as (x & EV & _ & (K1 & K2 & K3 & K4 & K5 & K6)). rewrite EV in RS. injection RS as <- _. rewrite K6. reflexivity.
  - pose proof (convert_gal junk s m G) as HV. pose proof (gal_local (n_ecb s) (n_rows s) (n_rows s) (sf_dw m) (start_rec s m) eq_refl) as HL.
    change (ei (start_rec s m) Fsat) with (sf_sv m) in HL.
    destruct (decodeGalileo _ _ _ _) as [(((st', e'), ev'), b')|k]; [|rewrite HV in RS; discriminate].
    destruct HV as (x & EV & _ & _ & KR & _). rewrite EV in RS. injection RS as <- _. rewrite KR. destruct HL as (_ & _ & _ & HK & _). apply HK. lia.
  - pose proof (convert_gps junk s m G) as HV. destruct (decodeGPS _ _ _) as [((e', d), b')|k]; [|rewrite HV in RS; discriminate].
    destruct HV as (x & EV & _ & _ & KR & _). rewrite EV in RS. injection RS as <- _. rewrite KR. reflexivity.
  - destruct (convert_other junk s m G0 G2 G6) as (x & EV & _ & _ & KR & _). rewrite EV in RS. injection RS as <- _. rewrite KR. reflexivity.
Qed.

Lemma late_words (H : held) (W : Z -> Z) : l_ready H = true -> (forall k w, H k = Some w -> w = W k) ->
  l_toolate H = l_late (W 0) (W 1) (W 4) /\ H 0 = Some (W 0) /\ H 1 = Some (W 1) /\ H 2 = Some (W 2) /\ H 3 = Some (W 3) /\ H 4 = Some (W 4) /\ H 5 = Some (W 5).
Proof.
  intros HR HW. unfold l_ready in HR. unfold l_toolate.
  destruct (H 0) as [w0|] eqn:E0; [|discriminate]. destruct (H 1) as [w1|] eqn:E1; [|discriminate]. destruct (H 2) as [w2|] eqn:E2; [|discriminate].
  destruct (H 3) as [w3|] eqn:E3; [|discriminate]. destruct (H 4) as [w4|] eqn:E4; [|discriminate]. destruct (H 5) as [w5|] eqn:E5; [|discriminate].
  rewrite <- (HW 0 w0 E0), <- (HW 1 w1 E1), <- (HW 2 w2 E2), <- (HW 3 w3 E3), <- (HW 4 w4 E4), <- (HW 5 w5 E5). repeat split; reflexivity.
Qed.

(* one Galileo message *)
Lemma gal_message junk s m sv : msg_ok m -> is_gal sv m = true -> (sv <> 0 -> row_ok (n_rows s (sv - 1))) ->
  let dw := sf_dw m in let H' := l_step (row_held (n_rows s (sv - 1))) dw in
  if l_usable dw && (sv =? 0) then convertUBX junk s m = UB UB_oob_write
  else if l_usable dw && l_ready H' && l_toolate H' then convertUBX junk s m = UB UB_overflow
  else exists s' d, convertUBX junk s m = Ok (s', (if l_usable dw && l_ready H' then EvFell FN_PRINT :: map (fun c => EvEph c d) (n_ecb s) else []), Some (l_usable dw && l_ready H')) /\
    (l_usable dw && l_ready H' = true -> gal_release sv H' d) /\ n_time s' = n_time s /\
    (sv <> 0 -> row_ok (n_rows s' (sv - 1)) /\ forall k, row_held (n_rows s' (sv - 1)) k = H' k).
Proof.
  intros (Hdw & _ & Hsv & _) HM HR dw H'. unfold is_gal in HM. assert (G2 : sf_gnss m = 2) by lia. assert (SV : sf_sv m = sv) by lia.
  pose proof (convert_gal junk s m G2) as HV.
  pose proof (gal_decode (n_ecb s) (n_rows s) (sf_dw m) (start_rec s m) sv Hdw SV ltac:(rewrite <- SV; exact Hsv) HR) as HD.
  fold dw in HD, HV. destruct (l_usable dw) eqn:EU; cbn [andb].
  - destruct (Z.eqb_spec sv 0) as [Z0|NZ]; [rewrite HD in HV; exact HV|]. destruct HD as (row' & RO & RH & ED).
    fold H' in RH. rewrite ED in HV. clear ED. unfold gal_out in HV. cbv zeta in HV.
    assert (RX : forall k, 0 <= k <= 6 -> row_held row' k = H' k) by (intros k _; apply RH).
    rewrite (ready_ext _ _ RX) in HV. destruct (l_ready H') eqn:ER; cbn [andb].
    + destruct (late_words H' (row_word row') ER) as (TL & W0 & W1 & W2 & W3 & W4 & W5).
      { intros k w HK. rewrite <- RH in HK. unfold row_held in HK. destruct (_ && Z.testbit _ _); [|discriminate]. injection HK as HK. symmetry. exact HK. }
      rewrite TL. destruct (l_late _ _ _) eqn:LL; [exact HV|].
      destruct HV as (s' & EC & _ & _ & KR & KT). eexists s', _. rewrite EC. split; [reflexivity|]. split; [|split; [exact KT|]].
      * intros _. eexists _, _, _, _, _, _. split; [exact W0|]. split; [exact W1|]. split; [exact W2|]. split; [exact W3|]. split; [exact W4|]. split; [exact W5|].
        exact (content_ok sv _ _ _ _ _ _ (start_rec s m) SV G2 LL).
      * intros _. rewrite KR. unfold rset. rewrite Z.eqb_refl. auto.
    + destruct HV as (s' & EC & _ & _ & KR & KT). exists s', eph_new. rewrite EC. split; [reflexivity|]. split; [discriminate|]. split; [exact KT|].
      intros _. rewrite KR. unfold rset. rewrite Z.eqb_refl. auto.
  - rewrite HD in HV. destruct HV as (s' & EC & _ & _ & KR & KT). exists s', eph_new. rewrite EC. split; [reflexivity|]. split; [discriminate|]. split; [exact KT|].
    intros NZ. rewrite KR. split; [apply HR; exact NZ|]. intros k. unfold H', l_step. rewrite EU. reflexivity.
Qed.

Lemma l_recv_ext H1 H2 w : (forall k, H1 k = H2 k) -> forall k, l_recv H1 w k = l_recv H2 w k.
Proof. intros E k. unfold l_recv. rewrite E. reflexivity. Qed.
Lemma l_step_ext H1 H2 dw : (forall k, H1 k = H2 k) -> forall k, l_step H1 dw k = l_step H2 dw k.
Proof. intros E k. unfold l_step. destruct (l_usable dw); [apply l_recv_ext; exact E|apply E]. Qed.
Lemma l_hist_snoc sv H h o : l_hist sv H (h ++ [o]) = l_op sv (l_hist sv H h) o.
Proof. unfold l_hist. rewrite fold_left_app. reflexivity. Qed.
Lemma ready_ext' (H H' : held) : (forall k, H k = H' k) -> l_ready H = l_ready H' /\ l_toolate H = l_toolate H' /\ (forall sv d, gal_release sv H d -> gal_release sv H' d).
Proof.
  intros E. split; [apply ready_ext; intros; apply E|]. split; [unfold l_toolate; rewrite !E; reflexivity|].
  intros sv d (w0 & w1 & w2 & w3 & w4 & w5 & X). exists w0, w1, w2, w3, w4, w5. rewrite <- !E. exact X.
Qed.

(* the store after any history *)
Lemma gal_hist junk s0 sv : sv <> 0 -> row_ok (n_rows s0 (sv - 1)) -> forall h s ev, msgs_ok h -> nav_run junk s0 h = Ok (s, ev) ->
  row_ok (n_rows s (sv - 1)) /\ forall k, row_held (n_rows s (sv - 1)) k = l_hist sv (row_held (n_rows s0 (sv - 1))) h k.
Proof.
  intros NZ R0. induction h as [|o h IH] using rev_ind; intros s ev HM HR.
  - cbn in HR. injection HR as <- _. split; [exact R0|reflexivity].
  - apply nav_run_snoc in HR. destruct HR as (s1 & e1 & e2 & R1 & RS & _).
    destruct (IH s1 e1) as [I1 I2]; [intros m Hm; apply HM; apply in_or_app; auto|exact R1|]. rewrite l_hist_snoc.
    destruct o as [m|t|c|c]; cbn [nav_step l_op] in *.
    2,3,4: injection RS as <- _; split; [exact I1|exact I2].
    destruct (is_gal sv m) eqn:EG.
    + assert (Hm : msg_ok m) by (apply HM; apply in_or_app; right; left; reflexivity).
      pose proof (gal_message junk s1 m sv Hm EG (fun _ => I1)) as HX. cbv zeta in HX.
      destruct (_ && (sv =? 0)); [rewrite HX in RS; discriminate|]. destruct (_ && l_toolate _); [rewrite HX in RS; discriminate|].
      destruct HX as (s' & d & EC & _ & _ & HRW). rewrite EC in RS. cbn [bind] in RS. injection RS as <- _. destruct (HRW NZ) as [K1 K2].
      split; [exact K1|]. intros k. rewrite K2. apply l_step_ext. exact I2.
    + destruct (convertUBX junk s1 m) as [((s', ev'), r)|] eqn:EC; [|discriminate]. cbn [bind] in RS. injection RS as <- _.
      rewrite (rows_other junk s1 m s' ev' r sv EC EG). split; [exact I1|exact I2].
Qed.

Lemma galileo_release junk s0 sv h s ev m : row_ok (n_rows s0 (sv - 1)) -> msgs_ok h -> msg_ok m -> is_gal sv m = true -> sv <> 0 ->
  nav_run junk s0 h = Ok (s, ev) ->
  let H' := l_step (l_hist sv (row_held (n_rows s0 (sv - 1))) h) (sf_dw m) in
  let fires := l_usable (sf_dw m) && l_ready H' in
  (fires = true -> l_toolate H' = true -> convertUBX junk s m = UB UB_overflow) /\
  (fires = false \/ l_toolate H' = false -> exists s' d,
     convertUBX junk s m = Ok (s', (if fires then EvFell FN_PRINT :: map (fun c => EvEph c d) (n_ecb s) else []), Some fires) /\
     (fires = true -> gal_release sv H' d) /\ n_time s' = n_time s).
Proof.
  intros R0 HM Hm HG NZ HR H' fires. destruct (gal_hist junk s0 sv NZ R0 h s ev HM HR) as [I1 I2].
  pose proof (gal_message junk s m sv Hm HG (fun _ => I1)) as HX. cbv zeta in HX.
  assert (EX : forall k, l_step (row_held (n_rows s (sv - 1))) (sf_dw m) k = H' k) by (apply l_step_ext; exact I2).
  destruct (ready_ext' _ _ EX) as (X1 & X2 & X3). rewrite X1, X2 in HX. fold fires in HX. replace (sv =? 0) with false in HX by lia. rewrite andb_false_r in HX.
  split.
  - intros F T. rewrite F, T in HX. exact HX.
  - intros F. assert (E : fires && l_toolate H' = false) by (destruct F as [F | F]; rewrite F; [reflexivity|apply andb_false_r]). rewrite E in HX.
    destruct HX as (s' & d & EC & EQ & KT & _). exists s', d. split; [exact EC|]. split; [|exact KT]. intros F1. apply X3. exact (EQ F1).
Qed.

(* ------------------------------------------------ the page check *)
From Coq Require Import FinFun.
From Verif Require Import CrcProofs CrcErr CrcFour.
Lemma page_crc_mult dw : page_crc dw = true <-> mult (page_poly dw).
Proof. unfold page_crc. apply prem_zero. apply page_range. Qed.
Lemma page_crc_iff dw : page_crc dw = true <-> pdivides crc24q_poly (page_poly dw).
Proof. rewrite page_crc_mult. symmetry. apply mult_iff. Qed.
Lemma page_bit dw j : 0 <= j < 220 -> Z.testbit (page_poly dw) j = pbit dw (219 - j).
Proof.
  intros Hj. unfold page_poly, pbit. rewrite tb_cat by (try exact (sfield_range dw 210 24); lia). destruct (Z.ltb_spec j 24).
  - rewrite sfield_bit by lia. replace (j <? Z.of_nat 24) with true by lia. replace (219 - j <? 114) with false by lia. cbn [andb]. f_equal. lia.
  - rewrite tb_cat by (try exact (sfield_range dw 128 82); lia). destruct (Z.ltb_spec (j - 24) 82).
    + rewrite sfield_bit by lia. replace (j - 24 <? Z.of_nat 82) with true by lia. replace (219 - j <? 114) with false by lia. cbn [andb]. f_equal. lia.
    + rewrite sfield_bit by lia. replace (j - 24 - 82 <? Z.of_nat 114) with true by lia. replace (219 - j <? 114) with true by lia. cbn [andb]. f_equal. lia.
Qed.
Lemma in_perrs dw dw' i : In i (perrs dw dw') <-> 0 <= i < 220 /\ pbit dw i <> pbit dw' i.
Proof.
  unfold perrs. rewrite filter_In, in_map_iff. split.
  - intros [(n & <- & Hn) HX]. apply in_seq in Hn. split; [lia|]. intros E. rewrite E, xorb_nilpotent in HX. discriminate.
  - intros [Hi HX]. split; [exists (Z.to_nat i); split; [lia|apply in_seq; lia]|].
    destruct (pbit dw i), (pbit dw' i); try reflexivity; exfalso; apply HX; reflexivity.
Qed.
Lemma perr_bit dw dw' j : 0 <= j -> Z.testbit (Z.lxor (page_poly dw) (page_poly dw')) j = true <-> In (219 - j) (perrs dw dw').
Proof.
  intros Hj. rewrite in_perrs, Z.lxor_spec. destruct (Z.lt_ge_cases j 220) as [L|G].
  - rewrite !page_bit by lia. split.
    + intros HX. split; [lia|]. intros E. rewrite E, xorb_nilpotent in HX. discriminate.
    + intros [_ HX]. destruct (pbit dw (219 - j)), (pbit dw' (219 - j)); try reflexivity; exfalso; apply HX; reflexivity.
  - rewrite !(testbit_high 220 (page_poly _)) by (try exact (page_range _); lia). split; [discriminate|lia].
Qed.
Lemma page_errors dw dw' : page_crc dw = true ->
  (1 <= Zlen (perrs dw dw') <= 5 \/ Z.odd (Zlen (perrs dw dw')) = true \/ (perrs dw dw' <> [] /\ exists k, forall e, In e (perrs dw dw') -> k <= e < k + 24)) ->
  page_crc dw' = false.
Proof.
  intros HC HE. apply not_true_is_false. intros HC'. apply page_crc_mult in HC. apply page_crc_mult in HC'.
  pose proof (mult_lxor _ _ HC HC') as HM. pose proof (page_range dw) as R1. pose proof (page_range dw') as R2.
  set (E := Z.lxor (page_poly dw) (page_poly dw')) in *. assert (RE : 0 <= E) by (apply Z.lxor_nonneg; lia).
  set (L := map (fun k => 219 - k) (perrs dw dw')).
  assert (NL : NoDup L) by (apply Injective_map_NoDup; [intros x y; lia|unfold perrs; apply NoDup_filter; apply Injective_map_NoDup; [intros x y; lia|apply seq_NoDup]]).
  assert (RL : forall e, In e L -> 0 <= e < 541).
  { intros e He. apply in_map_iff in He. destruct He as (k & <- & Hk). apply in_perrs in Hk. lia. }
  assert (BL : forall j, 0 <= j -> Z.testbit E j = true <-> In j L).
  { intros j Hj. unfold E. rewrite perr_bit by exact Hj. unfold L. rewrite in_map_iff. split.
    - intros HI. eexists. split; [|exact HI]. lia.
    - intros (k & EK & HI). replace (219 - j) with k by lia. exact HI. }
  assert (LL : Zlen (perrs dw dw') = Z.of_nat (length L)) by (unfold L; rewrite map_length; reflexivity). 
  destruct HE as [HE|[HE|(HN & k & HE)]].
  - exact (few_not_mult E L RE NL RL BL ltac:(lia) HM).
  - rewrite (wsum_eq E L RE NL (fun e He => proj1 (RL e He)) BL) in HM. apply (odd_not_mult L); [intros e He; apply RL; exact He| |exact HM].
    rewrite LL in HE. rewrite <- HE. symmetry. clear. induction (length L) as [|n IH]; [reflexivity|]. rewrite Nat2Z.inj_succ, Z.odd_succ, <- Z.negb_odd, IH, Nat.odd_succ, <- Nat.negb_odd. reflexivity.
  - revert HM. apply (burst_not_mult E (Z.max 0 (219 - 23 - k))); [|lia|].
    + destruct (perrs dw dw') as [|e es] eqn:EE; [congruence|]. assert (HI : In (219 - e) L) by (unfold L; left; reflexivity).
      pose proof (RL _ HI). apply BL in HI; [|lia]. destruct (Z.eq_dec E 0) as [E0|]; [rewrite E0, Z.bits_0 in HI; discriminate|lia].
    + intros j Hj HT. apply BL in HT; [|exact Hj]. apply in_map_iff in HT. destruct HT as (i & <- & Hi). specialize (HE i Hi). apply in_perrs in Hi. lia.
Qed.

(* ------------------------------------------------ where the held words come from *)
Definition word_in (sv k w : Z) (o : nop) : Prop := match o with NMsg m => is_gal sv m = true /\ l_usable (sf_dw m) = true /\ inav (sf_dw m) = w /\ wtype w = k | _ => False end.
Definition no_word (sv k : Z) (h : list nop) : Prop := forall o w, In o h -> ~ word_in sv k w o.
Lemma held_from sv h k w : l_hist sv l_none h k = Some w ->
  exists h1 o h2, h = h1 ++ o :: h2 /\ word_in sv k w o /\ no_word sv k h2 /\ no_word sv 2 h2.
Proof.
  revert k w. induction h as [|o h IH] using rev_ind; intros k w HK; [discriminate|]. rewrite l_hist_snoc in HK.
  assert (KEEP : (forall w', ~ word_in sv k w' o) -> (forall w', ~ word_in sv 2 w' o) -> l_hist sv l_none h k = Some w ->
    exists h1 o' h2, h ++ [o] = h1 ++ o' :: h2 /\ word_in sv k w o' /\ no_word sv k h2 /\ no_word sv 2 h2).
  { intros N1 N2 E. destruct (IH k w E) as (h1 & o' & h2 & -> & W & X & Y). exists h1, o', (h2 ++ [o]). rewrite <- app_assoc. split; [reflexivity|]. split; [exact W|].
    split; intros z w' Hz; apply in_app_or in Hz; (destruct Hz as [Hz|[<-|[]]]; [eauto|eauto]). }
  destruct o as [m|t|c|c]; cbn [l_op] in HK.
  2,3,4: apply KEEP; [intros w' []|intros w' []|exact HK].
  destruct (is_gal sv m) eqn:EG.
  2:{ apply KEEP; [intros w' (X & _); congruence|intros w' (X & _); congruence|exact HK]. }
  unfold l_step in HK. destruct (l_usable (sf_dw m)) eqn:EU.
  2:{ apply KEEP; [intros w' (_ & X & _); congruence|intros w' (_ & X & _); congruence|exact HK]. }
  unfold l_recv in HK. destruct (Z.eqb_spec k (wtype (inav (sf_dw m)))) as [EK|NK].
  - injection HK as HK. exists h, (NMsg m), []. split; [reflexivity|]. split; [|split; intros z w' []]. cbn [word_in]. rewrite <- HK. auto.
  - destruct (Z.eqb_spec (wtype (inav (sf_dw m))) 2) as [E2|N2]; [discriminate|].
    apply KEEP; [intros w' (_ & _ & X & Y); congruence|intros w' (_ & _ & X & Y); congruence|exact HK].
Qed.
Lemma split_order {A} (a b : A) : forall h1 h2 g1 g2, h1 ++ a :: h2 = g1 ++ b :: g2 -> In b h2 \/ a = b \/ In a g2.
Proof.
  induction h1 as [|x h1 IH]; intros h2 [|y g1] g2 H; cbn [app] in H.
  - injection H as -> _. auto.
  - injection H as _ ->. left. apply in_or_app. right. left. reflexivity.
  - injection H as _ <-. right. right. apply in_or_app. right. left. reflexivity.
  - injection H as _ H. eapply IH. exact H.
Qed.
Lemma ready_from sv h : l_ready (l_hist sv l_none h) = true ->
  exists h1 o2 h2 (w : Z -> Z), h = h1 ++ o2 :: h2 /\ word_in sv 2 (w 2) o2 /\ no_word sv 2 h2 /\
    (forall k, 0 <= k <= 6 -> k <> 2 -> exists o, In o h2 /\ word_in sv k (w k) o) /\
    (forall k, 0 <= k <= 6 -> l_hist sv l_none h k = Some (w k)) /\
    wfield (w 0) 6 2 = 2 /\ wiod (w 2) = wiod (w 1) /\ wiod (w 3) = wiod (w 1) /\ wiod (w 4) = wiod (w 1).
Proof.
  intros HR. set (H := l_hist sv l_none h) in *. set (w := fun k => match H k with Some x => x | None => 0 end).
  assert (HA : (forall k, 0 <= k <= 6 -> H k = Some (w k)) /\ wfield (w 0) 6 2 = 2 /\ wiod (w 2) = wiod (w 1) /\ wiod (w 3) = wiod (w 1) /\ wiod (w 4) = wiod (w 1)).
  { unfold l_ready in HR. subst w. cbv beta.
    destruct (H 0) as [w0|] eqn:E0; [|discriminate]. destruct (H 1) as [w1|] eqn:E1; [|discriminate]. destruct (H 2) as [w2|] eqn:E2; [|discriminate].
    destruct (H 3) as [w3|] eqn:E3; [|discriminate]. destruct (H 4) as [w4|] eqn:E4; [|discriminate]. destruct (H 5) as [w5|] eqn:E5; [|discriminate].
    destruct (H 6) as [w6|] eqn:E6; [|discriminate]. split; [|lia].
    intros k Hk. assert (C : k = 0 \/ k = 1 \/ k = 2 \/ k = 3 \/ k = 4 \/ k = 5 \/ k = 6) by lia.
    destruct C as [->|[->|[->|[->|[->|[->| ->]]]]]]; rewrite ?E0, ?E1, ?E2, ?E3, ?E4, ?E5, ?E6; reflexivity. }
  destruct HA as (HA & HB). destruct (held_from sv h 2 (w 2) (HA 2 ltac:(lia))) as (h1 & o2 & h2 & EH & W2 & _ & N2).
  exists h1, o2, h2, w. split; [exact EH|]. split; [exact W2|]. split; [exact N2|]. split; [|split; [exact HA|exact HB]].
  intros k Hk NK. destruct (held_from sv h k (w k) (HA k Hk)) as (g1 & o & g2 & EG & WK & _ & M2). exists o. split; [|exact WK].
  rewrite EH in EG. destruct (split_order _ _ _ _ _ _ EG) as [X|[X|X]]; [exact X| |exfalso; exact (M2 o2 (w 2) X W2)].
  exfalso. subst o2. destruct o as [m| | |]; try contradiction. destruct W2 as (_ & _ & A & B). destruct WK as (_ & _ & C & D). congruence.
Qed.

(* ------------------------------------------------ several parser objects in one process: one store *)
Record proc := mkProc { p_rows : rows; p_obj : nat -> nav }.
Definition with_rows (s : nav) (st : rows) : nav := mkNav (n_eph s) (n_geph s) (n_time s) (n_ecb s) (n_gcb s) st.
Definition proc_step (junk : list Z) (P : proc) (a : nat * nop) : outcome (proc * list (nat * nev)) :=
  let* (s, ev) := nav_step junk (with_rows (p_obj P (fst a)) (p_rows P)) (snd a) in
  Ok (mkProc (n_rows s) (fun j => if Nat.eqb j (fst a) then s else p_obj P j), map (pair (fst a)) ev).
Fixpoint proc_run (junk : list Z) (P : proc) (H : list (nat * nop)) : outcome (proc * list (nat * nev)) :=
  match H with
  | [] => Ok (P, [])
  | a :: r => let* (P1, e1) := proc_step junk P a in let* (P2, e2) := proc_run junk P1 r in Ok (P2, e1 ++ e2)
  end.
Lemma gal_op junk s o s' ev sv : sv <> 0 -> row_ok (n_rows s (sv - 1)) -> (forall m, o = NMsg m -> msg_ok m) -> nav_step junk s o = Ok (s', ev) ->
  row_ok (n_rows s' (sv - 1)) /\ forall k, row_held (n_rows s' (sv - 1)) k = l_op sv (row_held (n_rows s (sv - 1))) o k.
Proof.
  intros NZ I1 HM RS. apply (gal_hist junk s sv NZ I1 [o] s' (ev ++ [])).
  - intros m [E|[]]. apply HM. exact E.
  - cbn [nav_run]. rewrite RS. reflexivity.
Qed.
Lemma l_op_ext sv H1 H2 o : (forall k, H1 k = H2 k) -> forall k, l_op sv H1 o k = l_op sv H2 o k.
Proof. intros E k. destruct o as [m|t|c|c]; cbn [l_op]; try apply E. destruct (is_gal sv m); [apply l_step_ext; exact E|apply E]. Qed.
Lemma l_hist_ext sv : forall h H1 H2, (forall k, H1 k = H2 k) -> forall k, l_hist sv H1 h k = l_hist sv H2 h k.
Proof. induction h as [|o h IH]; intros H1 H2 E k; [apply E|]. cbn [l_hist fold_left]. apply IH. apply l_op_ext. exact E. Qed.
Lemma proc_hist junk sv : sv <> 0 -> forall H P P' ev, row_ok (p_rows P (sv - 1)) -> msgs_ok (map snd H) -> proc_run junk P H = Ok (P', ev) ->
  row_ok (p_rows P' (sv - 1)) /\ forall k, row_held (p_rows P' (sv - 1)) k = l_hist sv (row_held (p_rows P (sv - 1))) (map snd H) k.
Proof.
  intros NZ. induction H as [|[i o] H IH]; intros P P' ev R0 HM HR.
  - injection HR as <- _. split; [exact R0|reflexivity].
  - cbn [proc_run] in HR. apply bind_inv in HR. destruct HR as ((P1 & e1) & E1 & HR). apply bind_inv in HR. destruct HR as ((P2 & e2) & E2 & HR). injection HR as <- _.
    unfold proc_step in E1. cbn [fst snd] in E1. apply bind_inv in E1. destruct E1 as ((s & ev1) & ES & E1). injection E1 as <- _.
    destruct (gal_op junk (with_rows (p_obj P i) (p_rows P)) o s ev1 sv NZ R0 (fun m Em => HM m (or_introl Em)) ES) as [K1 K2].
    destruct (IH (mkProc (n_rows s) (fun j => if Nat.eqb j i then s else p_obj P j)) P2 e2 K1 (fun m Hm => HM m (or_intror Hm)) E2) as [J1 J2]. split; [exact J1|]. intros k. rewrite J2. cbn [map snd l_hist fold_left]. 
    apply l_hist_ext. exact K2.
Qed.
Lemma proc_release junk P0 sv H P ev i m : row_ok (p_rows P0 (sv - 1)) -> msgs_ok (map snd H) -> msg_ok m -> is_gal sv m = true -> sv <> 0 ->
  proc_run junk P0 H = Ok (P, ev) ->
  let H' := l_step (l_hist sv (row_held (p_rows P0 (sv - 1))) (map snd H)) (sf_dw m) in
  let fires := l_usable (sf_dw m) && l_ready H' in
  (fires = true -> l_toolate H' = true -> proc_step junk P (i, NMsg m) = UB UB_overflow) /\
  (fires = false \/ l_toolate H' = false -> exists P' d,
     proc_step junk P (i, NMsg m) = Ok (P', if fires then (i, EvFell FN_PRINT) :: map (fun c => (i, EvEph c d)) (n_ecb (p_obj P i)) else []) /\
     (fires = true -> gal_release sv H' d)).
Proof.
  intros R0 HM Hm HG NZ HR H' fires. destruct (proc_hist junk sv NZ H P0 P ev R0 HM HR) as [I1 I2].
  set (s := with_rows (p_obj P i) (p_rows P)). pose proof (gal_message junk s m sv Hm HG (fun _ => I1)) as HX. cbv zeta in HX.
  assert (EX : forall k, l_step (row_held (n_rows s (sv - 1))) (sf_dw m) k = H' k) by (apply l_step_ext; exact I2).
  destruct (ready_ext' _ _ EX) as (X1 & X2 & X3). rewrite X1, X2 in HX. fold fires in HX. replace (sv =? 0) with false in HX by lia. rewrite andb_false_r in HX.
  unfold proc_step. cbn [fst snd nav_step]. fold s. split.
  - intros F T. rewrite F, T in HX. cbn [andb] in HX. rewrite HX. reflexivity.
  - intros F. assert (E : fires && l_toolate H' = false) by (destruct F as [F | F]; rewrite F; [reflexivity|apply andb_false_r]). rewrite E in HX.
    destruct HX as (s' & d & EC & EQ & KT & _). eexists _, d. rewrite EC. cbn [bind]. split; [|intros F1; apply X3; exact (EQ F1)].
    f_equal. f_equal. destruct fires; [|reflexivity]. cbn [map]. rewrite map_map. reflexivity.
Qed.
Lemma zero_row : row_ok (repeat 0 380) /\ forall k, row_held (repeat 0 380) k = None.
Proof.
  assert (N : nth 112 (repeat 0 380) 0 = 0) by reflexivity. split.
  - split; [apply repeat_length|]. split; [apply Forall_forall; intros x Hx; apply repeat_spec in Hx; subst x; unfold byte_ok; lia|].
    rewrite N. split; [lia|]. intros k _ HK. rewrite Z.bits_0 in HK. discriminate.
  - intros k. unfold row_held. rewrite N, Z.bits_0, andb_false_r. reflexivity.
Qed.
