(* No undefined behaviour of the parser for messages and clocks before 2037 (C42). *)
From Verif Require Import Base UtcModel UtcSpec Dbl NavModel NavSpec NavGpsSpec NavStrSpec NavGloSpec NavGalSpec NavStr NavBits NavGps NavObj NavGpsThm NavGlo NavGloThm NavPage NavGal NavGalThm.

(* messages: no GPS week number after 2048 + 977, no Galileo message of satellite 0, no Galileo time stamp after week
   2000 (both end in December 2037);
   clocks: normal, from 1970 until about 1 h 40 min past 2^31 seconds *)
Definition calm (o : nop) : Prop :=
  match o with
  | NMsg m => msg_ok m /\ (sf_gnss m = 0 -> gps_id (sf_dw m) = 1 -> dfield (sf_dw m) 48 10 <= 977) /\
      (sf_gnss m = 2 -> sf_sv m <> 0 /\ (l_usable (sf_dw m) = true -> wtype (inav (sf_dw m)) = 0 -> wfield (inav (sf_dw m)) 96 12 <= 2000))
  | NTime t => normal t /\ 0 <= sec t < 2147634000
  | _ => True
  end.
Definition erange (e : eph) : Prop := 0 <= ei e Fweek <= 3025 /\ 0 <= ei e Ftoes <= 1048560 /\ 0 <= ei e Ftocs <= 1048560.
Definition wrange (H : held) : Prop := forall w, H 0 = Some w -> wfield w 96 12 <= 2000.
Record SI (s : nav) : Prop := mkSI {
  si_t : normal (n_time s) /\ 0 <= sec (n_time s) < 2147634000;
  si_e : forall sv, erange (eph_of s sv);
  si_g : forall sv, exists T, GG T (geph_of s sv);
  si_r : forall sv, 1 <= sv <= 255 -> row_ok (n_rows s (sv - 1)) /\ wrange (row_held (n_rows s (sv - 1))) }.

Lemma erange_eq e e' : (forall f, f = Fweek \/ f = Ftoes \/ f = Ftocs -> ei e' f = ei e f) -> erange e -> erange e'.
Proof. intros H. unfold erange. rewrite !H by tauto. tauto. Qed.
Lemma erange_start s m : erange (eph_of s (sf_sv m)) -> erange (start_rec s m).
Proof. apply erange_eq. intros f [->|[->| ->]]; reflexivity. Qed.
Lemma recv_range dw e : (gps_id dw = 1 -> dfield dw 48 10 <= 977) -> erange e -> erange (recv_e dw (seti FgnssID 0 e)).
Proof.
  intros HW H. unfold recv_e. pose proof (dfield_range dw 176 16) as R1. pose proof (dfield_range dw 216 16) as R2. pose proof (dfield_range dw 48 10) as R3.
  change (2 ^ Z.of_nat 16) with 65536 in *. change (2 ^ Z.of_nat 10) with 1024 in *. unfold erange in *.
  destruct (Z.eqb_spec (gps_id dw) 1) as [E|_]; [specialize (HW E); revert H; fldred; lia|]. destruct (gps_id dw =? 2); [revert H; fldred; lia|]. destruct (gps_id dw =? 3); [revert H; fldred; lia|]. exact H.
Qed.
Lemma whole_ms s : 0 <= s <= 1048560 -> i32 (u32 (s * 1000)) = s * 1000.
Proof.
  intros H. unfold u32, i32, sgn. change (2 ^ 32) with 4294967296. change (2 ^ (32 - 1)) with 2147483648. rewrite !Z.mod_small by lia.
  replace (s * 1000 <? 2147483648) with true by lia. reflexivity.
Qed.
Definition clock_in (t : utc) : Prop := normal t /\ 0 < sec t < 2147634000.
Lemma finish_range e : erange e -> exists e' d r, gps_finish e = Ok (e', d, r) /\ erange e' /\ match d with Some x => clock_in (e_toe x) | None => True end.
Proof.
  intros H. pose proof H as (H1 & H2 & H3). unfold gps_finish. destruct (gps_complete e).
  2:{ exists e, None, false. split; [reflexivity|]. split; [exact H|exact I]. }
  rewrite (whole_ms (ei e Ftoes)), (whole_ms (ei e Ftocs)) by lia. rewrite !fromGPS_whole by lia. change (2 ^ 31) with 2147483648.
  replace (2147483648 <=? ei e Fweek * 604800 + ei e Ftoes) with false by lia. replace (2147483648 <=? ei e Fweek * 604800 + ei e Ftocs) with false by lia.
  cbn [bind]. eexists _, _, false. split; [reflexivity|]. split.
  - revert H. apply erange_eq. intros f [->|[->| ->]]; reflexivity.
  - cbv iota. cbn [e_toe set_toc set_toe]. unfold clock_in, normal. cbn [sec nsec]. lia.
Qed.
Lemma decodeGPS_range junk dw e : junk_ok junk -> dw_ok dw -> (gps_id dw = 1 -> dfield dw 48 10 <= 977) -> erange e ->
  exists e' d r, decodeGPS junk dw e = Ok (e', d, r) /\ erange e' /\ match d with Some x => clock_in (e_toe x) | None => True end.
Proof.
  intros [J1 J2] Hdw HW HE. rewrite decodeGPS_ok by assumption. cbv zeta. pose proof (recv_range dw e HW HE) as HR. unfold recv_e in HR.
  destruct (gps_id dw =? 1); [apply finish_range; exact HR|]. destruct (gps_id dw =? 2); [apply finish_range; exact HR|].
  destruct (gps_id dw =? 3); [apply finish_range; exact HR|]. eexists _, _, _. split; [reflexivity|]. split; [exact HR|exact I].
Qed.
Lemma lfill_range w1 w2 w3 w4 w5 e : erange e -> erange (lfill w1 w2 w3 w4 w5 e).
Proof.
  intros (H1 & H2 & H3). set (D := lfill w1 w2 w3 w4 w5 e).
  assert (A1 : ei D Fweek = ei e Fweek) by reflexivity. assert (A2 : ei D Ftocs = ei e Ftocs) by reflexivity.
  assert (A3 : ei D Ftoes = u32 (wfield w1 16 14 * 60)) by reflexivity. clearbody D.
  unfold erange. rewrite A1, A2, A3. pose proof (wfield_range w1 16 14 ltac:(lia)) as R. change (2 ^ 14) with 16384 in R.
  unfold u32. change (2 ^ 32) with 4294967296. rewrite Z.mod_small by lia. lia.
Qed.
Lemma ldone_range w0 w1 w4 e : wfield w0 96 12 <= 2000 -> erange e -> erange (ldone w0 w1 w4 e).
Proof.
  intros HW (H1 & H2 & H3). set (D := ldone w0 w1 w4 e).
  assert (A1 : ei D Fweek = u16 (l_week w0 w1)) by reflexivity. assert (A2 : ei D Ftocs = ei e Ftocs) by reflexivity.
  assert (A3 : ei D Ftoes = ei e Ftoes) by reflexivity. clearbody D.
  unfold erange. rewrite A1, A2, A3. pose proof (wfield_range w0 96 12 ltac:(lia)) as R.
  assert (RL : 0 <= l_week w0 w1 <= 3025).
  { unfold l_week. cbv zeta. destruct (302400 <? _); [lia|]. destruct (_ <? -302400); lia. }
  unfold u16. change (2 ^ 16) with 65536. rewrite Z.mod_small by lia. lia.
Qed.
Lemma not_late w0 w1 w4 : wfield w0 96 12 <= 2000 -> l_late w0 w1 w4 = false.
Proof.
  intros HW. pose proof (wfield_range w0 96 12 ltac:(lia)) as R. pose proof (wfield_range w1 16 14 ltac:(lia)) as R1. pose proof (wfield_range w4 54 14 ltac:(lia)) as R4.
  change (2 ^ 14) with 16384 in *.
  assert (RL : 0 <= l_week w0 w1 <= 3025).
  { unfold l_week. cbv zeta. destruct (302400 <? _); [lia|]. destruct (_ <? -302400); lia. }
  unfold l_late. change (2 ^ 31) with 2147483648. lia.
Qed.
Lemma wrange_step H dw : wrange H -> (l_usable dw = true -> wtype (inav dw) = 0 -> wfield (inav dw) 96 12 <= 2000) -> wrange (l_step H dw).
Proof.
  intros HW HD. unfold l_step. destruct (l_usable dw) eqn:EU; [|exact HW]. unfold wrange, l_recv. intros w.
  destruct (Z.eqb_spec 0 (wtype (inav dw))) as [E|NE]; [intros X; injection X as <-; apply HD; [reflexivity|congruence]|].
  destruct (wtype (inav dw) =? 2); [discriminate|apply HW].
Qed.
Lemma wrange_ext H H' : (forall k, H k = H' k) -> wrange H -> wrange H'.
Proof. intros E W w. rewrite <- E. apply W. Qed.

Lemma calm_step junk s o : junk_ok junk -> calm o -> SI s -> exists s' ev, nav_step junk s o = Ok (s', ev) /\ SI s'.
Proof.
  intros HJ HC HI. destruct o as [m|t|c|c]; cbn [calm nav_step] in *.
  2:{ eexists _, _. split; [reflexivity|]. destruct HI as [H1 H2 H3 H4]. split; [exact HC|exact H2|exact H3|exact H4]. }
  2,3: eexists _, _; split; [reflexivity|]; destruct HI as [H1 H2 H3 H4]; split; [exact H1|exact H2|exact H3|exact H4].
  destruct HC as (Hm & HGW & HG). pose proof HI as [H1 H2 H3 H4].
  destruct (Z.eq_dec (sf_gnss m) 6) as [G|G6]; [|destruct (Z.eq_dec (sf_gnss m) 2) as [G|G2]; [|destruct (Z.eq_dec (sf_gnss m) 0) as [G|G0]]].
  - assert (EG : is_glo (sf_sv m) m = true) by (unfold is_glo; lia).
    destruct (H3 (sf_sv m)) as (T & HT). assert (CK : clock_ok (n_time s)) by (unfold clock_ok; change (2 ^ 40) with 1099511627776; split; [apply H1|lia]).
    pose proof (glo_message junk s m (sf_sv m) T (n_gcb s) eq_refl Hm EG CK HT) as HX. cbv zeta in HX.
    replace (late (n_time s) (sf_dw m)) with false in HX by (unfold late; replace (2147634000 <=? sec (n_time s)) with false by lia; rewrite andb_false_r; reflexivity).
    rewrite andb_false_r in HX. destruct HX as (s' & g & EC & HG' & (K1 & K2 & K3 & K4 & K5 & K6) & _). rewrite EC. cbn [bind]. eexists _, _. split; [reflexivity|].
    split; [rewrite K5; exact H1|intros v; rewrite K1; apply H2| |rewrite K6; exact H4].
    intros v. destruct (Z.eq_dec v (sf_sv m)) as [->|NE]; [eexists; exact HG'|rewrite K2 by exact NE; apply H3].
  - assert (EG : is_gal (sf_sv m) m = true) by (unfold is_gal; lia).
    destruct (HG G) as [NZ HW]. pose proof Hm as (Hdw & _ & Bs & _). unfold byte_ok in Bs. set (sv := sf_sv m) in *.
    destruct (H4 sv ltac:(lia)) as [RO WR]. pose proof (convert_gal junk s m G) as HV. fold sv in HV.
    pose proof (gal_decode (n_ecb s) (n_rows s) (sf_dw m) (start_rec s m) sv Hdw eq_refl ltac:(unfold byte_ok; lia) (fun _ => RO)) as HD.
    assert (ROWS : forall s' ev r, convertUBX junk s m = Ok (s', ev, r) -> forall v, 1 <= v <= 255 -> v <> sv -> n_rows s' (v - 1) = n_rows s (v - 1)).
    { intros s' ev r EC v _ NE. apply (rows_other junk s m s' ev r v EC). unfold is_gal. fold sv. lia. }
    destruct (l_usable (sf_dw m)) eqn:EU.
    2:{ rewrite HD in HV. destruct HV as (s' & EC & EE & (K1 & K2 & _) & KR & KT). rewrite EC. cbn [bind]. eexists _, _. split; [reflexivity|].
        split; [rewrite KT; exact H1| |intros v; rewrite K2; apply H3|rewrite KR; exact H4].
        intros v. destruct (Z.eq_dec v sv) as [->|NE]; [rewrite EE; apply erange_start; apply H2|rewrite K1 by exact NE; apply H2]. }
    replace (sv =? 0) with false in HD by lia. destruct HD as (row' & RO' & RH & ED). rewrite ED in HV. unfold gal_out in HV. cbv zeta in HV.
    assert (WR' : wrange (row_held row')).
    { apply (wrange_ext (l_step (row_held (n_rows s (sv - 1))) (sf_dw m))); [intros k; rewrite RH; reflexivity|]. apply wrange_step; [exact WR|].
      intros _ X. exact (HW eq_refl X). }
    assert (FIN : forall s' ev r e', convertUBX junk s m = Ok (s', ev, r) -> eph_of s' sv = e' -> same_but s s' sv -> n_rows s' = rset (n_rows s) (sv - 1) row' -> n_time s' = n_time s ->
      erange e' -> SI s').
    { intros s' ev r e' EC EE (K1 & K2 & _) KR KT ER. split; [rewrite KT; exact H1| |intros v; rewrite K2; apply H3|].
      - intros v. destruct (Z.eq_dec v sv) as [->|NE]; [rewrite EE; exact ER|rewrite K1 by exact NE; apply H2].
      - intros v Hv. destruct (Z.eq_dec v sv) as [->|NE]; [rewrite KR; unfold rset; rewrite Z.eqb_refl; split; [exact RO'|exact WR']|].
        rewrite (ROWS s' ev r EC v Hv NE). apply H4. exact Hv. }
    assert (ER0 : erange (start_rec s m)) by (apply erange_start; apply H2).
    destruct (l_ready (row_held row')) eqn:ER.
    + destruct (late_words (row_held row') (row_word row') ER) as (_ & W0 & _).
      { intros k w HK. unfold row_held in HK. destruct (_ && Z.testbit _ _); [|discriminate]. injection HK as HK. symmetry. exact HK. }
      pose proof (WR' _ W0) as LW. rewrite (not_late _ _ _ LW) in HV. destruct HV as (s' & EC & EE & SB & KR & KT). rewrite EC. cbn [bind]. eexists _, _. split; [reflexivity|].
      apply (FIN _ _ _ _ EC EE SB KR KT). apply ldone_range; [exact LW|]. apply lfill_range. exact ER0.
    + destruct HV as (s' & EC & EE & SB & KR & KT). rewrite EC. cbn [bind]. eexists _, _. split; [reflexivity|].
      apply (FIN _ _ _ _ EC EE SB KR KT). destruct (nth 112 row' 0 =? 127); [apply lfill_range|]; exact ER0.
  - pose proof (convert_gps junk s m G) as HV.
    destruct (decodeGPS_range junk (sf_dw m) (start_rec s m) HJ (proj1 Hm) (HGW G) (erange_start s m (H2 _))) as (e' & d & r & ED & ER & CT). rewrite ED in HV.
    destruct HV as (s' & EC & EE & (K1 & K2 & _) & KR & KT). rewrite EC. cbn [bind]. eexists _, _. split; [reflexivity|].
    split; [rewrite KT; destruct d; [split; [apply CT|destruct CT; lia]|exact H1]| |intros v; rewrite K2; apply H3|rewrite KR; exact H4].
    intros v. destruct (Z.eq_dec v (sf_sv m)) as [->|NE]; [rewrite EE; exact ER|rewrite K1 by exact NE; apply H2].
  - destruct (convert_other junk s m G0 G2 G6) as (s' & EC & EE & (K1 & K2 & _) & KR & KT). rewrite EC. cbn [bind]. eexists _, _. split; [reflexivity|].
    split; [rewrite KT; exact H1| |intros v; rewrite K2; apply H3|rewrite KR; exact H4].
    intros v. destruct (Z.eq_dec v (sf_sv m)) as [->|NE]; [rewrite EE; apply erange_start; apply H2|rewrite K1 by exact NE; apply H2].
Qed.
Lemma si_init st : (forall sv, 1 <= sv <= 255 -> st (sv - 1) = repeat 0 380) -> SI (nav_init st).
Proof.
  intros HZ. split.
  - cbn. unfold normal. cbn. lia.
  - intros sv. unfold erange. cbn. lia.
  - intros sv. eexists. exact (gg_init sv).
  - intros sv Hsv. cbn [nav_init n_rows]. rewrite HZ by exact Hsv. destruct zero_row as [Z1 Z2]. split; [exact Z1|]. intros w. rewrite Z2. discriminate.
Qed.
Lemma calm_run junk : junk_ok junk -> forall h s, (forall o, In o h -> calm o) -> SI s -> exists s' ev, nav_run junk s h = Ok (s', ev).
Proof.
  intros HJ. induction h as [|o h IH]; intros s HC HI; [eexists _, _; reflexivity|].
  destruct (calm_step junk s o HJ (HC o (or_introl eq_refl)) HI) as (s1 & e1 & E1 & I1). destruct (IH s1 (fun x Hx => HC x (or_intror Hx)) I1) as (s2 & e2 & E2).
  cbn [nav_run]. rewrite E1. cbn [bind]. rewrite E2. cbn [bind]. eexists _, _. reflexivity.
Qed.
Lemma nav_safe junk st h : junk_ok junk -> (forall sv, 1 <= sv <= 255 -> st (sv - 1) = repeat 0 380) -> (forall o, In o h -> calm o) ->
  exists s ev, nav_run junk (nav_init st) h = Ok (s, ev).
Proof. intros HJ HZ HC. apply calm_run; [exact HJ|exact HC|apply si_init; exact HZ]. Qed.
