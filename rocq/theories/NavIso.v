(* What one satellite's deliveries depend on. *)
From Verif Require Import Base ZBits BitSpec BitModel BitProofs CrcModel UtcModel Dbl NavModel NavObj NavGpsThm.

(* calls that concern satellite number sv outside GLONASS: its messages, of any other constellation, and registrations *)
Definition mine (sv : Z) (o : nop) : bool :=
  match o with NMsg m => negb (sf_gnss m =? 6) && (sf_sv m =? sv) | NEcb _ => true | _ => false end.
Definition ev_for (sv : Z) (e : nev) : bool := match e with EvEph _ e => ei e Fsat =? sv | _ => false end.
(* calls that concern GLONASS satellite sv: its messages, the time, registrations -- and the GPS messages that set the time *)
Definition sim (sv : Z) (s s' : nav) : Prop :=
  eph_of s sv = eph_of s' sv /\ n_rows s (sv - 1) = n_rows s' (sv - 1) /\ n_ecb s = n_ecb s'.

Lemma calls_for_other cbs d sv : (forall e, d = Some e -> ei e Fsat <> sv) -> filter (ev_for sv) (calls_eph cbs d) = [].
Proof.
  intros H. destruct d as [e|]; [|reflexivity]. cbn [calls_eph]. specialize (H e eq_refl).
  induction cbs as [|c r IH]; [reflexivity|]. cbn [map filter ev_for]. replace (ei e Fsat =? sv) with false by lia. exact IH.
Qed.
Lemma gps_finish_sat2 e e' d r e1 : gps_finish e = Ok (e', d, r) -> d = Some e1 -> ei e1 Fsat = ei e Fsat.
Proof.
  unfold gps_finish. intros H Hd. subst d. destruct (gps_complete e); [|injection H; discriminate].
  apply bind_inv in H. destruct H as (toe & _ & H). apply bind_inv in H. destruct H as (toc & _ & H). cbv zeta in H. injection H as _ <- _. reflexivity.
Qed.
Lemma decodeGPS_sat2 junk dw e e' d r e1 : decodeGPS junk dw e = Ok (e', d, r) -> d = Some e1 -> ei e1 Fsat = ei e Fsat.
Proof.
  unfold decodeGPS. intros H Hd. cbv zeta in H. apply bind_inv in H. destruct H as (sub & _ & H). apply bind_inv in H. destruct H as (b & _ & H).
  destruct (_ || _); [injection H as _ <- _; discriminate|].
  destruct (_ =? 1); [|destruct (_ =? 2); [|destruct (_ =? 3)]].
  - apply bind_inv in H. destruct H as (e2 & H1 & H). rewrite (gps_finish_sat2 _ _ _ _ _ H Hd). unfold gps_sf1 in H1. ninv H1. subst. reflexivity.
  - apply bind_inv in H. destruct H as (e2 & H1 & H). rewrite (gps_finish_sat2 _ _ _ _ _ H Hd). unfold gps_sf2 in H1. ninv H1. subst. reflexivity.
  - apply bind_inv in H. destruct H as (e2 & H1 & H). rewrite (gps_finish_sat2 _ _ _ _ _ H Hd). unfold gps_sf3 in H1. ninv H1. subst. reflexivity.
  - injection H as _ <- _; discriminate.
Qed.

(* Galileo: what decodeGalileo depends on and what it touches *)
Lemma gal_local cbs st st2 dw e : st (ei e Fsat - 1) = st2 (ei e Fsat - 1) ->
  match decodeGalileo cbs st dw e with
  | UB k => decodeGalileo cbs st2 dw e = UB k
  | Ok (r1, e1, ev1, b1) => exists r2, decodeGalileo cbs st2 dw e = Ok (r2, e1, ev1, b1) /\ r1 (ei e Fsat - 1) = r2 (ei e Fsat - 1) /\
      (forall k, k <> ei e Fsat - 1 -> r1 k = st k) /\ (forall sv, sv <> ei e Fsat -> filter (ev_for sv) ev1 = [])
  end.
Proof.
  intros HS. unfold decodeGalileo. cbv zeta.
  destruct (getBit 1 (swap_words 8 dw) 0) as [part1|k]; [cbn [bind]|reflexivity].
  destruct (getBit 1 (swap_words 8 dw) 1) as [page1|k]; [cbn [bind]|reflexivity].
  destruct (getBit 1 (skipn 16 (swap_words 8 dw)) 0) as [part2|k]; [cbn [bind]|reflexivity].
  destruct (getBit 1 (skipn 16 (swap_words 8 dw)) 1) as [page2|k]; [cbn [bind]|reflexivity].
  destruct (_ || _); [exists st2; auto|]. destruct (_ || _); [exists st2; auto|].
  destruct (gal_crc_ok (swap_words 8 dw)) as [ok|k]; [cbn [bind]|reflexivity]. destruct (negb ok); [exists st2; auto|].
  destruct (getBit 6 (swap_words 8 dw) 2) as [ty|k]; [cbn [bind]|reflexivity]. destruct (6 <? ty); [exists st2; auto|].
  destruct (negb _); [reflexivity|]. rewrite <- HS. set (i := ei e Fsat - 1). set (row := st i).
  destruct (gal_take 14 (swap_words 8 dw) 2) as [w1|k]; [cbn [bind]|reflexivity].
  destruct (gal_take 2 (skipn 16 (swap_words 8 dw)) 2) as [w2|k]; [cbn [bind]|reflexivity].
  set (row1 := splice _ (ty * 16) _). set (fl := u8 _). set (row2 := splice row1 112 [fl]).
  assert (HR : rset st i row2 i = rset st2 i row2 i) by (unfold rset; rewrite Z.eqb_refl; reflexivity).
  assert (HO : forall k, k <> i -> rset st i row2 k = st k) by (intros k Hk; unfold rset; replace (k =? i) with false by lia; reflexivity).
  destruct (negb (fl =? 127)); [eexists; auto|].
  destruct (gal_inav row2 e) as [(e1, ok1)|k] eqn:EI; [cbn [bind]|reflexivity]. destruct (negb ok1); [eexists; auto|].
  eexists. split; [reflexivity|]. split; [exact HR|]. split; [exact HO|]. intros sv Hsv. apply gal_inav_sat in EI.
  change (filter (ev_for sv) (calls_eph cbs (Some e1)) = []). apply calls_for_other. intros x Hx. injection Hx as <-. lia.
Qed.

Lemma mine_step junk sv s s' o s1 ev1 : sim sv s s' -> nav_step junk s o = Ok (s1, ev1) ->
  if mine sv o then exists s1' ev1', nav_step junk s' o = Ok (s1', ev1') /\ sim sv s1 s1' /\ filter (ev_for sv) ev1 = filter (ev_for sv) ev1'
  else sim sv s1 s' /\ filter (ev_for sv) ev1 = [].
Proof.
  intros (E1 & E2 & E3) HS. destruct o as [m|t|c|c]; cbn [nav_step mine] in *.
  2:{ injection HS as <- <-. split; [split; auto|reflexivity]. }
  2:{ injection HS as <- <-. eexists _, _. split; [reflexivity|]. split; [|reflexivity]. split; [exact E1|]. split; [exact E2|].
      cbn [nav_ecb n_ecb]. rewrite E3. reflexivity. }
  2:{ injection HS as <- <-. split; [split; auto|reflexivity]. }
  destruct (Z.eqb_spec (sf_gnss m) 6) as [G6|G6]; cbn [negb andb].
  { pose proof (convert_glo junk s m G6) as HV. destruct (decodeGlonass _ _ _ _ _ _ _) as [((g', ev'), b')|k] eqn:ED.
    - destruct HV as (s2 & EV & _ & (K1 & _ & K3 & K4 & _ & K6)). rewrite EV in HS. cbn [bind] in HS. injection HS as <- <-.
      split; [unfold sim; rewrite K1, K3, K6; auto|].
      (* a GLONASS message produces no EvEph *)
      clear - ED. unfold decodeGlonass in ED. destruct (sf_sv m =? 255); [injection ED as _ <- _; reflexivity|].
      destruct (utc_eq _ _); [injection ED as _ <- _; reflexivity|]. cbv zeta in ED.
      apply bind_inv in ED. destruct ED as (ok & _ & ED). destruct (negb ok); [injection ED as _ <- _; reflexivity|].
      apply bind_inv in ED. destruct ED as (b12 & _ & ED). apply bind_inv in ED. destruct ED as (b13 & _ & ED).
      apply bind_inv in ED. destruct ED as (((g1, ev1), r1) & HG & ED).
      assert (EV1 : filter (ev_for sv) ev1 = []).
      { unfold glo_string in HG. apply bind_inv in HG. destruct HG as (f & _ & HG). destruct (_ || _); [injection HG as _ <- _; reflexivity|].
        apply bind_inv in HG. destruct HG as (g2 & _ & HG). destruct (_ || _); [injection HG as _ <- _; reflexivity|].
        apply bind_inv in HG. destruct HG as (? & _ & HG). apply bind_inv in HG. destruct HG as (? & _ & HG). injection HG as _ <- _. reflexivity. }
      destruct (negb r1); injection ED as _ <- _; [exact EV1|]. rewrite filter_app, EV1. cbn [app].
      induction (n_gcb s) as [|c r IH]; [reflexivity|exact IH].
    - rewrite HV in HS. discriminate. }
  destruct (Z.eqb_spec (sf_sv m) sv) as [SV|SV].
  - (* the satellite itself *)
    assert (ESR : start_rec s m = start_rec s' m) by (unfold start_rec; rewrite SV, E1; reflexivity).
    destruct (Z.eq_dec (sf_gnss m) 0) as [G|G0].
    + pose proof (convert_gps junk s m G) as HV. pose proof (convert_gps junk s' m G) as HV'. rewrite <- ESR in HV'.
      destruct (decodeGPS junk (sf_dw m) (start_rec s m)) as [((e', d), b)|k]; [|rewrite HV in HS; discriminate].
      destruct HV as (s2 & EV & EE & (_ & _ & C1 & _) & R1 & _). destruct HV' as (s2' & EV' & EE' & (_ & _ & C2 & _) & R2 & _).
      rewrite EV in HS. rewrite EV'. cbn [bind] in *. injection HS as <- <-. eexists _, _. split; [reflexivity|].
      split; [|rewrite E3; reflexivity]. unfold sim. rewrite SV in *. rewrite EE, EE', R1, R2, C1, C2. auto.
    + destruct (Z.eq_dec (sf_gnss m) 2) as [G|G2].
      * pose proof (convert_gal junk s m G) as HV. pose proof (convert_gal junk s' m G) as HV'. rewrite <- ESR in HV'. rewrite <- E3 in HV'.
        assert (ESat : ei (start_rec s m) Fsat = sv) by (unfold start_rec; cbn; exact SV).
        pose proof (gal_local (n_ecb s) (n_rows s) (n_rows s') (sf_dw m) (start_rec s m)) as HL. rewrite ESat in HL. specialize (HL E2).
        destruct (decodeGalileo (n_ecb s) (n_rows s) (sf_dw m) (start_rec s m)) as [(((st', e'), ev'), b)|k]; [|rewrite HV in HS; discriminate].
        destruct HL as (r2 & EL & ER & _). rewrite EL in HV'.
        destruct HV as (s2 & EV & EE & (_ & _ & C1 & _) & R1 & _). destruct HV' as (s2' & EV' & EE' & (_ & _ & C2 & _) & R2 & _).
        rewrite EV in HS. rewrite EV'. cbn [bind] in *. injection HS as <- <-. eexists _, _. split; [reflexivity|].
        split; [|reflexivity]. unfold sim. rewrite SV in *. rewrite EE, EE', R1, R2, C1, C2. auto.
      * destruct (convert_other junk s m G0 G2 G6) as (s2 & EV & EE & (_ & _ & C1 & _) & R1 & _).
        destruct (convert_other junk s' m G0 G2 G6) as (s2' & EV' & EE' & (_ & _ & C2 & _) & R2 & _).
        rewrite EV in HS. rewrite EV'. cbn [bind] in *. injection HS as <- <-. eexists _, _. split; [reflexivity|].
        split; [|reflexivity]. unfold sim. rewrite SV in *. rewrite EE, EE', R1, R2, C1, C2, ESR. auto.
  - (* another satellite *)
    destruct (Z.eq_dec (sf_gnss m) 0) as [G|G0].
    + pose proof (convert_gps junk s m G) as HV.
      destruct (decodeGPS junk (sf_dw m) (start_rec s m)) as [((e', d), b)|k] eqn:ED; [|rewrite HV in HS; discriminate].
      destruct HV as (s2 & EV & EE & (C0 & _ & C1 & _) & R1 & _). rewrite EV in HS. cbn [bind] in *. injection HS as <- <-.
      split; [unfold sim; rewrite (C0 sv), R1, C1 by auto; auto|]. apply calls_for_other. intros e1 Hd.
      rewrite (decodeGPS_sat2 _ _ _ _ _ _ _ ED Hd). unfold start_rec. cbn. exact SV.
    + destruct (Z.eq_dec (sf_gnss m) 2) as [G|G2].
      * pose proof (convert_gal junk s m G) as HV. assert (ESat : ei (start_rec s m) Fsat = sf_sv m) by reflexivity.
        pose proof (gal_local (n_ecb s) (n_rows s) (n_rows s) (sf_dw m) (start_rec s m) eq_refl) as HL. rewrite ESat in HL.
        destruct (decodeGalileo (n_ecb s) (n_rows s) (sf_dw m) (start_rec s m)) as [(((st', e'), ev'), b)|k]; [|rewrite HV in HS; discriminate].
        destruct HL as (_ & _ & _ & HK & HF). destruct HV as (s2 & EV & EE & (C0 & _ & C1 & _) & R1 & _). rewrite EV in HS. cbn [bind] in *. injection HS as <- <-.
        split; [unfold sim; rewrite (C0 sv), R1, C1, HK by lia; auto|]. apply HF. auto.
      * destruct (convert_other junk s m G0 G2 G6) as (s2 & EV & EE & (C0 & _ & C1 & _) & R1 & _).
        rewrite EV in HS. cbn [bind] in *. injection HS as <- <-. split; [unfold sim; rewrite (C0 sv), R1, C1 by auto; auto|reflexivity].
Qed.

Lemma isolation_from junk sv : forall h s s' s1 ev1, sim sv s s' -> nav_run junk s h = Ok (s1, ev1) ->
  exists s1' ev1', nav_run junk s' (filter (mine sv) h) = Ok (s1', ev1') /\ sim sv s1 s1' /\ filter (ev_for sv) ev1 = filter (ev_for sv) ev1'.
Proof.
  induction h as [|o h IH]; intros s s' s1 ev1 HSim HR.
  - cbn in *. injection HR as <- <-. eexists _, _. split; [reflexivity|]. split; [exact HSim|reflexivity].
  - cbn [nav_run] in HR. destruct (nav_step junk s o) as [(s2, ev2)|k] eqn:ES; [|discriminate]. cbn [bind] in HR.
    destruct (nav_run junk s2 h) as [(s3, ev3)|k] eqn:ER; [|discriminate]. cbn [bind] in HR. injection HR as <- <-.
    pose proof (mine_step junk sv s s' o s2 ev2 HSim ES) as HM. cbn [filter]. destruct (mine sv o).
    + destruct HM as (s2' & ev2' & ES' & HSim2 & EF). destruct (IH s2 s2' s3 ev3 HSim2 ER) as (s3' & ev3' & ER' & HSim3 & EF3).
      cbn [nav_run]. rewrite ES'. cbn [bind]. rewrite ER'. cbn [bind]. eexists _, _. split; [reflexivity|]. split; [exact HSim3|].
      rewrite !filter_app, EF, EF3. reflexivity.
    + destruct HM as (HSim2 & EF). destruct (IH s2 s' s3 ev3 HSim2 ER) as (s3' & ev3' & ER' & HSim3 & EF3).
      rewrite ER'. eexists _, _. split; [reflexivity|]. split; [exact HSim3|]. rewrite filter_app, EF. exact EF3.
Qed.
Lemma isolation junk st sv h s ev : nav_run junk (nav_init st) h = Ok (s, ev) ->
  exists s' ev', nav_run junk (nav_init st) (filter (mine sv) h) = Ok (s', ev') /\ filter (ev_for sv) ev = filter (ev_for sv) ev'.
Proof.
  intros HR. destruct (isolation_from junk sv h (nav_init st) (nav_init st) s ev) as (s' & ev' & E & _ & F); [split; auto|exact HR|]. eauto.
Qed.
