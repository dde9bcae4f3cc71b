(* C80: GPS ephemerides from the bytes on the port.  Composition of the receive path (NavDev) and the GPS rules (NavGpsApi). *)
From Coq Require Import Permutation.
From Verif Require Import Base UbxSpec UbxModel UbxProofs UbxStream UbxMain UbxMore UbxHist UbxApi
  UbxTx UbxTxSpec UbxTxApi CrcSpec RtcmModel RtcmSpec RtcmProofs RtcmApi UbloxModel UbloxSpec UbloxProofs UbloxApi UbloxThm
  BitModel BitProofs UtcModel UtcSpec Dbl NavModel NavSpec NavGpsSpec NavObj NavGpsThm NavGpsApi NavIso NavDev.
Local Open Scope Z_scope.

(* ---------------------------------------------------------------- specification *)
(* the ten words of an RXM-SFRBX payload *)
Definition pl_words (pl : list Z) : list Z := firstn 40 (skipn 8 pl).
(* the payload of a complete RXM-SFRBX frame with subframe k of issue i of GPS satellite sv *)
Definition carries (sv k i : Z) (pl : list Z) : Prop :=
  48 <= Zlen pl /\ nth 0 pl 0 = 0 /\ nth 1 pl 0 = sv /\ gps_id (pl_words pl) = k /\ gps_issue (pl_words pl) = i.
(* a frame that says nothing about subframes 1, 2, 3 of satellite sv: any class and id but RXM-SFRBX, or an RXM-SFRBX frame
   of another satellite number, or of a constellation other than GPS and Galileo, or complete with another subframe of sv *)
Definition unrelated (sv : Z) (it : item) : Prop :=
  match it with
  | Good cls id pl => cls = 0x02 -> id = 0x13 -> 4 <= Zlen pl /\
      (nth 1 pl 0 = sv -> nth 0 pl 0 <> 2 /\
        (nth 0 pl 0 = 0 -> 48 <= Zlen pl /\ gps_id (pl_words pl) <> 1 /\ gps_id (pl_words pl) <> 2 /\ gps_id (pl_words pl) <> 3))
  | _ => True
  end.
Definition dunrelated (sv : Z) (d : ditem) : Prop := match d with DUbx it => unrelated sv it | _ => True end.

(* ---------------------------------------------------------------- the message buffer holds bytes *)
Lemma version_slot_buf s i s' : version_slot s i = Ok s' -> inbuf s' = inbuf s.
Proof.
  unfold version_slot. intros H. apply bind_inv in H. destruct H as (p & _ & H). apply bind_inv in H. destruct H as (s1 & H1 & H).
  assert (E1 : inbuf s1 = inbuf s).
  { destruct p; [|congruence]. unfold extract_version_string in H1. apply bind_inv in H1. destruct H1 as ((t1, q) & _ & H1).
    apply bind_inv in H1. destruct H1 as (ma & _ & H1). apply bind_inv in H1. destruct H1 as (t2 & _ & H1). apply bind_inv in H1. destruct H1 as (mi & _ & H1).
    injection H1 as <-. reflexivity. }
  apply bind_inv in H. destruct H as (m & _ & H). destruct m; [|congruence].
  unfold extract_module_name in H. apply bind_inv in H. destruct H as (nm & _ & H). injection H as <-. exact E1.
Qed.
Lemma version_loop_buf n : forall i s s', version_loop n i s = Ok s' -> inbuf s' = inbuf s.
Proof.
  induction n as [|n IH]; intros i s s' H; cbn [version_loop] in H; [congruence|].
  apply bind_inv in H. destruct H as (s1 & H1 & H). rewrite (IH _ _ _ H). apply (version_slot_buf _ _ _ H1).
Qed.
Lemma decode_switch_buf s s' : decode_switch s = Ok s' -> inbuf s' = inbuf s.
Proof.
  unfold decode_switch. intros H.
  destruct (mcls s =? 5); [destruct (mtyp s =? 1); [|destruct (mtyp s =? 0)]; injection H as <-; reflexivity|].
  destruct (mcls s =? 10); [|injection H as <-; reflexivity]. destruct (mtyp s =? 4); [|injection H as <-; reflexivity].
  unfold version_cb in H. apply bind_inv in H. destruct H as (s1 & H1 & H). apply bind_inv in H. destruct H as (x & _ & H). injection H as <-.
  cbn. apply (version_loop_buf _ _ _ _ H1).
Qed.
Lemma read_switch_buf s b e s' : read_switch s b = Ok (e, s') -> byte_ok b -> bytes_ok (inbuf s) -> bytes_ok (inbuf s').
Proof.
  intros H Hb Hs. unfold read_switch in H. destruct (st s); cbv zeta in H.
  - destruct (_ && _); injection H as _ <-; exact Hs.
  - injection H as _ <-; exact Hs.
  - injection H as _ <-; exact Hs.
  - injection H as _ <-; exact Hs.
  - destruct (_ >? _); injection H as _ <-; exact Hs.
  - destruct (head s <? mlen s); [|injection H as _ <-; exact Hs]. apply bind_inv in H. destruct H as (buf & H1 & H).
    injection H as _ <-. cbn [w_head inbuf]. assert (HB := aset_bytes _ _ _ _ H1 Hs Hb). destruct (_ =? _); exact HB.
  - injection H as _ <-; exact Hs.
  - injection H as _ <-; exact Hs.
  - injection H as _ <-; exact Hs.
Qed.
Lemma read_cb_buf ls s b s' c o : read_cb ls s b = Ok (s', c, o) -> byte_ok b -> bytes_ok (inbuf s) -> bytes_ok (inbuf s').
Proof.
  unfold read_cb. intros H Hb Hs. apply bind_inv in H. destruct H as ((e, s1) & H1 & H). pose proof (read_switch_buf _ _ _ _ H1 Hb Hs) as HS.
  destruct e; [assert (s' = s1) by congruence; subst; exact HS|]. destruct (is_ckb (st s1)).
  - apply bind_inv in H. destruct H as (((s2, cs), ok) & H2 & H).
    assert (E2 : inbuf s2 = inbuf s1).
    { unfold decode_message in H2. apply bind_inv in H2. destruct H2 as ((a, b2) & _ & H2). destruct (_ || _); [assert (s2 = s1) by congruence; subst; reflexivity|].
      cbv zeta in H2. apply bind_inv in H2. destruct H2 as (s3 & H3 & H2). assert (s2 = s3) by congruence. subst s3. rewrite (decode_switch_buf _ _ H3). reflexivity. }
    destruct ok; [assert (s' = w_prev (w_flags (w_st s2 START) false true) b) by congruence
                 |assert (s' = w_prev (w_flags (w_st (w_nerr s2 (u32 (nerr s2 + 1))) START) false false) b) by congruence]; subst s'; cbn; rewrite E2; exact HS.
  - assert (s' = w_prev s1 b) by congruence. subst. exact HS.
Qed.
Definition ubuf (s : ublox) : list Z := inbuf (u_ubx s).
Lemma to_rtcm_ubx s b s' ev : to_rtcm s b = Ok (s', ev) -> u_ubx s' = u_ubx s.
Proof. unfold to_rtcm. intros H. apply bind_inv in H. destruct H as ((r, cs) & _ & H). assert (s' = uw_rtcm s r) by congruence. subst. reflexivity. Qed.
Lemma to_ubx_buf s b s' ev : to_ubx s b = Ok (s', ev) -> byte_ok b -> bytes_ok (ubuf s) -> bytes_ok (ubuf s').
Proof.
  unfold to_ubx. intros H Hb Hs. apply bind_inv in H. destruct H as (((x, c), o) & H1 & H). assert (s' = uw_ubx s x) by congruence. subst.
  apply (read_cb_buf _ _ _ _ _ _ H1 Hb Hs).
Qed.
Lemma ublox_byte_buf s b s' ev : ublox_byte s b = Ok (s', ev) -> byte_ok b -> bytes_ok (ubuf s) -> bytes_ok (ubuf s').
Proof.
  unfold ublox_byte. intros H Hb Hs. destruct (parsing_message _); [apply (to_ubx_buf _ _ _ _ H Hb Hs)|].
  destruct (_ && _); [unfold ubuf; rewrite (to_rtcm_ubx _ _ _ _ H); exact Hs|].
  apply bind_inv in H. destruct H as ((s1, e1) & H1 & H). apply bind_inv in H. destruct H as ((s2, e2) & H2 & H).
  assert (s' = s2) by congruence. subst. unfold ubuf. rewrite (to_rtcm_ubx _ _ _ _ H2). apply (to_ubx_buf _ _ _ _ H1 Hb Hs).
Qed.
Lemma ublox_read_buf : forall bs s s' ev, ublox_read s bs = Ok (s', ev) -> bytes_ok bs -> bytes_ok (ubuf s) -> bytes_ok (ubuf s').
Proof.
  induction bs as [|b r IH]; intros s s' ev H Hb Hs; cbn [ublox_read] in H; [assert (s' = s) by congruence; subst; exact Hs|].
  apply bind_inv in H. destruct H as ((s1, e1) & H1 & H). apply bind_inv in H. destruct H as ((s2, e2) & H2 & H).
  assert (s' = s2) by congruence. subst. inversion Hb as [|? ? Hb1 Hb2]. apply (IH _ _ _ H2 Hb2). apply (ublox_byte_buf _ _ _ _ H1 Hb1 Hs).
Qed.
Lemma usends_ubx : forall fs s s' ev, usends fs s = Ok (s', ev) -> u_ubx s' = u_ubx s.
Proof.
  induction fs as [|f r IH]; intros s s' ev H; cbn [usends] in H; [congruence|].
  apply bind_inv in H. destruct H as ((s1, e1) & H1 & H). apply bind_inv in H. destruct H as ((s2, e2) & H2 & H).
  assert (s' = s2) by congruence. subst. rewrite (IH _ _ _ H2). unfold usend in H1. apply bind_inv in H1. destruct H1 as ((o, w) & _ & H1).
  assert (s1 = uw_out s o) by congruence. subst. reflexivity.
Qed.
Lemma get_version_buf s rx s' ev ok : get_version s rx = Ok (s', ev, ok) -> bytes_ok rx -> bytes_ok (ubuf s) -> bytes_ok (ubuf s').
Proof.
  unfold get_version. intros H Hb Hs. cbv zeta in H. apply bind_inv in H. destruct H as ((s1, e1) & H1 & H).
  apply bind_inv in H. destruct H as ((s2, e2) & H2 & H). assert (s' = s2) by congruence. subst.
  apply (ublox_read_buf _ _ _ _ H2 Hb). unfold usend in H1. apply bind_inv in H1. destruct H1 as ((o, w) & _ & H1). 
  assert (s1 = uw_out (uw_ubx s (w_ver (u_ubx s) false)) o) by congruence. subst. exact Hs.
Qed.
Lemma conc_buf : forall h s s' ev, conc s h = Ok (s', ev) -> Forall act_ok h -> bytes_ok (ubuf s) -> bytes_ok (ubuf s').
Proof.
  induction h as [|a h IH]; intros s s' ev E HF Hs; cbn [conc] in E; [assert (s' = s) as -> by congruence; exact Hs|].
  inversion HF as [|? ? Ha HF']; subst. apply bind_inv in E. destruct E as ((s1, e1) & E1 & E). apply bind_inv in E. destruct E as ((s2, e2) & E2 & E).
  assert (s' = s2) by congruence. subst s2. apply (IH s1 s' e2 E2 HF').
  destruct a as [b|f|t|i|]; cbn [act_step act_ok] in *.
  - apply (ublox_read_buf [b] s s1 e1); [cbn [ublox_read]; rewrite E1; cbn [bind]; rewrite app_nil_r; reflexivity|constructor; [exact Ha|constructor]|exact Hs].
  - unfold usend in E1. apply bind_inv in E1. destruct E1 as ((o, w) & _ & E1). assert (s1 = uw_out s o) by congruence. subst. exact Hs.
  - assert (s1 = uw_mode s (u_nreg s) t (u_rtk s)) by congruence. subst. exact Hs.
  - assert (s1 = uw_mode s (u_nreg s) (u_type s) i) by congruence. subst. exact Hs.
  - assert (s1 = uw_mode s (S (u_nreg s)) (u_type s) (u_rtk s)) by congruence. subst. exact Hs.
Qed.
Lemma start_buf u ru out0 nav c bs s ev : csched_ok c -> bytes_ok bs -> shuffle setup_acts (map ARx bs) (c_setup c) ->
  ctor_any u ru out0 nav c = Ok (Some s, ev) -> bytes_ok (un_inbuf u) -> bytes_ok (ubuf s).
Proof.
  intros (Ha & Hb & H0 & H1 & Hg & H2) Hbs HS E Hu. unfold ctor_any in E. cbv zeta in E.
  apply bind_inv in E. destruct E as ((sa, ea) & Ea & E). pose proof (ublox_read_buf _ _ _ _ Ea Ha Hu) as Ba.
  apply bind_inv in E. destruct E as ((sb, eb) & Eb & E). pose proof (ublox_read_buf _ _ _ _ Eb Hb Ba) as Bb.
  apply bind_inv in E. destruct E as ((s0, e0) & E0 & E). pose proof (ublox_read_buf _ _ _ _ E0 H0 Bb) as B0.
  apply bind_inv in E. destruct E as (((s1, e1), ok1) & E1 & E). pose proof (get_version_buf _ _ _ _ _ E1 H1 B0) as B1. destruct ok1.
  - apply bind_inv in E. destruct E as ((s2, e2) & E2 & E). assert (s = s2) by congruence. subst.
    exact (conc_buf _ _ _ _ E2 (shuffle_act_ok _ _ _ HS setup_ok Hbs) B1).
  - apply bind_inv in E. destruct E as ((sg, eg) & Eg & E). pose proof (ublox_read_buf _ _ _ _ Eg Hg B1) as Bg.
    apply bind_inv in E. destruct E as (((s2, e2), ok2) & E2 & E). pose proof (get_version_buf _ _ _ _ _ E2 H2 Bg) as B2. destruct ok2; [|discriminate].
    apply bind_inv in E. destruct E as ((s3, e3) & E3 & E). assert (s = s3) by congruence. subst.
    exact (conc_buf _ _ _ _ E3 (shuffle_act_ok _ _ _ HS setup_ok Hbs) B2).
Qed.
Lemma reach_buf u ru n s : bytes_ok (un_inbuf u) -> UReach u ru n s -> bytes_ok (ubuf s).
Proof.
  intros Hu H. induction H as [out0 nav rx1 rx2 s ev Hz Hb1 Hb2 E|out0 nav c bs s ev Hz Hc Hb HS E|n s bs s' ev _ IH Hb E|n s i st s' ev _ IH E|n s i s' ev _ IH E
    |n s i st bs h s' ev _ IH Hb HS E|n s i bs h s' ev _ IH Hb HS E|n s l _ IH Hl].
  - unfold ctor in E. cbv zeta in E. apply bind_inv in E. destruct E as (((s1, e1), ok1) & E1 & E).
    pose proof (get_version_buf _ _ _ _ _ E1 Hb1 Hu) as H1. destruct ok1.
    + apply bind_inv in E. destruct E as ((s2, e2) & E2 & E). assert (s = s2) by congruence. subst. unfold ubuf. rewrite (usends_ubx _ _ _ _ E2). exact H1.
    + apply bind_inv in E. destruct E as (((s2, e2), ok2) & E2 & E). pose proof (get_version_buf _ _ _ _ _ E2 Hb2 H1) as H2.
      destruct ok2; [|discriminate]. apply bind_inv in E. destruct E as ((s3, e3) & E3 & E). assert (s = s3) by congruence. subst. unfold ubuf. rewrite (usends_ubx _ _ _ _ E3). exact H2.
  - exact (start_buf u ru out0 nav c bs s ev Hc Hb HS E Hu).
  - apply (ublox_read_buf _ _ _ _ E Hb IH).
  - unfold config_base in E. unfold ubuf. rewrite (usends_ubx _ _ _ _ E). exact IH.
  - unfold config_rover in E. apply bind_inv in E. destruct E as ((s1, e1) & E1 & E). assert (s' = uw_mode s1 (u_nreg s1) (u_type s1) i) by congruence. subst.
    unfold ubuf. cbn. rewrite (usends_ubx _ _ _ _ E1). exact IH.
  - exact (conc_buf _ _ _ _ E (shuffle_act_ok _ _ _ HS (base_ok i st) Hb) IH).
  - exact (conc_buf _ _ _ _ E (shuffle_act_ok _ _ _ HS (rover_ok i) Hb) IH).
  - exact IH.
Qed.

(* ---------------------------------------------------------------- what the parser delivers *)
Lemma sim_refl sv s : sim sv s s. Proof. repeat split. Qed.
Lemma t_recv_other t dw : gps_id dw <> 1 -> gps_id dw <> 2 -> gps_id dw <> 3 -> t_recv t dw = t.
Proof. intros. unfold t_recv. replace (gps_id dw =? 1) with false by lia. replace (gps_id dw =? 2) with false by lia. replace (gps_id dw =? 3) with false by lia. reflexivity. Qed.
(* a history may be extended by one call *)
Lemma run_snoc junk s h o s1 e1 s2 e2 : nav_run junk s h = Ok (s1, e1) -> nav_step junk s1 o = Ok (s2, e2) -> nav_run junk s (h ++ [o]) = Ok (s2, e1 ++ e2).
Proof. intros H1 H2. rewrite nav_run_app, H1. cbn [bind nav_run]. rewrite H2. cbn [bind]. rewrite app_nil_r. reflexivity. Qed.
Lemma run_app junk s h q s1 e1 s2 e2 : nav_run junk s h = Ok (s1, e1) -> nav_run junk s1 q = Ok (s2, e2) -> nav_run junk s (h ++ q) = Ok (s2, e1 ++ e2).
Proof. intros H1 H2. rewrite nav_run_app, H1. cbn [bind]. rewrite H2. reflexivity. Qed.
Lemma msgs_ok_app a b : msgs_ok (a ++ b) <-> msgs_ok a /\ msgs_ok b.
Proof.
  split.
  - intros H. split; intros m Hm; apply H; apply in_or_app; auto.
  - intros [H1 H2] m Hm. apply in_app_or in Hm. destruct Hm; auto.
Qed.
Lemma no_gal_app sv a b : no_galileo sv (a ++ b) <-> no_galileo sv a /\ no_galileo sv b.
Proof.
  split.
  - intros H. split; intros m Hm; apply H; apply in_or_app; auto.
  - intros [H1 H2] m Hm. apply in_app_or in Hm. destruct Hm; auto.
Qed.
Lemma quiet_no_gal sv q : quiet_for sv q -> no_galileo sv q.
Proof. intros H m Hm E. apply (H m Hm E). Qed.
Lemma both_app sv a b : msgs_ok a /\ no_galileo sv a -> msgs_ok b -> no_galileo sv b -> msgs_ok (a ++ b) /\ no_galileo sv (a ++ b).
Proof. intros [H1 H2] H3 H4. rewrite msgs_ok_app, no_gal_app. auto. Qed.
Lemma quiet_step junk st sv h s ev m s1 e1 : junk_ok junk -> msgs_ok h -> no_galileo sv h -> msg_ok m -> quiet_for sv [NMsg m] ->
  nav_run junk (nav_init st) h = Ok (s, ev) -> nav_step junk s (NMsg m) = Ok (s1, e1) -> filter (ev_for sv) e1 = [].
Proof.
  intros HJ HM HN Hm HQ HR HS. specialize (HQ m (or_introl eq_refl)).
  destruct (mine sv (NMsg m)) eqn:EM.
  2:{ pose proof (mine_step junk sv s s (NMsg m) s1 e1 (sim_refl sv s) HS) as H. rewrite EM in H. apply H. }
  cbn [mine] in EM. destruct (HQ ltac:(lia)) as [G2 G0]. destruct (Z.eq_dec (sf_gnss m) 0) as [Z0|Z0].
  - destruct (G0 Z0) as (I1 & I2 & I3).
    destruct (gps_release junk st sv h s ev m HJ HM HN Hm HR Z0 ltac:(lia)) as (s' & ev' & r & EC & HF & _).
    rewrite t_recv_other in HF by assumption. specialize (HF (t_hist_not_full sv h)). cbn [nav_step] in HS. rewrite EC in HS. cbn [bind] in HS.
    assert (e1 = ev') by congruence. subst. reflexivity.
  - destruct (convert_other junk s m Z0 G2 ltac:(lia)) as (s' & EC & _). cbn [nav_step] in HS. rewrite EC in HS. cbn [bind] in HS.
    assert (e1 = [EvFell (if sf_gnss m =? 3 then FN_BEIDOU else FN_CONVERT)]) by congruence. subst. reflexivity.
Qed.
Lemma quiet_run junk st sv : junk_ok junk -> forall q h s ev s1 e1, msgs_ok (h ++ map NMsg q) -> no_galileo sv h -> quiet_for sv (map NMsg q) ->
  nav_run junk (nav_init st) h = Ok (s, ev) -> nav_run junk s (map NMsg q) = Ok (s1, e1) -> filter (ev_for sv) e1 = [].
Proof.
  intros HJ. induction q as [|m q IH]; intros h s ev s1 e1 HM HN HQ HR HS; cbn [map nav_run] in HS; [assert (e1 = []) by congruence; subst; reflexivity|].
  apply bind_inv in HS. destruct HS as ((s2, e2) & H2 & HS). apply bind_inv in HS. destruct HS as ((s3, e3) & H3 & HS).
  assert (e1 = e2 ++ e3) by congruence. subst e1. rewrite filter_app.
  assert (HQ1 : quiet_for sv [NMsg m]) by (intros x [Hx|[]]; apply HQ; left; exact Hx).
  assert (HQ2 : quiet_for sv (map NMsg q)) by (intros x Hx; apply HQ; right; exact Hx).
  assert (HM' : msgs_ok h /\ msg_ok m).
  { split; [intros x Hx; apply HM; apply in_or_app; left; exact Hx|apply HM; apply in_or_app; right; left; reflexivity]. }
  destruct HM' as [HM1 HM2].
  rewrite (quiet_step junk st sv h s ev m s2 e2 HJ HM1 HN HM2 HQ1 HR H2).
  apply (IH (h ++ [NMsg m]) s2 (ev ++ e2) s3 e3); [rewrite <- app_assoc; exact HM| |exact HQ2|apply (run_snoc _ _ _ _ _ _ _ _ HR H2)|exact H3].
  apply no_gal_app. split; [exact HN|]. apply quiet_no_gal. exact HQ1.
Qed.
Lemma own_event (cbs : list Z) d sv : ei d Fsat = sv -> filter (ev_for sv) (map (fun c => EvEph c d) cbs) = map (fun c => EvEph c d) cbs.
Proof. intros E. induction cbs as [|c r IH]; [reflexivity|]. cbn [map filter ev_for]. rewrite E, Z.eqb_refl, IH. reflexivity. Qed.
Lemma rc_six2 ka kb i c0 : Permutation [ka; kb; 6 - ka - kb] [1; 2; 3] ->
  t_full (rc (mkT None None None c0) ka i) = false /\
  t_full (rc (let t' := rc (mkT None None None c0) ka i in if t_full t' then mkT None None None (cur t') else t') kb i) = false.
Proof.
  intros HP. assert (Ia : In ka [1; 2; 3]) by (apply (Permutation_in _ HP); cbn; auto). assert (Ib : In kb [1; 2; 3]) by (apply (Permutation_in _ HP); cbn; auto).
  cbn [In] in Ia, Ib. destruct Ia as [<-|[<-|[<-|[]]]], Ib as [<-|[<-|[<-|[]]]]; cbn; auto;
  exfalso; assert (N : NoDup [1; 2; 3]) by (repeat constructor; cbn; intuition discriminate); apply (Permutation_NoDup (Permutation_sym HP)) in N;
  inversion N as [|? ? N1 N2]; apply N1; left; reflexivity.
Qed.
(* over a whole run: exactly one round of calls for satellite sv, or none *)
Lemma gps_set_run junk st sv i h nv ev0 q0 q1 q2 q3 a b c ka kb kc nv' v :
  junk_ok junk -> msgs_ok h -> no_galileo sv h -> no_pending sv h -> nav_run junk (nav_init st) h = Ok (nv, ev0) ->
  msgs_ok (map NMsg (q0 ++ [a] ++ q1 ++ [b] ++ q2 ++ [c] ++ q3)) ->
  quiet_for sv (map NMsg q0) -> quiet_for sv (map NMsg q1) -> quiet_for sv (map NMsg q2) -> quiet_for sv (map NMsg q3) ->
  Permutation [ka; kb; kc] [1; 2; 3] -> gps_msg sv ka i a -> gps_msg sv kb i b -> gps_msg sv kc i c ->
  nav_run junk nv (map NMsg (q0 ++ [a] ++ q1 ++ [b] ++ q2 ++ [c] ++ q3)) = Ok (nv', v) ->
  (ka = 3 -> cur (t_hist sv h) <> i -> filter (ev_for sv) v = []) /\
  (ka <> 3 \/ cur (t_hist sv h) = i -> exists d m1 m2 m3, filter (ev_for sv) v = map (fun n => EvEph n d) (ecbs h) /\ gps_content sv m1 m2 m3 d /\
     Permutation [(ka, sf_dw a); (kb, sf_dw b); (kc, sf_dw c)] [(1, m1); (2, m2); (3, m3)]).
Proof.
  intros HJ HM HN HP HR HMq Q0 Q1 Q2 Q3 HPm Ga Gb Gc HS.
  rewrite !map_app in HMq, HS. cbn [map] in HMq, HS.
  apply msgs_ok_app in HMq. destruct HMq as [M0 HMq]. apply msgs_ok_app in HMq. destruct HMq as [Ma HMq].
  apply msgs_ok_app in HMq. destruct HMq as [M1 HMq]. apply msgs_ok_app in HMq. destruct HMq as [Mb HMq].
  apply msgs_ok_app in HMq. destruct HMq as [M2 HMq]. apply msgs_ok_app in HMq. destruct HMq as [Mc M3].
  rewrite nav_run_app in HS. apply bind_inv in HS. destruct HS as ((s0 & e0) & R0 & HS). apply bind_inv in HS. destruct HS as ((s0' & e0') & HS & EV).
  assert (V0 : v = e0 ++ e0') by congruence. clear EV.
  rewrite nav_run_app in HS. apply bind_inv in HS. destruct HS as ((sa & ea) & Ra & HS). apply bind_inv in HS. destruct HS as ((sa' & ea') & HS & EV).
  assert (Va : e0' = ea ++ ea') by congruence. clear EV.
  rewrite nav_run_app in HS. apply bind_inv in HS. destruct HS as ((s1 & e1) & R1 & HS). apply bind_inv in HS. destruct HS as ((s1' & e1') & HS & EV).
  assert (V1 : ea' = e1 ++ e1') by congruence. clear EV.
  rewrite nav_run_app in HS. apply bind_inv in HS. destruct HS as ((sb & eb) & Rb & HS). apply bind_inv in HS. destruct HS as ((sb' & eb') & HS & EV).
  assert (Vb : e1' = eb ++ eb') by congruence. clear EV.
  rewrite nav_run_app in HS. apply bind_inv in HS. destruct HS as ((s2 & e2) & R2 & HS). apply bind_inv in HS. destruct HS as ((s2' & e2') & HS & EV).
  assert (V2 : eb' = e2 ++ e2') by congruence. clear EV.
  rewrite nav_run_app in HS. apply bind_inv in HS. destruct HS as ((sc & ec) & Rc & HS). apply bind_inv in HS. destruct HS as ((s3 & e3) & R3 & EV).
  assert (Vc : e2' = ec ++ e3) by congruence. clear EV.
  subst v e0' ea' e1' eb' e2'. rewrite !filter_app.
  assert (NGg : forall m k, gps_msg sv k i m -> no_galileo sv [NMsg m]).
  { intros m k (_ & G0 & _) x [Hx|[]] _. injection Hx as <-. lia. }
  (* histories *)
  pose proof (run_app _ _ _ _ _ _ _ _ HR R0) as T0. pose proof (run_app _ _ _ _ _ _ _ _ T0 Ra) as Ta. pose proof (run_app _ _ _ _ _ _ _ _ Ta R1) as T1.
  pose proof (run_app _ _ _ _ _ _ _ _ T1 Rb) as Tb. pose proof (run_app _ _ _ _ _ _ _ _ Tb R2) as T2. pose proof (run_app _ _ _ _ _ _ _ _ T2 Rc) as Tc.
  set (h0 := h ++ map NMsg q0) in *. set (ha := h0 ++ [NMsg a]) in *. set (h1 := ha ++ map NMsg q1) in *. set (hb := h1 ++ [NMsg b]) in *.
  set (h2 := hb ++ map NMsg q2) in *. set (hc := h2 ++ [NMsg c]) in *.
  assert (K0 : msgs_ok h0 /\ no_galileo sv h0) by (apply both_app; auto using quiet_no_gal).
  assert (Ka : msgs_ok ha /\ no_galileo sv ha) by (apply both_app; [exact K0|exact Ma|exact (NGg a ka Ga)]).
  assert (K1 : msgs_ok h1 /\ no_galileo sv h1) by (apply both_app; [exact Ka|exact M1|exact (quiet_no_gal _ _ Q1)]).
  assert (Kb : msgs_ok hb /\ no_galileo sv hb) by (apply both_app; [exact K1|exact Mb|exact (NGg b kb Gb)]).
  assert (K2 : msgs_ok h2 /\ no_galileo sv h2) by (apply both_app; [exact Kb|exact M2|exact (quiet_no_gal _ _ Q2)]).
  assert (Kc : msgs_ok hc /\ no_galileo sv hc) by (apply both_app; [exact K2|exact Mc|exact (NGg c kc Gc)]).
  (* quiet stretches *)
  assert (F0 : filter (ev_for sv) e0 = []) by (apply (quiet_run junk st sv HJ q0 h nv ev0 s0 e0); try assumption; apply msgs_ok_app; auto).
  assert (F1 : filter (ev_for sv) e1 = []) by (apply (quiet_run junk st sv HJ q1 ha sa _ s1 e1 (proj1 K1) (proj2 Ka) Q1 Ta R1)).
  assert (F2 : filter (ev_for sv) e2 = []) by (apply (quiet_run junk st sv HJ q2 hb sb _ s2 e2 (proj1 K2) (proj2 Kb) Q2 Tb R2)).
  assert (M3' : msgs_ok (hc ++ map NMsg q3)) by (apply msgs_ok_app; split; [apply Kc|exact M3]).
  assert (F3 : filter (ev_for sv) e3 = []) by exact (quiet_run junk st sv HJ q3 hc sc _ s3 e3 M3' (proj2 Kc) Q3 Tc R3).
  assert (EH0 : t_hist sv h0 = t_hist sv h) by (apply t_hist_quiet; exact Q0).
  (* the three subframes *)
  pose proof Ga as (Xa & Za & Sa & Ia & Ua). pose proof Gb as (Xb & Zb & Sb & Ib & Ub). pose proof Gc as (Xc & Zc & Sc & Ic & Uc).
  assert (Ek : kc = 6 - ka - kb).
  { assert (E : forall l l', Permutation l l' -> fold_right Z.add 0 l = fold_right Z.add 0 l') by (intros l l' HPl; induction HPl; cbn [fold_right]; lia).
    specialize (E _ _ HPm). cbn [fold_right] in E. lia. }
  assert (ES : forall h' s' e' m k ev'' s'', msgs_ok h' -> no_galileo sv h' -> gps_msg sv k i m -> nav_run junk (nav_init st) h' = Ok (s', e') ->
     nav_run junk s' [NMsg m] = Ok (s'', ev'') -> t_full (t_recv (t_hist sv h') (sf_dw m)) = false -> ev'' = []).
  { intros h' s' e' m k ev'' s'' Hh Hg (Y1 & Y2 & Y3 & _) Hr Hs Hf. destruct (gps_release junk st sv h' s' e' m HJ Hh Hg Y1 Hr Y2 Y3) as (s4 & ev4 & r & EC & HF & _).
    cbn [nav_run nav_step] in Hs. rewrite EC in Hs. cbn [bind] in Hs. rewrite (HF Hf) in Hs. cbn [app] in Hs. congruence. }
  destruct HP as (P1 & P2 & P3).
  assert (ET0 : t_hist sv h0 = mkT None None None (cur (t_hist sv h))).
  { rewrite EH0. destruct (t_hist sv h) as [x1 x2 x3 c0]. cbn [tk1 tk2 tk3 cur] in *. subst. reflexivity. }
  destruct (rc_six2 ka kb i (cur (t_hist sv h))) as [N1 N2]; [rewrite <- Ek; exact HPm|].
  assert (EGa : is_gps sv a = true) by (unfold is_gps; lia). assert (EGb : is_gps sv b = true) by (unfold is_gps; lia).
  assert (Ea : ea = []).
  { apply (ES h0 s0 _ a ka ea sa (proj1 K0) (proj2 K0) Ga T0 Ra). rewrite ET0, t_recv_rc, Ia, Ua. exact N1. }
  assert (ETa : t_hist sv h1 = let t' := rc (mkT None None None (cur (t_hist sv h))) ka i in if t_full t' then mkT None None None (cur t') else t').
  { unfold h1. rewrite (proj1 (t_hist_quiet sv _ Q1 ha)). unfold ha. rewrite (proj1 (t_hist_gps sv h0 a EGa)), ET0. unfold t_step. rewrite t_recv_rc, Ia, Ua. reflexivity. }
  assert (Eb : eb = []).
  { apply (ES h1 s1 _ b kb eb sb (proj1 K1) (proj2 K1) Gb T1 Rb). rewrite ETa, t_recv_rc, Ib, Ub. exact N2. }
  rewrite F0, F1, F2, F3, Ea, Eb. cbn [filter app]. rewrite app_nil_r.
  assert (EH2 : h2 = h0 ++ [NMsg a] ++ map NMsg q1 ++ [NMsg b] ++ map NMsg q2) by (unfold h2, hb, h1, ha; rewrite <- !app_assoc; reflexivity).
  assert (HP0 : no_pending sv h0) by (unfold no_pending; rewrite ET0; auto).
  rewrite EH2 in T2. assert (K2' := proj1 K2). rewrite EH2 in K2'.
  destruct (gps_set junk st sv i h0 (map NMsg q1) (map NMsg q2) a b c ka kb kc s2 _ HJ K2' (proj2 K0) Q1 Q2 HP0 HPm Ga Gb Gc T2) as (s5 & ev5 & r & EC & HF & HT).
  cbn [nav_run nav_step] in Rc. rewrite EC in Rc. cbn [bind] in Rc. rewrite app_nil_r in Rc. assert (Ec : ec = ev5) by congruence. subst ec.
  rewrite EH0 in HF, HT. split.
  - intros A B. rewrite (HF A B). reflexivity.
  - intros A. destruct (HT A) as (d & m1 & m2 & m3 & E5 & HC & HPP). exists d, m1, m2, m3. split; [|split; assumption].
    assert (EB : ecbs (h0 ++ map NMsg q1 ++ map NMsg q2) = ecbs h).
    { assert (EN : forall q, ecbs (map NMsg q) = []) by (induction q as [|x q IHq]; [reflexivity|exact IHq]).
      unfold h0, ecbs in *. rewrite !flat_map_app, !EN, !app_nil_r. reflexivity. }
    rewrite E5, EB. apply own_event. apply HC.
Qed.

(* ---------------------------------------------------------------- frames and messages *)
Definition mem_ok (mem : list Z) : Prop := bytes_ok mem /\ length mem = 2048%nat.
Definition fits (d : ditem) : Prop :=
  match d with DUbx (Good _ _ pl) | DUbx (Bad _ _ pl _ _) => bytes_ok pl /\ 1 <= Zlen pl <= 2048 | _ => True end.
Lemma over_ok pl mem : mem_ok mem -> bytes_ok pl -> Zlen pl <= 2048 -> mem_ok (pl ++ skipn (length pl) mem).
Proof.
  intros [H1 H2] Hb Hl. split; [apply bytes_ok_app; split; [exact Hb|apply bytes_ok_skipn; exact H1]|].
  rewrite app_length, skipn_length, H2. unfold Zlen in Hl. lia.
Qed.
Lemma ditem_mem_ok mem d : mem_ok mem -> fits d -> mem_ok (ditem_mem mem d).
Proof. intros Hm Hf. destruct d as [b|[b|c i pl|c i pl ka kb|c i n]|it]; cbn in *; try exact Hm; apply over_ok; tauto. Qed.
Lemma dmsgs_app : forall a mem b, dsfr_msgs mem (a ++ b) = dsfr_msgs mem a ++ dsfr_msgs (fold_left ditem_mem a mem) b.
Proof. induction a as [|d a IH]; intros mem b; [reflexivity|]. cbn [app dsfr_msgs fold_left]. rewrite IH, app_assoc. reflexivity. Qed.
Lemma dmem_ok : forall ds mem, mem_ok mem -> Forall fits ds -> mem_ok (fold_left ditem_mem ds mem).
Proof. induction ds as [|d ds IH]; intros mem Hm Hf; [exact Hm|]. cbn [fold_left]. inversion Hf. apply IH; [apply ditem_mem_ok|]; assumption. Qed.
Lemma sfrbx_ok msg : bytes_ok msg -> (48 <= length msg)%nat -> msg_ok (sfrbx_of msg).
Proof.
  intros Hb Hl. assert (HN : forall k, (k < 48)%nat -> byte_ok (nth k msg 0)).
  { intros k Hk. apply (proj1 (Forall_forall _ _) Hb). apply nth_In. lia. }
  unfold msg_ok, dw_ok, sfrbx_of; cbn [sf_gnss sf_sv sf_freq sf_dw]. split; [split|].
  - apply bytes_ok_firstn, bytes_ok_skipn, Hb.
  - rewrite firstn_length, skipn_length. lia.
  - repeat split; apply HN; lia.
Qed.
Lemma dmsg_in mem d x : In x (dsfr_msgs mem [d]) -> exists pl, d = DUbx (Good 2 19 pl) /\ x = sfrbx_of (pl ++ skipn (length pl) mem).
Proof.
  cbn [dsfr_msgs]. rewrite app_nil_r. destruct d as [b|it|it]; try contradiction. destruct it as [b|c i pl|c i pl ka kb|c i n]; cbn [sfr_msgs app]; try contradiction.
  destruct ((c =? 2) && (i =? 19)) eqn:E; cbn [app]; [|contradiction]. intros [<-|[]]. exists pl. split; [|reflexivity]. f_equal. f_equal; lia.
Qed.
Lemma dmsgs_cons mem d r : dsfr_msgs mem (d :: r) = dsfr_msgs mem [d] ++ dsfr_msgs (ditem_mem mem d) r.
Proof. apply (dmsgs_app [d] mem r). Qed.
Lemma dmsgs_ok : forall ds mem, mem_ok mem -> Forall fits ds -> msgs_ok (map NMsg (dsfr_msgs mem ds)).
Proof.
  induction ds as [|d ds IH]; intros mem Hm Hf; [intros m []|]. inversion Hf as [|? ? Hf1 Hf2]. rewrite dmsgs_cons, map_app, msgs_ok_app.
  split; [|apply IH; [apply ditem_mem_ok; assumption|exact Hf2]]. intros m Hin. apply in_map_iff in Hin. destruct Hin as (w & Ew & Hx). assert (w = m) by congruence. subst w.
  apply dmsg_in in Hx. destruct Hx as (pl & -> & ->). cbn [fits] in Hf1. destruct (over_ok pl mem Hm) as [B L]; [tauto|lia|]. apply sfrbx_ok; [exact B|lia].
Qed.
Lemma words_eq pl x : 48 <= Zlen pl -> firstn 40 (skipn 8 (pl ++ x)) = pl_words pl.
Proof.
  intros H. unfold Zlen in H. unfold pl_words. rewrite skipn_app. replace (8 - length pl)%nat with 0%nat by lia. change (skipn 0 x) with x.
  rewrite firstn_app, skipn_length. replace (40 - (length pl - 8))%nat with 0%nat by lia. change (firstn 0 x) with (@nil Z). apply app_nil_r.
Qed.
Lemma dmsgs_quiet sv : forall ds mem, Forall (dunrelated sv) ds -> quiet_for sv (map NMsg (dsfr_msgs mem ds)).
Proof.
  induction ds as [|d ds IH]; intros mem Hu; [intros m []|]. inversion Hu as [|? ? Hu1 Hu2]. rewrite dmsgs_cons, map_app.
  intros m Hin. apply in_app_or in Hin. destruct Hin as [Hin|Hin]; [|exact (IH _ Hu2 m Hin)].
  apply in_map_iff in Hin. destruct Hin as (w & Ew & Hx). assert (w = m) by congruence. subst w. apply dmsg_in in Hx. destruct Hx as (pl & -> & ->).
  cbn [dunrelated unrelated] in Hu1. destruct (Hu1 eq_refl eq_refl) as [HL HU]. cbn [sfrbx_of sf_sv sf_gnss sf_dw].
  unfold Zlen in HL. rewrite !(nth_app_l pl _) by lia. intros E. destruct (HU E) as [G2 G0]. split; [exact G2|].
  intros Z0. destruct (G0 Z0) as (L48 & I123). rewrite words_eq by exact L48. exact I123.
Qed.
Lemma carries_msg sv k i pl mem : mem_ok mem -> fits (DUbx (Good 2 19 pl)) -> carries sv k i pl ->
  dsfr_msgs mem [DUbx (Good 2 19 pl)] = [sfrbx_of (pl ++ skipn (length pl) mem)] /\
  gps_msg sv k i (sfrbx_of (pl ++ skipn (length pl) mem)) /\ sf_dw (sfrbx_of (pl ++ skipn (length pl) mem)) = pl_words pl.
Proof.
  intros Hm [Hb Hl] (L48 & G0 & SV & ID & IS). split; [reflexivity|]. destruct (over_ok pl mem Hm Hb ltac:(lia)) as [B L].
  assert (EW : sf_dw (sfrbx_of (pl ++ skipn (length pl) mem)) = pl_words pl) by (cbn [sfrbx_of sf_dw]; apply words_eq; exact L48).
  split; [|exact EW]. unfold gps_msg. rewrite EW. split; [apply sfrbx_ok; [exact B|lia]|]. cbn [sfrbx_of sf_gnss sf_sv].
  unfold Zlen in L48. rewrite !nth_app_l by lia. auto.
Qed.
Lemma frame_fits c i pl p : bytes_ok (item_bytes (Good c i pl)) -> item_ok p (Good c i pl) -> bytes_ok pl /\ 1 <= Zlen pl <= 2048.
Proof.
  intros Hb [_ Hl]. split; [|exact Hl]. cbn [item_bytes] in Hb. unfold ubx_body in Hb at 1. cbn [app] in Hb.
  do 5 (apply Forall_inv_tail in Hb). apply bytes_ok_app in Hb. apply Hb.
Qed.
Lemma frame_fits_bad c i pl ka kb p : bytes_ok (item_bytes (Bad c i pl ka kb)) -> item_ok p (Bad c i pl ka kb) -> bytes_ok pl /\ 1 <= Zlen pl <= 2048.
Proof.
  intros Hb (_ & Hl & _). split; [|exact Hl]. cbn [item_bytes] in Hb. unfold ubx_body in Hb at 1. cbn [app] in Hb.
  do 5 (apply Forall_inv_tail in Hb). apply bytes_ok_app in Hb. apply Hb.
Qed.
Lemma items_fit : forall its p, items_ok p its -> bytes_ok (items_bytes its) -> Forall fits (map DUbx its).
Proof.
  induction its as [|it r IH]; intros p Hok Hb; [constructor|]. destruct Hok as [H1 H2]. change (items_bytes (it :: r)) with (item_bytes it ++ items_bytes r) in Hb.
  apply bytes_ok_app in Hb. destruct Hb as [B1 B2]. constructor; [|exact (IH _ H2 B2)].
  destruct it; cbn [fits]; auto; [exact (frame_fits _ _ _ _ B1 H1)|exact (frame_fits_bad _ _ _ _ _ _ B1 H1)].
Qed.
Lemma ditems_fit : forall ds p, ditems_ok p ds -> bytes_ok (ditems_bytes ds) -> Forall fits ds.
Proof.
  induction ds as [|d r IH]; intros p Hok Hb; [constructor|]. destruct Hok as [H1 H2]. change (ditems_bytes (d :: r)) with (ditem_bytes d ++ ditems_bytes r) in Hb.
  apply bytes_ok_app in Hb. destruct Hb as [B1 B2]. constructor; [|exact (IH _ H2 B2)].
  destruct d as [b|it|it]; cbn [fits]; auto. cbn [ditem_ok ditem_bytes] in *. inversion B1 as [|? ? _ B1']. destruct H1 as [H1 _].
  destruct it; auto; [exact (frame_fits _ _ _ _ B1' H1)|exact (frame_fits_bad _ _ _ _ _ _ B1' H1)].
Qed.
Lemma dmsgs_ubx : forall its mem, dsfr_msgs mem (map DUbx its) = sfr_msgs mem its.
Proof.
  induction its as [|it r IH]; intros mem; [reflexivity|]. cbn [map dsfr_msgs ditem_mem]. rewrite IH. cbn [sfr_msgs].
  rewrite app_nil_r. reflexivity.
Qed.
(* three frames with the subframes, among unrelated ones *)
Lemma wire_core junk st sv i h nv ev0 mem d0 d1 d2 d3 pa pb pc ka kb kc nv' v :
  junk_ok junk -> msgs_ok h -> no_galileo sv h -> no_pending sv h -> nav_run junk (nav_init st) h = Ok (nv, ev0) -> mem_ok mem ->
  Forall fits (d0 ++ [DUbx (Good 2 19 pa)] ++ d1 ++ [DUbx (Good 2 19 pb)] ++ d2 ++ [DUbx (Good 2 19 pc)] ++ d3) ->
  Forall (dunrelated sv) (d0 ++ d1 ++ d2 ++ d3) -> Permutation [ka; kb; kc] [1; 2; 3] ->
  carries sv ka i pa -> carries sv kb i pb -> carries sv kc i pc ->
  nav_run junk nv (map NMsg (dsfr_msgs mem (d0 ++ [DUbx (Good 2 19 pa)] ++ d1 ++ [DUbx (Good 2 19 pb)] ++ d2 ++ [DUbx (Good 2 19 pc)] ++ d3))) = Ok (nv', v) ->
  (ka = 3 -> cur (t_hist sv h) <> i -> filter (ev_for sv) v = []) /\
  (ka <> 3 \/ cur (t_hist sv h) = i -> exists d m1 m2 m3, filter (ev_for sv) v = map (fun n => EvEph n d) (ecbs h) /\ gps_content sv m1 m2 m3 d /\
     Permutation [(ka, pl_words pa); (kb, pl_words pb); (kc, pl_words pc)] [(1, m1); (2, m2); (3, m3)]).
Proof.
  intros HJ HM HN HP HR Hmem HF HU HPm Ca Cb Cc HS.
  pose proof (dmsgs_ok _ _ Hmem HF) as HMs. 
  repeat rewrite Forall_app in HF. destruct HF as (F0 & Fa & F1 & Fb & F2 & Fc & F3). repeat rewrite Forall_app in HU. destruct HU as (U0 & U1 & U2 & U3).
  apply Forall_inv in Fa, Fb, Fc. rewrite !dmsgs_app in HMs, HS.
  pose proof (dmem_ok d0 mem Hmem F0) as X0. set (m0 := fold_left ditem_mem d0 mem) in *.
  destruct (carries_msg sv ka i pa m0 X0 Fa Ca) as (Ea & Ga & Wa). rewrite Ea in HMs, HS.
  pose proof (ditem_mem_ok m0 (DUbx (Good 2 19 pa)) X0 Fa) as Xa. change (fold_left ditem_mem [DUbx (Good 2 19 pa)] m0) with (ditem_mem m0 (DUbx (Good 2 19 pa))) in *.
  set (ma := ditem_mem m0 (DUbx (Good 2 19 pa))) in *.
  pose proof (dmem_ok d1 ma Xa F1) as X1. set (m1 := fold_left ditem_mem d1 ma) in *.
  destruct (carries_msg sv kb i pb m1 X1 Fb Cb) as (Eb & Gb & Wb). rewrite Eb in HMs, HS.
  pose proof (ditem_mem_ok m1 (DUbx (Good 2 19 pb)) X1 Fb) as Xb. change (fold_left ditem_mem [DUbx (Good 2 19 pb)] m1) with (ditem_mem m1 (DUbx (Good 2 19 pb))) in *.
  set (mb := ditem_mem m1 (DUbx (Good 2 19 pb))) in *.
  pose proof (dmem_ok d2 mb Xb F2) as X2. set (m2 := fold_left ditem_mem d2 mb) in *.
  destruct (carries_msg sv kc i pc m2 X2 Fc Cc) as (Ec & Gc & Wc). rewrite Ec in HMs, HS.
  rewrite <- Wa, <- Wb, <- Wc.
  eapply (gps_set_run junk st sv i h nv ev0); try eassumption; apply dmsgs_quiet; assumption.
Qed.
Theorem wire_nonbase junk st u ru n s ls nid h nv ev0 sv i ka kb kc pa pb pc i0 i1 i2 i3 t s' nv' ev v :
  uninit_ok u -> runinit_ok ru -> bytes_ok (un_inbuf u) -> UReach u ru n s -> u_type s <> T_BASE ->
  Forall listener_ok ls -> (forall l, In l ls -> lid l <> nid) -> u_ls s = map build (mkListener nid [(0x02, 0x13)] :: ls) ->
  junk_ok junk -> msgs_ok h -> no_galileo sv h -> no_pending sv h -> nav_run junk (nav_init st) h = Ok (nv, ev0) ->
  forall its, its = i0 ++ [Good 0x02 0x13 pa] ++ i1 ++ [Good 0x02 0x13 pb] ++ i2 ++ [Good 0x02 0x13 pc] ++ i3 ->
  parsing_message (u_ubx s) = false -> items_ok (prev (u_ubx s)) its -> tail_ok (items_last (prev (u_ubx s)) its) t -> bytes_ok (items_bytes its ++ t) ->
  Forall (unrelated sv) (i0 ++ i1 ++ i2 ++ i3) -> Permutation [ka; kb; kc] [1; 2; 3] ->
  carries sv ka i pa -> carries sv kb i pb -> carries sv kc i pc ->
  dev_read junk nid s nv (items_bytes its ++ t) = Ok (s', nv', ev, v) ->
  (ka = 3 -> cur (t_hist sv h) <> i -> filter (ev_for sv) v = []) /\
  (ka <> 3 \/ cur (t_hist sv h) = i -> exists d m1 m2 m3, filter (ev_for sv) v = map (fun n => EvEph n d) (ecbs h) /\ gps_content sv m1 m2 m3 d /\
     Permutation [(ka, pl_words pa); (kb, pl_words pb); (kc, pl_words pc)] [(1, m1); (2, m2); (3, m3)]).
Proof.
  intros Hu Hru Hbu HR HT Hls HL EL HJ HM HN HP HRn its Eits HPm Hok Ht Hb HU HPe Ca Cb Cc HD.
  assert (HE : exists s2 ev2, ublox_read s (items_bytes its ++ t) = Ok (s2, ev2)).
  { clear - HD. revert s nv s' nv' ev v HD. generalize (items_bytes its ++ t) as bs. induction bs as [|b r IH]; intros s nv s' nv' ev v HD; [exists s, []; reflexivity|].
    cbn [dev_read ublox_read] in *. apply bind_inv in HD. destruct HD as ((s1, e1) & E1 & HD). rewrite E1. cbn [bind].
    apply bind_inv in HD. destruct HD as ((n1, v1) & _ & HD). apply bind_inv in HD. destruct HD as ((((s2, n2), e2), v2) & E2 & _).
    destruct (IH _ _ _ _ _ _ E2) as (s3 & ev3 & E3). rewrite E3. eexists _, _. reflexivity. }
  destruct HE as (s2 & ev2 & E2).
  rewrite (dev_read_split junk nid _ s nv s2 ev2 E2), (nav_input u ru n s ls nid its t s2 ev2 Hu Hru HR HT Hls HL EL HPm Hok Ht Hb E2) in HD.
  apply bind_inv in HD. destruct HD as ((nv2, v2) & HS & HD). assert (v2 = v) by congruence. subst v2. clear HD.
  rewrite <- dmsgs_ubx in HS. apply bytes_ok_app in Hb. destruct Hb as [Hb _]. pose proof (items_fit its _ Hok Hb) as HF.
  assert (Hmem : mem_ok (inbuf (u_ubx s))).
  { split; [exact (reach_buf u ru n s Hbu HR)|]. destruct (ureach_inv u ru n s Hu Hru HR) as (((_ & K & _) & _) & _). unfold Zlen in K. lia. }
  rewrite Eits, !map_app in HF, HS.
  eapply (wire_core junk st sv i h nv ev0); try eassumption.
  rewrite <- !map_app. apply Forall_forall. intros d Hd. apply in_map_iff in Hd. destruct Hd as (it & <- & Hit). exact (proj1 (Forall_forall _ _) HU it Hit).
Qed.
Theorem wire_base junk st u ru n s ls nid h nv ev0 sv i ka kb kc pa pb pc d0 d1 d2 d3 s' nv' ev v :
  uninit_ok u -> runinit_ok ru -> bytes_ok (un_inbuf u) -> UReach u ru n s -> u_type s = T_BASE ->
  Forall listener_ok ls -> (forall l, In l ls -> lid l <> nid) -> u_ls s = map build (mkListener nid [(0x02, 0x13)] :: ls) ->
  junk_ok junk -> msgs_ok h -> no_galileo sv h -> no_pending sv h -> nav_run junk (nav_init st) h = Ok (nv, ev0) ->
  forall ds, ds = d0 ++ [DUbx (Good 0x02 0x13 pa)] ++ d1 ++ [DUbx (Good 0x02 0x13 pb)] ++ d2 ++ [DUbx (Good 0x02 0x13 pc)] ++ d3 ->
  parsing_message (u_ubx s) = false -> rtcm_parsing (u_rtcm s) = false -> ditems_ok (prev (u_ubx s)) ds -> bytes_ok (ditems_bytes ds) ->
  Forall (dunrelated sv) (d0 ++ d1 ++ d2 ++ d3) -> Permutation [ka; kb; kc] [1; 2; 3] ->
  carries sv ka i pa -> carries sv kb i pb -> carries sv kc i pc ->
  dev_read junk nid s nv (ditems_bytes ds) = Ok (s', nv', ev, v) ->
  (ka = 3 -> cur (t_hist sv h) <> i -> filter (ev_for sv) v = []) /\
  (ka <> 3 \/ cur (t_hist sv h) = i -> exists d m1 m2 m3, filter (ev_for sv) v = map (fun n => EvEph n d) (ecbs h) /\ gps_content sv m1 m2 m3 d /\
     Permutation [(ka, pl_words pa); (kb, pl_words pb); (kc, pl_words pc)] [(1, m1); (2, m2); (3, m3)]).
Proof.
  intros Hu Hru Hbu HR HT Hls HL EL HJ HM HN HP HRn ds Eds HPm HRp Hok Hb HU HPe Ca Cb Cc HD.
  assert (HE : exists s2 ev2, ublox_read s (ditems_bytes ds) = Ok (s2, ev2)).
  { clear - HD. revert s nv s' nv' ev v HD. generalize (ditems_bytes ds) as bs. induction bs as [|b r IH]; intros s nv s' nv' ev v HD; [exists s, []; reflexivity|].
    cbn [dev_read ublox_read] in *. apply bind_inv in HD. destruct HD as ((s1, e1) & E1 & HD). rewrite E1. cbn [bind].
    apply bind_inv in HD. destruct HD as ((n1, v1) & _ & HD). apply bind_inv in HD. destruct HD as ((((s2, n2), e2), v2) & E2 & _).
    destruct (IH _ _ _ _ _ _ E2) as (s3 & ev3 & E3). rewrite E3. eexists _, _. reflexivity. }
  destruct HE as (s2 & ev2 & E2).
  rewrite (dev_read_split junk nid _ s nv s2 ev2 E2), (nav_input_base u ru n s ls nid ds s2 ev2 Hu Hru HR HT Hls HL EL HPm HRp Hok Hb E2) in HD.
  apply bind_inv in HD. destruct HD as ((nv2, v2) & HS & HD). assert (v2 = v) by congruence. subst v2. clear HD.
  pose proof (ditems_fit ds _ Hok Hb) as HF.
  assert (Hmem : mem_ok (inbuf (u_ubx s))).
  { split; [exact (reach_buf u ru n s Hbu HR)|]. destruct (ureach_inv u ru n s Hu Hru HR) as (((_ & K & _) & _) & _). unfold Zlen in K. lia. }
  rewrite Eds in HF, HS. eapply (wire_core junk st sv i h nv ev0); eassumption.
Qed.
