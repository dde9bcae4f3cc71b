(* C98: base and rover when the two queries of the version, at construction, and the registration of the program's handler fall in the middle
   of frames: no division of the receiver's bytes between them matters, only which frames are complete.  Programs: StationStart.v, StationProg.v. *)
From Coq Require Import String.
From Verif Require Import Base UbxSpec UbxModel UbxProofs UbxStream UbxMain UbxMore UbxHist UbxApi
  UbxTx UbxTxSpec UbxTxApi CrcSpec RtcmModel RtcmSpec RtcmProofs RtcmApi UbloxModel UbloxSpec UbloxProofs UbloxApi UbloxThm UbloxCfg
  BitModel UtcModel UtcSpec Dbl NavModel NavSpec NavGpsSpec NavStrSpec NavGloSpec NavGalSpec NavStr NavBits NavGps NavObj NavGpsThm NavGlo NavGloThm NavPage NavGal NavGalThm
  NavDev NavSafe NavWire DeviceSafe NavShow NavShowThm TextSpec ConsoleSpec Console ReportSpec ExShow ExShowThm RosModel RosSpec Calendar UtcShow UtcShowThm ExSat ExSatThm SerialProg LogProg UbloxStart
  StationProg StationStart StationMix.
Local Open Scope string_scope.
Local Open Scope list_scope.
Local Open Scope Z_scope.

(* ---------------------------------------------------------------- specification *)
(* rx1: what arrives during the first query: the frames ds1 and the beginning of another; rx2: during the second query, if there is one, the rest
   of it and more, so that the frames ds2 are complete.  q: the beginning of the frame that is in progress when the driver is made *)
Definition cut_queries (ds1 ds2 : list ditem) (rx1 rx2 q : list Z) : Prop :=
  exists p, rx1 = ditems_bytes ds1 ++ p /\ unfinished T_NONE (ditems_last 0 ds1) p /\
    if existsb is_ver ds1 then q = p
    else p ++ rx2 = ditems_bytes ds2 ++ q /\ unfinished T_NONE (ditems_last 0 (ds1 ++ ds2)) q.
(* the same program run, with q arriving after the handler is registered *)
Definition early (q : list Z) (w : site) : site := mkSite (si_junk w) (si_dbg w) (si_udp w) (q ++ si_before w) (si_after w).

(* ---------------------------------------------------------------- proofs: the beginning of a frame *)
Definition late (s : ublox) (x : ubx) (r : rtcm) : ublox := uw_rtcm (uw_ubx s x) r.
Lemma tail_any s t : Idle s -> tail_ok (prev s) t -> bytes_ok t ->
  exists x, got_ver x = got_ver s /\ major x = major s /\ (t <> [] -> parsing_message x = true) /\ (forall v, parsing_message (w_ver x v) = parsing_message x) /\
    forall ls v, feed ls (w_ver s v) t = Ok (w_ver x v, quiet (length t)).
Proof.
  intros HI Ht Hb. destruct (exec_tail [] s t HI Ht Hb) as (x & E & HT & _ & HPa). exists x. destruct HT as (_ & _ & _ & _ & HV & HM & _).
  split; [exact HV|]. split; [exact HM|]. split; [intros H; apply HPa; exact H|]. split; [intros v; reflexivity|]. intros ls v.
  destruct (tail_keeps s t x _ v HI Ht Hb E) as [_ E2]. destruct (feed_ls [] ls t _ _ _ E2) as (o & E3).
  assert (HI2 : Idle (w_ver s v)) by exact HI. destruct (exec_tail ls (w_ver s v) t HI2 Ht Hb) as (y & E4 & _). rewrite E4 in E3. rewrite E4. congruence.
Qed.
Lemma prefix_any d p q u r0 : no_rtcm [d] -> Idle u -> RSt r0 [] -> ditem_ok (prev u) d -> bytes_ok (ditem_bytes d) -> ditem_bytes d = p ++ q -> q <> [] ->
  exists x r, got_ver x = got_ver u /\ major x = major u /\
    forall ls v s, u_ls s = map build ls -> u_ubx s = w_ver u v -> u_rtcm s = r0 -> ublox_read s p = Ok (late s (w_ver x v) r, []).
Proof.
  intros HN HI HR Hok Hby EB Hq. destruct p as [|x a]; [exists u, r0; split; [reflexivity|]; split; [reflexivity|]; intros ls v s _ <- <-; cbn [ublox_read]; destruct s; reflexivity|].
  destruct d as [b|it|it]; cbn [ditem_ok ditem_bytes] in *; [| |exfalso; exact (HN it (or_introl eq_refl))].
  { exfalso. assert (X : a ++ q = []) by (cbn [app] in EB; congruence). apply app_eq_nil in X. tauto. }
  destruct Hok as [Hok Hn]. assert (x = 0xB5) by (cbn [app] in EB; congruence). assert (EA : item_bytes it = a ++ q) by (cbn [app] in EB; congruence). subst x. clear EB.
  inversion Hby as [|? ? Hb5 Hit]; subst.
  destruct (rnoise_alike r0 0xB5 HR Hb5 ltac:(lia)) as (r1 & ER1 & HR1). set (u1 := w_prev u 0xB5).
  assert (EU1 : forall l v, read_cb l (w_ver u v) 0xB5 = Ok (w_ver u1 v, [], false)) by (intros l v; apply (read_noise l (w_ver u v) 0xB5); [apply HI|lia]).
  assert (HI1 : Idle u1) by (apply idle_prev; exact HI).
  assert (EB1 : forall s v, u_ubx s = w_ver u v -> u_rtcm s = r0 -> ublox_byte s 0xB5 = Ok (late s (w_ver u1 v) r1, [])).
  { intros s v Eu Er. apply (byte_both s 0xB5 (w_ver u1 v) [] false); [rewrite Eu; exact (idle_parsing _ HI)|rewrite Er; apply (rst_parsing _ [] HR); reflexivity|rewrite Eu; apply EU1|rewrite Er; apply ER1]. }
  destruct a as [|y a].
  { exists u1, r1. split; [reflexivity|]. split; [reflexivity|]. intros ls v s _ Eu Er. cbn [ublox_read]. rewrite (EB1 s v Eu Er). reflexivity. }
  assert (y = 0x62) by (destruct it; cbn [is_noise] in Hn; [discriminate| | |]; cbn [item_bytes app] in EA; congruence). subst y.
  rewrite EA in Hit. pose proof Hit as Hita. apply bytes_ok_app in Hita. destruct Hita as [Hita _]. inversion Hita as [|? ? H62 Ha]; subst.
  destruct (rnoise_alike r1 0x62 HR1 H62 ltac:(lia)) as (r2 & ER2 & HR2).
  assert (HTL : forall t z, a = t ++ z -> tail_ok (prev u1) (0x62 :: t)).
  { intros t z Et. change (prev u1) with 0xB5. apply (item_prefix_tail it (0x62 :: t) (z ++ q) Hok Hn); [rewrite EA, Et; cbn [app]; rewrite <- app_assoc; reflexivity|discriminate|]. destruct z; [exact Hq|discriminate]. }
  destruct (tail_any u1 [0x62] HI1 (HTL [] a eq_refl)) as (x2 & V2 & M2 & _ & _ & F2); [constructor; [exact H62|constructor]|].
  assert (EX2 : forall ls v, read_cb ls (w_ver u1 v) 0x62 = Ok (w_ver x2 v, [], false)).
  { intros ls v. specialize (F2 ls v). cbn [feed] in F2. destruct (read_cb ls (w_ver u1 v) 0x62) as [[[xa c2] o2]|k]; cbn [bind] in F2; [|discriminate].
    cbn [quiet repeat length] in F2. congruence. }
  destruct (tail_any u1 (0x62 :: a) HI1 (HTL a [] ltac:(symmetry; apply app_nil_r))) as (x3 & V3 & M3 & _ & _ & F3); [constructor; [exact H62|exact Ha]|].
  assert (HPR : forall ls v t z xa o, a = t ++ z -> z <> [] -> feed ls (w_ver x2 v) t = Ok (xa, o) -> parsing_message xa = true).
  { intros ls v t z xa o Et Hz EF. destruct (tail_any u1 (0x62 :: t) HI1 (HTL t z Et)) as (x' & _ & _ & HPa & HPv & EF').
    { constructor; [exact H62|]. rewrite Et in Ha. apply bytes_ok_app in Ha. tauto. }
    specialize (EF' ls v). cbn [feed] in EF'. rewrite EX2 in EF'. cbn [bind] in EF'. rewrite EF in EF'. cbn [bind] in EF'. assert (xa = w_ver x' v) by congruence. subst xa. rewrite HPv. apply HPa. discriminate. }
  exists x3, r2. split; [exact V3|]. split; [exact M3|]. intros ls v s El Eu Er. cbn [ublox_read]. rewrite (EB1 s v Eu Er). cbn [bind].
  set (s1 := late s (w_ver u1 v) r1).
  assert (Eb2 : ublox_byte s1 0x62 = Ok (late s1 (w_ver x2 v) r2, [])).
  { apply (byte_both s1 0x62 (w_ver x2 v) [] false); [exact (idle_parsing _ HI1)|apply (rst_parsing _ [] HR1); reflexivity|apply EX2|apply ER2]. }
  rewrite Eb2. cbn [bind]. set (s2 := late s1 (w_ver x2 v) r2).
  assert (EF : feed (u_ls s2) (w_ver x2 v) a = Ok (w_ver x3 v, quiet (length a))).
  { specialize (F3 (u_ls s2) v). cbn [feed] in F3. rewrite EX2 in F3. cbn [bind] in F3. destruct (feed (u_ls s2) (w_ver x2 v) a) as [[xa o]|k]; cbn [bind] in F3; [|discriminate].
    cbn [length quiet repeat] in F3. unfold quiet. congruence. }
  rewrite run_ubx; [|exact (HPR (u_ls s2) v)]. change (u_ubx s2) with (w_ver x2 v). rewrite EF. cbn [lift_ubx bind]. rewrite ubx_quiet. reflexivity.
Qed.
(* p, read from the state s, does nothing but move both readers, in the same way whatever the flag of the version and the listeners *)
Definition creeps (s : ublox) (p : list Z) (x : ubx) (r : rtcm) : Prop :=
  got_ver x = got_ver (u_ubx s) /\ major x = major (u_ubx s) /\
  forall s2 T2 ls2 v, idle_as T2 ls2 s2 -> u_ubx s2 = w_ver (u_ubx s) v -> u_rtcm s2 = u_rtcm s -> ublox_read s2 p = Ok (late s2 (w_ver x v) r, []) /\ ublox_says s2 p = Ok ""%string.
Lemma cut_any T ls s p : idle_as T ls s -> unfinished T_NONE (prev (u_ubx s)) p -> exists x r, creeps s p x r.
Proof.
  intros HI [->|(d & q & [H|HN] & Hok & Hb & Hq & EB)].
  - exists (u_ubx s), (u_rtcm s). split; [reflexivity|]. split; [reflexivity|]. intros s2 T2 ls2 v _ <- <-. split; [destruct s2; reflexivity|reflexivity].
  - discriminate H.
  - pose proof HI as (HT & HL & HId & HR). destruct (prefix_any d p q (u_ubx s) (u_rtcm s) HN HId HR Hok Hb EB Hq) as (x & r & V & M & HX).
    exists x, r. split; [exact V|]. split; [exact M|].
    intros s2 T2 ls2 v HI2 Eu Er. split; [apply (HX ls2 v s2); [apply HI2|exact Eu|exact Er]|].
    destruct (frame_quiet T2 ls2 s2 d p q (or_intror HN) HI2 ltac:(rewrite Eu; exact Hok) Hb EB Hq) as (sp2 & _ & Q3). exact Q3.
Qed.
Lemma creeps_self T ls s p x r s2 : creeps s p x r -> idle_as T ls s2 -> u_ubx s2 = u_ubx s -> u_rtcm s2 = u_rtcm s -> ublox_read s2 p = Ok (late s2 x r, []) /\ ublox_says s2 p = Ok ""%string.
Proof.
  intros (V & _ & H) HI Eu Er. destruct (H s2 T ls (got_ver (u_ubx s)) HI) as [A B]; [rewrite w_ver_same; exact Eu|exact Er|]. rewrite <- V, w_ver_same in A. split; assumption.
Qed.
Lemma last_after T ls : forall ds s s' ev, no_rtcm ds -> Forall listener_ok ls -> idle_as T ls s -> ditems_ok (prev (u_ubx s)) ds -> bytes_ok (ditems_bytes ds) ->
  ublox_read s (ditems_bytes ds) = Ok (s', ev) -> prev (u_ubx s') = ditems_last (prev (u_ubx s)) ds.
Proof.
  induction ds as [|d ds IH]; intros s s' ev HN Hls HI Hok Hb E.
  - cbn [ditems_bytes flat_map ublox_read] in E. assert (s' = s) by congruence. subst. reflexivity.
  - change (ditems_bytes (d :: ds)) with (ditem_bytes d ++ ditems_bytes ds) in *. apply bytes_ok_app in Hb. destruct Hb as [Hb1 Hb2]. destruct Hok as [Hd Hds].
    assert (HN' : no_rtcm ds) by (intros it Hin; apply (HN it); right; exact Hin). rewrite ublox_read_app in E.
    assert (X : exists s1 e1, ublox_read s (ditem_bytes d) = Ok (s1, e1) /\ idle_as T ls s1 /\ prev (u_ubx s1) = ditem_last d).
    { destruct d as [b|it|it]; cbn [ditem_ok ditem_bytes ditem_last] in *.
      - destruct Hd as [Hne Hn]. inversion Hb1 as [|? ? Hbb _]; subst. destruct (read_noise_both _ _ s b HI Hbb Hne Hn) as (x & E2 & I2 & _ & EU).
        exists x, []. cbn [ublox_read]. rewrite E2. cbn [bind]. split; [reflexivity|]. split; [exact I2|]. rewrite EU. reflexivity.
      - destruct Hd as [Hi Hn]. destruct (ubx_item_idle _ _ s it Hls HI Hi Hn Hb1) as [(x & E2 & I2 & _ & P2 & M2)|[_ E2]]; [eauto 8|].
        rewrite E2 in E. discriminate E.
      - exfalso. exact (HN it (or_introl eq_refl)). }
    destruct X as (s1 & e1 & E1 & I1 & P1). rewrite E1 in E. cbn [bind] in E. destruct (ublox_read s1 (ditems_bytes ds)) as [[s2 e2]|k] eqn:E2; cbn [bind] in E; [|discriminate].
    assert (s2 = s') by congruence. subst s2. rewrite <- P1 in Hds. cbn [ditems_last]. rewrite <- P1. exact (IH s1 s' e2 HN' Hls I1 Hds Hb2 E2).
Qed.
Lemma last_app a : forall b p, ditems_last p (a ++ b) = ditems_last (ditems_last p a) b.
Proof. induction a as [|d a IH]; intros b p; [reflexivity|]. cbn [app ditems_last]. apply IH. Qed.

(* ---------------------------------------------------------------- proofs: the queries *)
Lemma ver_poll_out o : send_ver_poll o = Ok (o, frame_writes 0x0A 0x04 []).
Proof. reflexivity. Qed.
(* a query made in the middle of a frame *)
Lemma ask_late junk dbg s n p x r rx : idle_as T_NONE [l0] s -> creeps s p x r -> ask_port junk dbg (late s x r) n rx = ask_port junk dbg s n (p ++ rx).
Proof.
  intros HI (_ & _ & HC). unfold ask_port, usend. rewrite !ver_poll_out. cbn [bind].
  set (S := uw_out (uw_ubx s (w_ver (u_ubx s) false)) (u_out (uw_ubx s (w_ver (u_ubx s) false)))).
  change (uw_out (uw_ubx (late s x r) (w_ver (u_ubx (late s x r)) false)) (u_out (uw_ubx (late s x r) (w_ver (u_ubx (late s x r)) false)))) with (late S (w_ver x false) r).
  destruct (HC S T_NONE [l0] false) as [A B]; [destruct HI as (I1 & I2 & I3 & I4); split; [exact I1|]; split; [exact I2|]; split; [exact I3|exact I4]|reflexivity|reflexivity|].
  rewrite map_app, station_app, (ports_silent junk _ _ _ _ p S n dbg _ A B). cbn [bind app append].
  destruct (station junk (fun _ _ _ => ""%string) 1 2 false (late S (w_ver x false) r) n dbg (map Port rx)) as [[[[[s2 n2] d2] e2] t2]|k]; reflexivity.
Qed.
(* a query that ends in the middle of a frame *)
Lemma ask_cut junk dbg s n bs s1 n1 e1 ok t1 p x r : ask_port junk dbg s n bs = Ok (s1, n1, e1, ok, t1) -> idle_as T_NONE [l0] s1 -> creeps s1 p x r ->
  ask_port junk dbg s n (bs ++ p) = Ok (late s1 x r, n1, e1, ok, t1).
Proof.
  intros E HI HC. destruct (creeps_self T_NONE [l0] s1 p x r s1 HC HI eq_refl eq_refl) as [A B]. destruct HC as (V & _ & _).
  unfold ask_port in *. apply bind_inv in E. destruct E as ([sa ea] & EU & E). rewrite EU. cbn [bind]. apply bind_inv in E. destruct E as (((((sb, nb), db), eb), tb) & ES & E).
  assert (sb = s1) by congruence. assert (nb = n1) by congruence. subst sb nb. rewrite map_app, station_app, ES. cbn [bind]. rewrite (ports_silent junk _ _ _ _ p s1 n1 db _ A B). cbn [bind].
  rewrite app_nil_r, sapp_nil_r. change (u_ubx (late s1 x r)) with x. rewrite V. congruence.
Qed.
Lemma finish_late x r s : major x = major (u_ubx s) -> usends (ctor_sends (major (u_ubx (late s x r)))) (late s x r) = (let* (s', e) := usends (ctor_sends (major (u_ubx s))) s in Ok (late s' x r, e)).
Proof. intros M. change (u_ubx (late s x r)) with x. rewrite M. apply usends_alike. Qed.
Lemma creeps_out s o p x r : creeps s p x r -> creeps (uw_out s o) p x r.
Proof. intros H. exact H. Qed.

Lemma connecting_cut junk u ru out0 st ds1 ds2 rx1 rx2 q res ev : junk_ok junk -> uninit_ok u -> runinit_ok ru -> Zlen out0 = 2048 -> (forall sv, 1 <= sv <= 255 -> st (sv - 1) = repeat 0 380) ->
  no_rtcm (ds1 ++ ds2) -> ditems_ok 0 (ds1 ++ ds2) -> bytes_ok (ditems_bytes (ds1 ++ ds2)) ->
  (forall m, In m (dsfr_msgs (inbuf (ubx_init u)) (ds1 ++ ds2)) -> calm (NMsg m)) ->
  ctor u ru out0 1 (ditems_bytes ds1) (ditems_bytes ds2) = Ok (res, ev) -> cut_queries ds1 ds2 rx1 rx2 q ->
  match res with
  | None => connecting junk u ru out0 (nav_init st) rx1 rx2 = connecting junk u ru out0 (nav_init st) (ditems_bytes ds1) (ditems_bytes ds2)
  | Some s => idle_as T_NONE [l0] s /\ exists x r, creeps s q x r /\
      connecting junk u ru out0 (nav_init st) rx1 rx2 = (let* (_, n, e, t) := connecting junk u ru out0 (nav_init st) (ditems_bytes ds1) (ditems_bytes ds2) in Ok (Some (late s x r), n, e, t))
  end.
Proof.
  intros HJ Hu Hru Hz Hst HN Hok Hb HC EC (p & -> & HU1 & HQ).
  assert (HN1 : no_rtcm ds1 /\ no_rtcm ds2) by (apply no_rtcm_app; exact HN). destruct HN1 as [HN1 HN2].
  unfold ditems_bytes in Hb. rewrite flat_map_app in Hb. apply bytes_ok_app in Hb. destruct Hb as [Hb1 Hb2]. fold (ditems_bytes ds1) in Hb1. fold (ditems_bytes ds2) in Hb2.
  rewrite dmsgs_app in HC.
  assert (HI0 : idle_as T_NONE [l0] (ublox_blank u ru out0 1)).
  { split; [reflexivity|]. split; [reflexivity|]. split; [apply init_idle; exact Hu|]. destruct Hru. apply RS_idle; try assumption; reflexivity. }
  assert (HS0 : small_counters (ubx_init u)) by (apply (reach_small u _ Hu); constructor).
  assert (Hl : Forall listener_ok [l0]) by (repeat constructor; cbn; lia).
  pose proof (blank_inv u ru out0 1 Hu Hru Hz) as HU0. unfold ctor in EC. unfold connecting. cbv zeta.
  assert (HP0 : calm_parser junk (nav_init st)) by (exists st, [], []; split; [exact Hst|split; [intros o []|reflexivity]]).
  pose proof (calm_parser_si junk _ HJ HP0) as HSI0.
  assert (RD : forall s bs s' e k, get_version s bs = Ok (s', e, k) -> idle_as T_NONE [l0] s -> exists S e', u_out S = u_out s /\ idle_as T_NONE [l0] S /\ prev (u_ubx S) = prev (u_ubx s) /\ ublox_read S bs = Ok (s', e')).
  { intros s bs s' e k E HI. unfold get_version, usend in E. rewrite ver_poll_out in E. cbn [bind] in E.
    set (S := uw_out (uw_ubx s (w_ver (u_ubx s) false)) (u_out (uw_ubx s (w_ver (u_ubx s) false)))) in *. destruct (ublox_read S bs) as [[s2 e2]|k2] eqn:ER; cbn [bind] in E; [|discriminate].
    exists S, e2. split; [reflexivity|]. split; [destruct HI as (I1 & I2 & I3 & I4); split; [exact I1|]; split; [exact I2|]; split; [exact I3|exact I4]|]. split; [reflexivity|]. assert (s2 = s') by congruence. subst s2. exact ER. }
  destruct (get_version (ublox_blank u ru out0 1) (ditems_bytes ds1)) as [[[s1 e1] ok1]|k] eqn:E1; cbn [bind] in EC; [|discriminate].
  destruct (ask_shows junk (rtcm_init ru) _ (nav_init st) ds1 s1 e1 ok1 HJ HU0 HI0 HS0 eq_refl HSI0 HN1 (ditems_ok_pre _ _ _ Hok) Hb1 (fun m Hm => HC m (in_or_app _ _ _ (or_introl Hm))) E1)
    as (n1 & t1 & Q1 & _ & _ & _ & -> & V1 & U1 & I1 & S1 & SI1 & _ & M1 & K1).
  destruct (RD _ _ _ _ _ E1 HI0) as (Sa & ea & _ & HIa & Pa & Ra).
  pose proof (last_after T_NONE [l0] ds1 Sa s1 ea HN1 Hl HIa ltac:(rewrite Pa; exact (ditems_ok_pre _ _ _ Hok)) Hb1 Ra) as L1. rewrite Pa in L1. change (prev (u_ubx (ublox_blank u ru out0 1))) with 0 in L1.
  destruct (cut_any T_NONE [l0] s1 p I1 ltac:(rewrite L1; exact HU1)) as (x & r & HX).
  rewrite (ask_cut _ _ _ _ _ _ _ _ _ _ p x r Q1 I1 HX), Q1. cbn [bind]. destruct (existsb is_ver ds1) eqn:EV1.
  - subst q. rewrite (finish_late x r s1 (proj1 (proj2 HX))). destruct (usends (ctor_sends (major (u_ubx s1))) s1) as [[s' e']|k] eqn:EU; cbn [bind] in *; [|discriminate].
    assert (res = Some s') by congruence. subst res. destruct (setup_sent s1 (major (u_ubx s1))) as (o & e2 & EU2 & _); [apply U1|]. assert (s' = uw_out s1 o) by congruence. subst s'.
    split; [destruct I1 as (J1 & J2 & J3 & J4); split; [exact J1|]; split; [exact J2|]; split; [exact J3|exact J4]|]. exists x, r. split; [exact (creeps_out s1 o p x r HX)|reflexivity].
  - destruct HQ as [EQ HU2]. rewrite (ask_late junk (rtcm_init ru) s1 n1 p x r rx2 I1 HX), EQ.
    destruct (get_version s1 (ditems_bytes ds2)) as [[[s2 e2] ok2]|k] eqn:E2; cbn [bind] in EC; [|discriminate].
    destruct (ask_shows junk (rtcm_init ru) s1 n1 ds2 s2 e2 ok2 HJ U1 I1 S1 V1 SI1 HN2 (K1 ds2 Hok) Hb2) as (n2 & t2 & R1 & _ & _ & _ & -> & V2 & U2 & I2 & S2 & SI2 & _ & _ & _); [|exact E2|].
    { intros m Hm. apply HC. apply in_or_app. right. change (inbuf (u_ubx (ublox_blank u ru out0 1))) with (inbuf (ubx_init u)) in M1. rewrite <- M1. exact Hm. }
    destruct (RD _ _ _ _ _ E2 I1) as (Sb & eb & _ & HIb & Pb & Rb).
    pose proof (last_after T_NONE [l0] ds2 Sb s2 eb HN2 Hl HIb ltac:(rewrite Pb; exact (K1 ds2 Hok)) Hb2 Rb) as L2. rewrite Pb, L1, <- last_app in L2.
    destruct (cut_any T_NONE [l0] s2 q I2 ltac:(rewrite L2; exact HU2)) as (y & ry & HY).
    rewrite (ask_cut _ _ _ _ _ _ _ _ _ _ q y ry R1 I2 HY), R1. cbn [bind]. destruct (existsb is_ver ds2) eqn:EV2.
    + rewrite (finish_late y ry s2 (proj1 (proj2 HY))). destruct (usends (ctor_sends (major (u_ubx s2))) s2) as [[s' e']|k] eqn:EU; cbn [bind] in *; [|discriminate].
      assert (res = Some s') by congruence. subst res. destruct (setup_sent s2 (major (u_ubx s2))) as (o & e3 & EU2 & _); [apply U2|]. assert (s' = uw_out s2 o) by congruence. subst s'.
      split; [destruct I2 as (J1 & J2 & J3 & J4); split; [exact J1|]; split; [exact J2|]; split; [exact J3|exact J4]|]. exists y, ry. split; [exact (creeps_out s2 o q y ry HY)|reflexivity].
    + assert (res = None) by congruence. subst res. reflexivity.
Qed.
(* the text set aside, `connecting` is `ctor` *)
Lemma ask_is_get junk dbg s n bs s1 n1 e1 ok t1 : ask_port junk dbg s n bs = Ok (s1, n1, e1, ok, t1) -> get_version s bs = Ok (s1, e1, ok).
Proof.
  unfold ask_port, get_version. intros E. apply bind_inv in E. destruct E as ([sa ea] & EU & E). rewrite EU. cbn [bind]. apply bind_inv in E. destruct E as (((((sb, nb), db), eb), tb) & ES & E).
  rewrite (station_reads _ _ _ _ _ _ _ _ _ _ _ _ _ _ ES). cbn [bind]. congruence.
Qed.
Lemma connecting_is_ctor junk u ru out0 n rx1 rx2 res n' e t : connecting junk u ru out0 n rx1 rx2 = Ok (res, n', e, t) -> ctor u ru out0 1 rx1 rx2 = Ok (res, e).
Proof.
  unfold connecting, ctor. cbv zeta. intros E. apply bind_inv in E. destruct E as (((((s1, n1), e1), k1), t1) & E1 & E). rewrite (ask_is_get _ _ _ _ _ _ _ _ _ _ E1). cbn [bind]. destruct k1.
  - apply bind_inv in E. destruct E as ([s' e'] & EU & E). rewrite EU. cbn [bind]. congruence.
  - apply bind_inv in E. destruct E as (((((s2, n2), e2), k2), t2) & E2 & E). rewrite (ask_is_get _ _ _ _ _ _ _ _ _ _ E2). cbn [bind]. destruct k2; [|congruence].
    apply bind_inv in E. destruct E as ([s' e'] & EU & E). rewrite EU. cbn [bind]. congruence.
Qed.

(* ---------------------------------------------------------------- proofs: the handler registered in the middle of a frame *)
Lemma before_late junk h l s n d q x r bs : idle_as T_NONE [l0] s -> creeps s q x r ->
  station junk h 1 2 false (ublox_register (late s x r) (build l)) n d (map Port bs) = station junk h 1 2 false (ublox_register s (build l)) n d (map Port (q ++ bs)).
Proof.
  intros (I1 & I2 & I3 & I4) HC. destruct (creeps_self T_NONE [l0; l] s q x r (ublox_register s (build l)) HC) as [A B]; [|reflexivity|reflexivity|].
  { split; [exact I1|]. split; [unfold ublox_register; cbn [uw_ls u_ls]; rewrite I2; reflexivity|]. split; [exact I3|exact I4]. }
  rewrite map_app, station_app, (ports_silent junk h 1 2 false q _ n d _ A B). cbn [bind app append].
  change (late (ublox_register s (build l)) x r) with (ublox_register (late s x r) (build l)).
  destruct (station junk h 1 2 false (ublox_register (late s x r) (build l)) n d (map Port bs)) as [[[[[s2 n2] d2] e2] t2]|k]; reflexivity.
Qed.
Lemma base_rest_late w s n q x r : idle_as T_NONE [l0] s -> creeps s q x r -> base_rest w (late s x r) n = base_rest (early q w) s n.
Proof.
  intros HI HC. unfold base_rest. cbn [early si_junk si_dbg si_udp si_before si_after]. change (subscribe (subscribe (mkML 2 []) 1 7) 1 59) with (build (mkListener 2 [(0x01, 0x3B); (0x01, 0x07)])).
  rewrite (before_late _ _ _ s n _ q x r _ HI HC). reflexivity.
Qed.
Lemma rover_rest_late w s n q x r : idle_as T_NONE [l0] s -> creeps s q x r -> rover_rest w (late s x r) n = rover_rest (early q w) s n.
Proof.
  intros HI HC. unfold rover_rest. cbn [early si_junk si_dbg si_udp si_before si_after]. change (subscribe (mkML 2 []) 1 60) with (build (mkListener 2 [(0x01, 0x3C)])).
  rewrite (before_late _ _ _ s n _ q x r _ HI HC). reflexivity.
Qed.
Lemma main_cut rest w u ru out0 st ds1 ds2 rx1 rx2 q res ev : (forall s n x r, idle_as T_NONE [l0] s -> creeps s q x r -> rest w (late s x r) n = rest (early q w) s n) ->
  junk_ok (si_junk w) -> uninit_ok u -> runinit_ok ru -> Zlen out0 = 2048 -> (forall sv, 1 <= sv <= 255 -> st (sv - 1) = repeat 0 380) ->
  no_rtcm (ds1 ++ ds2) -> ditems_ok 0 (ds1 ++ ds2) -> bytes_ok (ditems_bytes (ds1 ++ ds2)) ->
  (forall m, In m (dsfr_msgs (inbuf (ubx_init u)) (ds1 ++ ds2)) -> calm (NMsg m)) ->
  ctor u ru out0 1 (ditems_bytes ds1) (ditems_bytes ds2) = Ok (res, ev) -> cut_queries ds1 ds2 rx1 rx2 q ->
  station_main rest w u ru out0 (nav_init st) rx1 rx2 = station_main rest (early q w) u ru out0 (nav_init st) (ditems_bytes ds1) (ditems_bytes ds2).
Proof.
  intros HR HJ Hu Hru Hz Hst HN Hok Hb HC EC HQ. pose proof (connecting_cut (si_junk w) u ru out0 st ds1 ds2 rx1 rx2 q res ev HJ Hu Hru Hz Hst HN Hok Hb HC EC HQ) as H.
  destruct (connecting_shows (si_junk w) u ru out0 st ds1 ds2 res ev HJ Hu Hru Hz Hst HN Hok Hb HC EC) as (n & t & sx & Q1 & _).
  unfold station_main. change (si_junk (early q w)) with (si_junk w). destruct res as [s|].
  - destruct H as (HI & x & r & HX & ->). rewrite Q1. cbn [bind]. rewrite (HR s n x r HI HX). reflexivity.
  - rewrite H, Q1. reflexivity.
Qed.
(* every way of cutting the bytes is covered *)
Lemma cut_anywhere : forall ds p rx rest, no_rtcm ds -> ditems_ok p ds -> bytes_ok (ditems_bytes ds) -> rx ++ rest = ditems_bytes ds ->
  exists a b t, ds = a ++ b /\ rx = ditems_bytes a ++ t /\ t ++ rest = ditems_bytes b /\ unfinished T_NONE (ditems_last p a) t.
Proof.
  induction ds as [|d ds IH]; intros p rx rest HN Hok Hb E.
  - cbn [ditems_bytes flat_map] in E. apply app_eq_nil in E. destruct E as [-> ->]. exists [], [], []. split; [reflexivity|]. split; [reflexivity|]. split; [reflexivity|left; reflexivity].
  - change (ditems_bytes (d :: ds)) with (ditem_bytes d ++ ditems_bytes ds) in *. apply bytes_ok_app in Hb. destruct Hb as [Hb1 Hb2]. destruct Hok as [Hd Hds].
    assert (HN' : no_rtcm ds) by (intros it Hin; apply (HN it); right; exact Hin).
    assert (HNd : no_rtcm [d]) by (intros it [Ed|[]]; exact (HN it (or_introl Ed))).
    destruct (Nat.leb_spec (length (ditem_bytes d)) (length rx)) as [HL|HL].
    + assert (EX : rx = ditem_bytes d ++ skipn (length (ditem_bytes d)) rx /\ skipn (length (ditem_bytes d)) rx ++ rest = ditems_bytes ds).
      { pose proof (f_equal (firstn (length (ditem_bytes d))) E) as E1. rewrite !firstn_app, firstn_all, Nat.sub_diag, app_nil_r in E1.
        replace (length (ditem_bytes d) - length rx)%nat with 0%nat in E1 by lia. rewrite firstn_O, app_nil_r in E1.
        assert (EE : rx = ditem_bytes d ++ skipn (length (ditem_bytes d)) rx) by (rewrite <- E1 at 1; symmetry; apply firstn_skipn). split; [exact EE|].
        rewrite EE, <- app_assoc in E. apply app_inv_head in E. exact E. }
      destruct EX as [EX1 EX2]. destruct (IH (ditem_last d) _ rest HN' Hds Hb2 EX2) as (a & b & t & -> & R1 & R2 & R3).
      exists (d :: a), b, t. split; [reflexivity|]. split; [rewrite EX1, R1; change (ditems_bytes (d :: a)) with (ditem_bytes d ++ ditems_bytes a); apply app_assoc|]. split; [exact R2|exact R3].
    + exists [], (d :: ds), rx. split; [reflexivity|]. split; [reflexivity|]. split; [exact E|]. right. exists d, (skipn (length rx) (ditem_bytes d)). split; [right; exact HNd|]. split; [exact Hd|]. split; [exact Hb1|].
      pose proof (f_equal (firstn (length rx)) E) as E1. rewrite !firstn_app, firstn_all, Nat.sub_diag, app_nil_r in E1. replace (length rx - length (ditem_bytes d))%nat with 0%nat in E1 by lia. rewrite !firstn_O, !app_nil_r in E1.
      split.
      * intros H. apply (f_equal (@length Z)) in H. rewrite skipn_length in H. cbn [length] in H. lia.
      * rewrite E1 at 1. symmetry. apply firstn_skipn.
Qed.
