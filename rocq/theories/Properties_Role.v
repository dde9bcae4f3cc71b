(* C90: which role the ROS node takes, for every value of its parameter rtk_type (ublox.h:43-49: ROVER = 2, BASE = 3, RTK = 2).
   node_start: RosModel.v.  usb_rtcm_rates, stationary_writes: what config_rover and config_base send (UbloxCfg.v). *)
From Verif Require Import Base UbxSpec UbxModel UbxProofs UbxStream UbxMain UbxMore UbxHist UbxApi UbxEx
  UbxTx UbxTxSpec UbxTxApi CrcSpec CrcErr RtcmModel RtcmSpec RtcmProofs RtcmApi
  UbloxModel UbloxSpec UbloxProofs UbloxApi UbloxThm UbloxCfg NavModel NavDev RosModel RosProofs.
From Verif Require Import Properties_Rtcm Properties_Ublox Properties_NavGps Properties_Ros.

(* once the receiver has answered the version poll the node starts, whatever rtk_type is.  2: a rover, 3: a stationary base; any other value,
   also those with bit 1 set, for which the correction link is opened (6, 7, -2, ...): the receiver is sent nothing, and no role is taken *)
Theorem C90_role u ru out0 nid rx1 rx2 rows0 t0 s0 ev0 : uninit_ok u -> runinit_ok ru -> Zlen out0 = 2048 -> bytes_ok rx1 -> bytes_ok rx2 ->
  ctor u ru out0 nid rx1 rx2 = Ok (Some s0, ev0) ->
  forall rtk_type iface, exists nd ev, node_start u ru out0 nid rx1 rx2 rows0 t0 rtk_type iface = Ok (Some nd, ev) /\
    (rtk_type = 2 -> u_type (nd_u nd) = T_ROVER /\ ser_of ev = ser_of ev0 ++ usb_rtcm_rates 0 /\ UReach u ru 0 (nd_u nd)) /\
    (rtk_type = 3 -> u_type (nd_u nd) = T_BASE /\ u_rtk (nd_u nd) = iface /\ ser_of ev = ser_of ev0 ++ usb_rtcm_rates 1 ++ stationary_writes (u_out s0) /\ UReach u ru 1 (nd_u nd)) /\
    (rtk_type <> 2 -> rtk_type <> 3 -> u_type (nd_u nd) = T_NONE /\ ev = ev0 /\ UReach u ru 0 (nd_u nd)).
Proof.
  intros Hu Hru Ho H1 H2 E rt i. pose proof (U_new u ru out0 nid rx1 rx2 s0 ev0 Ho H1 H2 E) as HR.
  destruct (C47_modes u ru 0 s0 i true Hu Hru HR) as [(sb & eb & EB & TB & KB & RB & _) (sr & er & ER & TR & KR & RR & _)].
  destruct (C58_config_base_sends u ru 0 s0 i true Hu Hru HR) as (sb' & eb' & EB' & _ & _ & WB).
  destruct (C58_config_rover_sends u ru 0 s0 i Hu Hru HR) as (sr' & er' & ER' & _ & _ & WR).
  assert (eb' = eb) by congruence. assert (er' = er) by congruence. subst eb' er'.
  unfold node_start. rewrite E. cbn [bind]. unfold T_ROVER, T_BASE in *.
  destruct (Z.eqb_spec rt 2) as [->|N2].
  { change (Z.land 2 2 =? 0) with false. cbv iota. rewrite ER. cbn [bind]. eexists _, _. split; [reflexivity|]. split; [|split; intros; lia].
    intros _. cbn [nd_u]. rewrite ser_of_app, WR. auto. }
  destruct (Z.eqb_spec rt 3) as [->|N3].
  { change (Z.land 3 2 =? 0) with false. cbv iota. rewrite EB. cbn [bind]. eexists _, _. split; [reflexivity|]. split; [intros; lia|]. split; [|intros; lia].
    intros _. cbn [nd_u]. rewrite ser_of_app, WB. auto. }
  exists (mkNode s0 (nav_init rows0) t0), ev0. split; [|split; [intros; lia|]; split; [intros; lia|]].
  - destruct (Z.land rt 2 =? 0); cbn [bind]; rewrite app_nil_r; reflexivity.
  - intros _ _. cbn [nd_u]. split; [|split; [reflexivity|exact HR]]. exact (proj2 (proj2 (ctor_inv u ru out0 nid rx1 rx2 s0 ev0 Hu Hru Ho H1 H2 E))).
Qed.
Print Assumptions C90_role.
(* so correction frames leave the node exactly if rtk_type is 3, through the link it opened, each once, and only frames with a valid check sum *)
Theorem C90_corrections_leave u ru out0 nid rx1 rx2 rows0 t0 rtk_type iface nd ev bs s' e : uninit_ok u -> runinit_ok ru -> Zlen out0 = 2048 -> bytes_ok rx1 -> bytes_ok rx2 ->
  node_start u ru out0 nid rx1 rx2 rows0 t0 rtk_type iface = Ok (Some nd, ev) -> bytes_ok bs -> ublox_read (nd_u nd) bs = Ok (s', e) ->
  ser_of e = [] /\ (rtk_type <> 3 -> rtk_of e = []) /\
  (rtk_type = 3 -> (exists fs, Forall good_rtcm fs /\ rtk_of e = map (fun f => (iface, f)) fs) /\
    forall f, good_rtcm f -> bytes_ok f -> parsing_message (u_ubx s') = false -> rtcm_parsing (u_rtcm s') = false ->
      exists s'', ublox_read s' f = Ok (s'', [EvRtk iface f])).
Proof.
  intros Hu Hru Ho H1 H2 HS Hb HD.
  assert (HC : exists s0 ev0, ctor u ru out0 nid rx1 rx2 = Ok (Some s0, ev0)).
  { unfold node_start in HS. destruct (ctor u ru out0 nid rx1 rx2) as [[[s0|] e0]|k]; cbn [bind] in HS; [eauto|discriminate..]. }
  destruct HC as (s0 & ev0 & EC).
  destruct (C90_role u ru out0 nid rx1 rx2 rows0 t0 s0 ev0 Hu Hru Ho H1 H2 EC rtk_type iface) as (nd0 & e0 & E0 & R2 & R3 & RN).
  assert (nd0 = nd) by congruence. subst nd0.
  assert (HT : exists n, UReach u ru n (nd_u nd) /\ (rtk_type <> 3 -> u_type (nd_u nd) <> T_BASE) /\ (rtk_type = 3 -> n = 1%nat)).
  { destruct (Z.eq_dec rtk_type 2) as [->|N2]; [destruct (R2 eq_refl) as (T & _ & U); exists 0%nat; split; [exact U|]; split; [intros _; rewrite T; discriminate|discriminate]|].
    destruct (Z.eq_dec rtk_type 3) as [->|N3]; [destruct (R3 eq_refl) as (T & _ & _ & U); exists 1%nat; split; [exact U|]; split; [contradiction|reflexivity]|].
    destruct (RN N2 N3) as (T & _ & U). exists 0%nat. split; [exact U|]. split; [intros _; rewrite T; discriminate|contradiction]. }
  destruct HT as (n & HR & HN & HB).
  split; [exact (C47_reading_never_sends u ru n _ bs s' e Hu Hru HR Hb HD)|].
  destruct (C47_forwarding u ru n _ bs s' e Hu Hru HR Hb HD) as (FN & fs & FG & FE).
  split; [intros N3; exact (FN (HN N3))|]. intros E3. specialize (HB E3). subst n. destruct (R3 E3) as (T & K & _ & _). split.
  - exists fs. split; [exact FG|]. rewrite FE, K. clear. induction fs as [|f fs IH]; [reflexivity|]. cbn [flat_map map]. rewrite IH. reflexivity.
  - intros f (m & Hm & Hf) Hbf P1 P2.
    destruct (uinv_read _ _ _ _ (proj1 (ureach_inv u ru 1 _ Hu Hru HR)) Hb HD) as [_ (T' & _ & _ & K' & _)].
    destruct (C47_every_frame_n_times u ru 1 s' f m Hu Hru (U_read u ru 1 _ bs s' e HR Hb HD)) as (s'' & Es); [congruence|exact P1|exact P2|exact Hm|exact Hf|exact Hbf|].
    exists s''. rewrite Es. cbn [repeat]. rewrite K', K. reflexivity.
Qed.
Print Assumptions C90_corrections_leave.
(* parameter 7, as an example: the bit is set, so the UDP socket is opened, and nothing else happens; parameter 3 forwards *)
Example C90_case : let nd k := nd_u (node_of (node_start u0 ru0 out00 77 mv_frame [] st0 ros0 k 5)) in
  Z.land 7 2 <> 0 /\ u_type (nd 7) = T_NONE /\ evs (ublox_read (nd 7) rf0) = Some [] /\ evs (ublox_read (nd 3) rf0) = Some [EvRtk 5 rf0] /\ evs (ublox_read (nd 2) rf0) = Some [].
Proof. split; [discriminate|]. vm_compute. repeat split. Qed.
