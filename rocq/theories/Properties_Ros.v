(* C62-C65: the ROS node. *)
From Coq Require Import QArith Qround.
From Verif Require Import Base UbxSpec UbxModel UbxTx RtcmModel UbloxModel BitModel UtcModel UtcSpec Dbl UtcDouble NavModel NavSpec NavDev RosModel RosSpec RosProofs RosThm
  UbxStream UbxMain UbxEx Properties_Rtcm Properties_Ublox Properties_NavGps Properties_NavDev.
Local Open Scope Z_scope.

(* ---- C62: the node publishes nothing *)
(* whatever the receiver sends, in every mode: the node never registers itself (rid) with the UBLOX object, whose only
   listener is its own parser (nid), and registers no ephemeris callback; its state does not change either *)
Theorem C62_node_publishes_nothing u ru out0 nid rid rx1 rx2 rows0 t0 rtk_type iface nd ev junk bytes nd' pubs :
  rid <> nid ->
  node_start u ru out0 nid rx1 rx2 rows0 t0 rtk_type iface = Ok (Some nd, ev) ->
  node_read junk nid rid nd bytes = Ok (nd', pubs) -> pubs = [] /\ nd_ros nd' = nd_ros nd.
Proof. exact (fun Hn Hs Hr => let '(conj A (conj _ B)) := silent_read junk nid rid Hn bytes nd nd' pubs (start_silent _ _ _ _ _ _ _ _ _ _ _ _ Hs) Hr in conj A B). Qed.
Print Assumptions C62_node_publishes_nothing.
(* a started node fed a PVT frame; the same frame given to the callback would be published; and a node whose ROS object is
   registered does publish it *)
Definition ros0 : ros := mkRos 11 22 33 ecef_new.
Definition node_of (r : outcome (option node * list event)) : node :=
  match r with Ok (Some n, _) => n | _ => mkNode Properties_Ublox.d0 nav1 ros0 end.
Definition nd0 : node := node_of (node_start u0 ru0 out00 77 mv_frame [] st0 ros0 0 0).
Definition pvt0 : pvt := mkPvt 345600000 2019 7 20 22 0 18 7 25 (-123456) 3 1 2 17 (-1116583000) 402338000 1387500 1370000 900 1400
  (-12) 30 (-5) 32 (-4500000) 150 900000 120 (-1).
Definition pvt0_bytes : list Z := pvt_bytes pvt0 0 0 0 0 0 0 ++ le16 0 ++ le16 0.
Definition npub (r : outcome (node * list pub)) : option nat := match r with Ok (_, p) => Some (List.length p) | UB _ => None end.
Example C62_case :
  npub (node_read junk0 77 88 nd0 (ubx_frame 1 7 pvt0_bytes)) = Some 0%nat /\
  (match ros_got_ubx ros0 1 7 pvt0_bytes with Ok (_, p) => List.length p | UB _ => 0%nat end) = 1%nat /\
  npub (node_read junk0 77 88 (mkNode (ublox_register (nd_u nd0) (build (mkListener 88 [(1, 7)]))) (nd_nav nd0) ros0) (ubx_frame 1 7 pvt0_bytes)) = Some 1%nat.
Proof. split; [vm_compute; reflexivity|]. split; vm_compute; reflexivity. Qed.

(* ---- C63: what the callbacks publish (every message of each kind; nearly: relative error at most 2^-50) *)
Theorem C63_pvt_published x r0 r1 r2 r3 r4 r5 rest s : pvt_ok x ->
  exists i d s' more, ros_got_ubx s 0x01 0x07 (pvt_bytes x r0 r1 r2 r3 r4 r5 ++ rest) = Ok (s', PubPvt i d :: more) /\
    i Vyear = v_year x /\ i Vmonth = v_month x /\ i Vday = v_day x /\ i Vhour = v_hour x /\ i Vmin = v_min x /\ i Vsec = v_sec x /\
    i Vnano = v_nano x /\ i VtAcc = v_tacc x /\ i Vvalid = v_valid x /\ i VfixType = v_fix x /\ i Vflags = v_flags x /\
    i Vflags2 = v_flags2 x /\ i VnumSV = v_numsv x /\
    nearly (d Vlla0) (deci (v_lat x) 7) /\ nearly (d Vlla1) (deci (v_lon x) 7) /\ nearly (d Vlla2) (deci (v_height x) 3) /\
    nearly (d VhMSL) (deci (v_hmsl x) 3) /\ nearly (d VhAcc) (deci (v_hacc x) 3) /\ nearly (d VvAcc) (deci (v_vacc x) 3) /\
    nearly (d Vvel0) (deci (v_veln x) 3) /\ nearly (d Vvel1) (deci (v_vele x) 3) /\ nearly (d Vvel2) (deci (v_veld x) 3) /\
    nearly (d VgSpeed) (deci (v_gspeed x) 3) /\ nearly (d VheadMot) (deci (v_headmot x) 5) /\ nearly (d VsAcc) (deci (v_sacc x) 3) /\
    nearly (d VheadAcc) (deci (v_headacc x) 5) /\ nearly (d VpDOP) (deci (v_pdop x) 2) /\ nearly (d VheadVeh) (deci (v_headveh x) 5).
Proof. exact (pvt_published x r0 r1 r2 r3 r4 r5 rest s). Qed.
Print Assumptions C63_pvt_published.
(* the accuracy of the heading is published as a whole number of radians *)
Theorem C63_relpos_published x ver r0 r1 r2 r3 r4 q1 q2 q3 q4 rest s : relpos_ok x ->
  exists i d, ros_got_ubx s 0x01 0x3C (relpos_bytes x ver r0 r1 r2 r3 r4 q1 q2 q3 q4 ++ rest) = Ok (s, [PubRel i d]) /\
    i RrefStationId = p_ref x /\ i Rflags = p_flags x /\
    nearly (d Rned0) (deci (p_n x) 2) /\ nearly (d Rned1) (deci (p_e x) 2) /\ nearly (d Rned2) (deci (p_d x) 2) /\
    nearly (d Rlen) (deci (p_len x) 2) /\ nearly (d Rheading) (radians (p_heading x) 5) /\
    nearly (d Rhp0) (deci (p_hpn x) 4) /\ nearly (d Rhp1) (deci (p_hpe x) 4) /\ nearly (d Rhp2) (deci (p_hpd x) 4) /\
    nearly (d Rhplen) (deci (p_hplen x) 4) /\ nearly (d Racc0) (deci (p_accn x) 4) /\ nearly (d Racc1) (deci (p_acce x) 4) /\
    nearly (d Racc2) (deci (p_accd x) 4) /\ nearly (d Racclen) (deci (p_acclen x) 4) /\
    i RaccHeading = Qfloor (radians (p_accheading x) 5) /\ 0 <= i RaccHeading <= 749.
Proof. exact (relpos_published x ver r0 r1 r2 r3 r4 q1 q2 q3 q4 rest s). Qed.
Print Assumptions C63_relpos_published.
(* below 57.29578 degrees it is published as zero *)
Theorem C63_heading_accuracy_zero acc : 0 <= acc <= 5729577 -> Qfloor (radians acc 5) = 0.
Proof. exact (no_heading_below acc). Qed.
Print Assumptions C63_heading_accuracy_zero.
(* survey-in: integers copied, the mean position published as if its coordinates were unsigned *)
Theorem C63_survey_published x ver r0 r1 r2 q rest s : svin_ok x ->
  exists i d, ros_got_ubx s 0x01 0x3B (svin_bytes x ver r0 r1 r2 q ++ rest) = Ok (s, [PubSvin i d]) /\
    i Sdur = s_dur x /\ i SmeanAcc = s_acc x /\ i Sobs = s_obs x /\ i Svalid = s_valid x /\ i Sactive = s_active x /\
    nearly (d Smean0) (deci (s_x x mod 2 ^ 32) 2) /\ nearly (d Smean1) (deci (s_y x mod 2 ^ 32) 2) /\ nearly (d Smean2) (deci (s_z x mod 2 ^ 32) 2) /\
    nearly (d Shp0) (deci (s_hx x mod 256) 3) /\ nearly (d Shp1) (deci (s_hy x mod 256) 3) /\ nearly (d Shp2) (deci (s_hz x mod 256) 3).
Proof. exact (svin_published x ver r0 r1 r2 q rest s). Qed.
Print Assumptions C63_survey_published.
(* so a negative coordinate is published as more than 21474 km *)
Theorem C63_negative_coordinate_refuted x d : - 2 ^ 31 <= x < 0 -> nearly d (deci (x mod 2 ^ 32) 2) -> (inject_Z 21474836 < dQ d)%Q.
Proof. exact (fun H => svin_negative x H d). Qed.
Print Assumptions C63_negative_coordinate_refuted.
(* ephemerides: every member of the message is the member of the record; times in 0 .. 2^32 s and normalised exactly *)
Theorem C63_ephemeris_copied e g :
  (exists i d toe toc, ephCB e = [PubEph i d toe toc] /\ (forall f, d f = ed e f) /\
     (forall f, ~ In f [Fiode1; Fiode2; Fiode3; Fgot1; Fgot2; Fgot3] -> i f = Some (ei e f)) /\
     (0 <= sec (e_toe e) < 2 ^ 32 -> normal (e_toe e) -> toe = (sec (e_toe e), nsec (e_toe e))) /\
     (0 <= sec (e_toc e) < 2 ^ 32 -> normal (e_toc e) -> toc = (sec (e_toc e), nsec (e_toc e)))) /\
  (exists i d toe tof, gephCB g = [PubGeph i d toe tof] /\ (forall f, d f = gd g f) /\
     (forall f, ~ In f [Ggot1; Ggot2; Ggot3; Ggot4; Gmark] -> i f = Some (gi g f)) /\
     (0 <= sec (g_toe g) < 2 ^ 32 -> normal (g_toe g) -> toe = (sec (g_toe g), nsec (g_toe g))) /\
     (0 <= sec (g_tof g) < 2 ^ 32 -> normal (g_tof g) -> tof = (sec (g_tof g), nsec (g_tof g)))).
Proof. exact (eph_copied e g). Qed.
Print Assumptions C63_ephemeris_copied.
Definition rel0 : relpos := mkRelpos 4095 345600000 (-1234) 567 89 1400 (-9000000) (-12) 99 (-99) 5 140 150 200 140 5729578 0x13F.
Definition sv0 : svin := mkSvin 345600000 119 (-180000000) (-450000000) 410000000 (-12) 4 99 24000 120 0 1.
Definition heading_acc (r : outcome (ros * list pub)) : option Z := match r with Ok (_, [PubRel i _]) => Some (i RaccHeading) | _ => None end.
Example C63_case : pvt_ok pvt0 /\ relpos_ok rel0 /\ svin_ok sv0 /\
  heading_acc (ros_got_ubx ros0 1 0x3C (relpos_bytes rel0 1 0 0 0 0 0 0 0 0 0)) = Some 1.
Proof. unfold pvt_ok, relpos_ok, svin_ok, l_ok, sl_ok, sb_ok, w_ok. repeat split; vm_compute; congruence. Qed.

(* ---- C64: the combined ECEF message, over every history of messages *)
(* the exact sequence of publications: after each message `ecef_count` copies of the message `ecef_shown` by the history so far *)
Theorem C64_ecef_publications t0 h s p : r_ecef t0 = ecef_new -> ros_run t0 h = Ok (s, p) -> ecefs p = all_ecefs t0 [] h.
Proof. exact (fun H0 H => proj2 (ros_run_inv t0 h [] t0 s p (ros_inv0 t0 H0) H)). Qed.
Print Assumptions C64_ecef_publications.
(* fix is never set; two velocity components are always zero *)
Theorem C64_fix_and_velocity_lost t0 h s p e : r_ecef t0 = ecef_new -> ros_run t0 h = Ok (s, p) -> In (PubEcef e) p ->
  em_fix e = 0 /\ exists v, em_vel e = (v, RosThm.dz, RosThm.dz).
Proof. exact (ecef_lost t0 h s p e). Qed.
Print Assumptions C64_fix_and_velocity_lost.
(* positions and the one velocity component (Z, in the place of X) are published in centimetres *)
Theorem C64_centimetres h itow x y z acc rest : sl_ok x -> sl_ok y -> sl_ok z ->
  (exists a b c, em_pos (ecef_shown (h ++ [RUbx 0x01 0x01 (ecef_bytes itow x y z acc ++ rest)])) = (a, b, c) /\
     exactly a (inject_Z x) /\ exactly b (inject_Z y) /\ exactly c (inject_Z z)) /\
  (exists a b c, em_vel (ecef_shown (h ++ [RUbx 0x01 0x11 (ecef_bytes itow x y z acc ++ rest)])) = (a, b, c) /\
     exactly a (inject_Z z) /\ exactly b 0%Q /\ exactly c 0%Q).
Proof. exact (ecef_units h itow x y z acc rest). Qed.
Print Assumptions C64_centimetres.
(* the third time of week compared is never assigned: messages of another time of week never complete a triple *)
Theorem C64_never_synchronised t0 h s p c i m : r_ecef t0 = ecef_new -> ros_run t0 h = Ok (s, p) ->
  r_pvt s = r_pvt t0 /\
  (u32_at m 0 <> r_pvt t0 ->
    (c = 0x01 /\ i = 0x07 -> ecef_count t0 h (RUbx c i m) = 0%nat) /\ (c = 0x01 /\ i = 0x01 -> ecef_count t0 h (RUbx c i m) = 1%nat)).
Proof. exact (fun H0 H => conj (proj1 (proj2 (proj1 (ros_run_inv t0 h [] t0 s p (ros_inv0 t0 H0) H)))) (fun Hm => count_other t0 h c i m Hm)). Qed.
Print Assumptions C64_never_synchronised.
Definition rpos (t x y z : Z) := RUbx 1 1 (ecef_bytes t x y z 50).
Definition rvel (t x y z : Z) := RUbx 1 0x11 (ecef_bytes t x y z 50).
Definition ecef_view (r : outcome (ros * list pub)) : option (list (Z * (Z * Z * Z) * (Z * Z * Z))) :=
  match r with Ok (_, p) => Some (map (fun e => let '(a, b, c) := em_pos e in let '(u, v, w) := em_vel e in
     (em_fix e, (dtrunc a, dtrunc b, dtrunc c), (dtrunc u, dtrunc v, dtrunc w))) (ecefs p)) | UB _ => None end.
(* (33 is the unassigned time of week of ros0) *)
Example C64_case : ecef_view (ros_run ros0 [rpos 30 (-1000) 2000 3000; rvel 30 11 12 13; RUbx 1 7 pvt0_bytes; rvel 33 14 15 16; rpos 33 1 2 3]) =
  Some [(0, (-1000, 2000, 3000), (0, 0, 0)); (0, (-1000, 2000, 3000), (13, 0, 0)); (0, (-1000, 2000, 3000), (16, 0, 0));
        (0, (1, 2, 3), (16, 0, 0)); (0, (1, 2, 3), (16, 0, 0))].
Proof. vm_compute. reflexivity. Qed.

(* ---- C65: no observation is ever published *)
Theorem C65_no_observation_published s m s' p : ros_got_ubx s 0x02 0x15 m = Ok (s', p) ->
  s' = s /\ (exists t, p = [PubObs t 0]) /\ i8_at m 11 <= 0.
Proof. exact (obs_never s m s' p). Qed.
Print Assumptions C65_no_observation_published.
(* the eight bytes of the receiver time are an IEEE 754 double: sign, exponent, fraction; no value for exponent 2047 *)
Theorem C65_receiver_time s ex fr : s = 0 \/ s = 1 -> 0 <= ex < 2048 -> 0 <= fr < 2 ^ 52 ->
  match f64_of_bits (s * 2 ^ 63 + ex * 2 ^ 52 + fr) with
  | None => ex = 2047
  | Some d => ex <> 2047 /\ (dQ d == (if s =? 0 then 1 else -1) * (if ex =? 0 then inject_Z fr * Qpower (2 # 1) (-1074)
                               else (1 + inject_Z fr / inject_Z (2 ^ 52)) * Qpower (2 # 1) (ex - 1023)))%Q
  end.
Proof. exact (f64_value s ex fr). Qed.
Print Assumptions C65_receiver_time.
(* an epoch of num measurements at a time of week of d seconds (at most a week): x is d in whole milliseconds; without measurements one
   empty message with the time stamp of C33 (milliseconds added as seconds), with any a write outside the vector *)
Theorem C65_every_epoch s tow week leap num rest d : length tow = 8%nat -> 0 <= week <= 3549 -> 0 <= num <= 127 ->
  f64_of_bits (of_le tow) = Some d -> (0 <= dQ d)%Q -> (dQ d <= 604800 # 1)%Q ->
  exists x t, (inject_Z x <= 1000 * dQ d + (1 # 10000000))%Q /\ (1000 * dQ d < inject_Z x + 1 + (1 # 10000000))%Q /\
    nanos t = (315964818 + week * 604800 + x / 1000 + x mod 1000) * 1000000000 /\
    sec t = 315964818 + week * 604800 + x / 1000 + (if 2 <=? x mod 1000 then 1 else 0) /\
    ros_got_ubx s 0x02 0x15 (rawx_bytes tow week leap num ++ rest) =
      if num =? 0 then Ok (s, [PubObs (sec t mod 2 ^ 32, nsec t mod 2 ^ 32) 0]) else UB UB_oob_write.
Proof. exact (obs_epoch s tow week leap num rest d). Qed.
Print Assumptions C65_every_epoch.
(* a time of week that is no number, or too large once in milliseconds: the conversion to int is undefined *)
Theorem C65_time_undefined s tow week leap num rest : length tow = 8%nat ->
  (f64_of_bits (of_le tow) = None \/ exists d, f64_of_bits (of_le tow) = Some d /\ ~ (- 2 ^ 31 <= dtrunc (dmul d D_1E3) < 2 ^ 31)) ->
  ros_got_ubx s 0x02 0x15 (rawx_bytes tow week leap num ++ rest) = UB UB_convert.
Proof. exact (obs_no_time s tow week leap num rest). Qed.
Print Assumptions C65_time_undefined.
(* every message with a measurement writes outside the vector (if its time can be converted at all) *)
Theorem C65_measurements_undefined s tow week leap num rest d : length tow = 8%nat -> w_ok week -> 1 <= num <= 127 ->
  f64_of_bits (of_le tow) = Some d -> (exists t, (let* x := d2i32 (dtrunc (dmul d D_1E3)) in fromGPS week x) = Ok t) ->
  ros_got_ubx s 0x02 0x15 (rawx_bytes tow week leap num ++ rest) = UB UB_oob_write.
Proof. exact (obs_write s tow week leap num rest d). Qed.
Print Assumptions C65_measurements_undefined.
(* the signal label is one less than the message constant, for every signal; -1 for every other pair *)
Theorem C65_signal_label_shifted : (forall x, sigId (ubx_gnss x) (ubx_sig x) = msg_label x - 1) /\
  (forall g s, (forall x, ~ (ubx_gnss x = g /\ ubx_sig x = s)) -> sigId g s = -1).
Proof. exact (conj sig_shift sig_none). Qed.
Print Assumptions C65_signal_label_shifted.
(* so the frequency selected is that of the signal listed before it *)
Theorem C65_frequency_of_another_signal :
  map (fun x => obs_freq (sigId (ubx_gnss x) (ubx_sig x))) [GPS_L1CA; GPS_L2CL; GPS_L2CM; GAL_E1C; GAL_E1B; QZS_L1CA; GLO_L1; GLO_L2] =
    [FqZero; FqGpsL1; FqGpsL2; FqGpsL2; FqGpsL1; FqZero; FqGpsL1; FqGlo1] /\
  map (fun x => obs_freq (msg_label x)) [GPS_L1CA; GPS_L2CL; GPS_L2CM; GAL_E1C; GAL_E1B; QZS_L1CA; GLO_L1; GLO_L2] =
    [FqGpsL1; FqGpsL2; FqGpsL2; FqGpsL1; FqGpsL1; FqGpsL1; FqGlo1; FqGlo2].
Proof. exact (conj eq_refl eq_refl). Qed.
Print Assumptions C65_frequency_of_another_signal.
(* 345600.2 s, week 2062; the milliseconds become seconds times 10^9 (C33), so even the time stamp is off *)
Definition tow0 : list Z := [0xcd; 0xcc; 0xcc; 0xcc; 0x0; 0x18; 0x15; 0x41].
Example C65_time_case : (exists d, f64_of_bits (of_le tow0) = Some d /\ (0 <= dQ d)%Q /\ (dQ d <= 604800 # 1)%Q) /\
  f64_of_bits (of_le [0; 0; 0; 0; 0; 0; 0xF0; 0x7F]) = None.
Proof. split; [eexists; split; [vm_compute; reflexivity|split; vm_compute; congruence]|vm_compute; reflexivity]. Qed.
Example C65_case : (exists d, f64_of_bits (of_le tow0) = Some d /\ exists t, (let* x := d2i32 (dtrunc (dmul d D_1E3)) in fromGPS 2062 x) = Ok t) /\
  (match ros_got_ubx ros0 2 0x15 (rawx_bytes tow0 2062 18 0) with Ok (_, [PubObs (s, n) 0]) => Some (s, n) | _ => None end) = Some (1563408019, 1431504384) /\
  ros_got_ubx ros0 2 0x15 (rawx_bytes tow0 2062 18 1) = UB UB_oob_write.
Proof. split; [eexists; split; [vm_compute; reflexivity|eexists; vm_compute; reflexivity]|]. split; vm_compute; reflexivity. Qed.
