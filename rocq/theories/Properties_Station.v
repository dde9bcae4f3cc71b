(* C95: the example programs base and rover, from a connected driver to the end of main.
   base_rest, rover_rest (StationProg.v): the rest of main after the driver is constructed, for a `site` w: what the receiver sends before the
   role is configured, what receiver and correction link bring afterwards, whether the UDP socket opens.  Specification: StationProg.v, `chunk`
   to `rover_display`, and `forwarded`: the text is, frame by frame, the driver's (ConsoleSpec.said), the parser's report (ReportSpec.told) and the
   handler's lines (C75). *)
From Coq Require Import String.
From Verif Require Import Base UbxSpec UbxModel UbxProofs UbxStream UbxMain UbxMore UbxHist UbxApi
  UbxTx UbxTxSpec UbxTxApi CrcSpec RtcmModel RtcmSpec RtcmProofs RtcmApi UbloxModel UbloxSpec UbloxProofs UbloxApi UbloxThm UbloxCfg
  BitModel UtcModel UtcSpec Dbl NavModel NavSpec NavGpsSpec NavStrSpec NavGloSpec NavGalSpec NavObj NavGpsThm NavDev NavSafe DeviceSafe
  NavShow TextSpec ConsoleSpec Console ReportSpec ExShow ExShowThm RosModel RosSpec UtcShow UtcShowThm ExSat ExSatThm SerialProg LogProg StationProg.
From Verif Require Import UbxEx Properties_Rtcm Properties_Ublox Properties_NavGps Properties_NavGal Properties_NavDev Properties_Safe Properties_Examples Properties_Console.
Local Open Scope string_scope.
Local Open Scope list_scope.
Local Open Scope Z_scope.

(* a driver just connected, between frames, with its own parser as only listener *)
Definition connected (u : uninit) (ru : runinit) (junk : list Z) (s : ublox) (n : nav) : Prop :=
  UReach u ru 0 s /\ u_type s <> T_BASE /\ u_ls s = map build [mkListener 1 [(0x02, 0x13)]] /\ parsing_message (u_ubx s) = false /\ rtcm_parsing (u_rtcm s) = false /\ calm_parser junk n.
(* frames the driver can meet in that state; navigation messages as in C57 *)
Definition meets (s : ublox) (ds : list ditem) : Prop :=
  ditems_ok (prev (u_ubx s)) ds /\ bytes_ok (ditems_bytes ds) /\ (forall m, In m (dsfr_msgs (inbuf (u_ubx s)) ds) -> calm (NMsg m)).
Definition datagrams_ok (l : list chunk) : Prop := Forall (fun its => Forall ritem_ok its /\ bytes_ok (ritems_bytes its)) (net_frames l).

(* base: the program ends normally with the specified text; it writes exactly its configuration to the receiver, whatever arrives over the
   network, and forwards every good correction frame of the receiver once, in order *)
Theorem C95_base u ru s n w ds0 l s0 s1 e1 s2 e2 s3 e3 xs0 xs : uninit_ok u -> runinit_ok ru -> junk_ok (si_junk w) -> connected u ru (si_junk w) s n ->
  si_udp w = true -> si_before w = ditems_bytes ds0 -> si_after w = arrivals l ->
  s0 = ublox_register s (build (mkListener 2 [(0x01, 0x3B); (0x01, 0x07)])) -> no_rtcm ds0 -> meets s0 ds0 -> Forall2 svin_payload (dframes_of 0x01 0x3B ds0) xs0 ->
  ublox_read s0 (ditems_bytes ds0) = Ok (s1, e1) -> config_base s1 3 true = Ok (s2, e2) ->
  meets s2 (port_frames l) -> datagrams_ok l -> Forall2 svin_payload (dframes_of 0x01 0x3B (port_frames l)) xs -> ublox_read s2 (ditems_bytes (port_frames l)) = Ok (s3, e3) ->
  exists n1 n3 t1 t3 ev, base_rest w s n = Ok (mkRun (Returns 0) (t1 ++ t3 ++ newline ++ line "quitting") "", ev) /\
    shows (si_junk w) false base_display s0 n (map FromPort ds0) s1 n1 t1 /\ shows (si_junk w) false base_display s2 n1 l s3 n3 t3 /\
    ser_of ev = usb_rtcm_rates 1 ++ stationary_writes (u_out s1) /\ rtk_of ev = forwarded 3 (port_frames l).
Proof.
  intros Hu Hru HJ (HR & HT & EL & HP & HRp & HC) EU EB EA -> HN (A1 & A2 & A3) HX0 E1 E2 (B1 & B2 & B3) Hn HX E3.
  destruct (base_whole u ru s n w ds0 l s1 e1 s2 e2 s3 e3 xs0 xs Hu Hru HJ HR HT EL HP HRp HC EU EB EA HN A1 A2 A3 HX0 E1 E2 B1 B2 B3 Hn HX E3) as (n1 & n3 & t1 & t3 & ev & Q1 & Q2 & Q3 & Q4 & Q5).
  exists n1, n3, t1, t3, ev. split; [exact Q1|]. split; [exact Q2|]. split; [exact Q3|]. split; [|exact Q5]. rewrite Q4.
  assert (HR1 : UReach u ru 0 s1).
  { eapply U_read; [apply U_listen; [exact HR|]|exact A2|exact E1]. constructor; [split; unfold byte_ok; cbn; lia|]. constructor; [split; unfold byte_ok; cbn; lia|constructor]. }
  destruct (base_sends_reach u ru 0%nat s1 3 true Hu Hru HR1) as (sx & ex & EX & _ & _ & X). rewrite E2 in EX. assert (ex = e2) by congruence. subst ex. exact X.
Qed.
Print Assumptions C95_base.
(* rover: nothing is forwarded; the receiver gets the configuration and then every datagram, verbatim and in order; damaged correction frames are
   complained about.  si_dbg: the object that checks them, between frames *)
Theorem C95_rover u ru rd s n w ds0 l s0 s1 e1 s2 e2 s3 e3 xs0 xs : uninit_ok u -> runinit_ok ru -> runinit_ok rd -> junk_ok (si_junk w) -> connected u ru (si_junk w) s n ->
  RReach rd (si_dbg w) -> rtcm_parsing (si_dbg w) = false -> si_udp w = true -> si_before w = ditems_bytes ds0 -> si_after w = arrivals l ->
  s0 = ublox_register s (build (mkListener 2 [(0x01, 0x3C)])) -> no_rtcm ds0 -> meets s0 ds0 -> Forall2 rel_payload (dframes_of 0x01 0x3C ds0) xs0 ->
  ublox_read s0 (ditems_bytes ds0) = Ok (s1, e1) -> config_rover s1 3 = Ok (s2, e2) ->
  no_rtcm (port_frames l) -> meets s2 (port_frames l) -> datagrams_ok l -> Forall2 rel_payload (dframes_of 0x01 0x3C (port_frames l)) xs ->
  ublox_read s2 (ditems_bytes (port_frames l)) = Ok (s3, e3) ->
  exists n1 n3 t1 t3 ev, rover_rest w s n = Ok (mkRun (Returns 0) (t1 ++ t3 ++ newline ++ line "quitting") "", ev) /\
    shows (si_junk w) false rover_display s0 n (map FromPort ds0) s1 n1 t1 /\ shows (si_junk w) true rover_display s2 n1 l s3 n3 t3 /\
    ser_of ev = usb_rtcm_rates 0 ++ map ritems_bytes (net_frames l) /\ rtk_of ev = [].
Proof.
  intros Hu Hru Hrd HJ (HR & HT & EL & HP & HRp & HC) HD HDp EU EB EA -> HN (A1 & A2 & A3) HX0 E1 E2 HN1 (B1 & B2 & B3) Hn HX E3.
  destruct (rover_whole u ru rd 0%nat s n w ds0 l s1 e1 s2 e2 s3 e3 xs0 xs Hu Hru Hrd HJ HR HT EL HP HRp HC HD HDp EU EB EA HN A1 A2 A3 HX0 E1 E2 HN1 B1 B2 B3 Hn HX E3) as (n1 & n3 & t1 & t3 & ev & Q1 & Q2 & Q3 & Q4 & Q5).
  exists n1, n3, t1, t3, ev. split; [exact Q1|]. split; [exact Q2|]. split; [exact Q3|]. split; [|exact Q5]. rewrite Q4.
  assert (HR1 : UReach u ru 0 s1).
  { eapply U_read; [apply U_listen; [exact HR|]|exact A2|exact E1]. constructor; [split; unfold byte_ok; cbn; lia|constructor]. }
  destruct (rover_sends_reach u ru 0%nat s1 3 Hu Hru HR1) as (sx & ex & EX & _ & _ & X). rewrite E2 in EX. assert (ex = e2) by congruence. subst ex. rewrite X. reflexivity.
Qed.
Print Assumptions C95_rover.
(* if the UDP socket cannot be opened the exception leaves main; nothing was written to the receiver *)
Theorem C95_no_socket u ru s n w ds0 : uninit_ok u -> runinit_ok ru -> junk_ok (si_junk w) -> connected u ru (si_junk w) s n -> si_udp w = false -> si_before w = ditems_bytes ds0 -> no_rtcm ds0 ->
  (forall s0 s1 e1 xs0, s0 = ublox_register s (build (mkListener 2 [(0x01, 0x3B); (0x01, 0x07)])) -> meets s0 ds0 -> Forall2 svin_payload (dframes_of 0x01 0x3B ds0) xs0 -> ublox_read s0 (ditems_bytes ds0) = Ok (s1, e1) ->
    exists n1 t1 ev, base_rest w s n = Ok (mkRun (Uncaught "Failed to initialize Rover receive UDP") t1 "", ev) /\ shows (si_junk w) false base_display s0 n (map FromPort ds0) s1 n1 t1 /\ ser_of ev = [] /\ rtk_of ev = []) /\
  (forall s0 s1 e1 xs0, s0 = ublox_register s (build (mkListener 2 [(0x01, 0x3C)])) -> meets s0 ds0 -> Forall2 rel_payload (dframes_of 0x01 0x3C ds0) xs0 -> ublox_read s0 (ditems_bytes ds0) = Ok (s1, e1) ->
    exists n1 t1 ev, rover_rest w s n = Ok (mkRun (Uncaught "Failed to initialize Rover receive UDP") t1 "", ev) /\ shows (si_junk w) false rover_display s0 n (map FromPort ds0) s1 n1 t1 /\ ser_of ev = [] /\ rtk_of ev = []).
Proof.
  intros Hu Hru HJ (HR & HT & EL & HP & HRp & HC) EU EB HN. split; intros s0 s1 e1 xs0 -> (A1 & A2 & A3) HX E.
  - exact (base_no_socket u ru s n w ds0 s1 e1 xs0 Hu Hru HJ HR HT EL HP HRp HC EU EB HN A1 A2 A3 HX E).
  - exact (rover_no_socket u ru s n w ds0 s1 e1 xs0 Hu Hru HJ HR HT EL HP HRp HC EU EB HN A1 A2 A3 HX E).
Qed.
Print Assumptions C95_no_socket.
(* the specification leaves no choice *)
Theorem C95_text_determined junk link l s n s1 n1 t s2 n2 t' :
  (shows junk link base_display s n l s1 n1 t -> shows junk link base_display s n l s2 n2 t' -> s1 = s2 /\ n1 = n2 /\ t = t') /\
  (shows junk link rover_display s n l s1 n1 t -> shows junk link rover_display s n l s2 n2 t' -> s1 = s2 /\ n1 = n2 /\ t = t').
Proof. exact (conj (shows_fun junk link base_display show_svin base_displays l s n s1 n1 t s2 n2 t') (shows_fun junk link rover_display show_rel rover_displays l s n s1 n1 t s2 n2 t')). Qed.
Print Assumptions C95_text_determined.

(* ---------------------------------------------------------------- cases: a driver made by the constructor, a base and a rover *)
Definition sd : ublox := Eval vm_compute in ust (ctor u0 ru0 out00 1 mv_frame []).
Lemma sd_made : exists ev, ctor u0 ru0 out00 1 mv_frame [] = Ok (Some sd, ev). Proof. eexists. vm_compute. reflexivity. Qed.
Lemma sd_connected : connected u0 ru0 junk0 sd (nav_init st0).
Proof.
  split; [destruct sd_made as [ev E]; apply (U_new u0 ru0 out00 1 mv_frame [] sd ev); [vm_compute; reflexivity|exact ver_bytes|constructor|exact E]|].
  split; [vm_compute; discriminate|]. split; [vm_compute; reflexivity|]. split; [vm_compute; reflexivity|]. split; [vm_compute; reflexivity|].
  exists st0, [], []. split; [reflexivity|]. split; [intros o []|reflexivity].
Qed.
Definition bl : list chunk := [FromPort (DRtcm (RGood rf0)); FromPort (DUbx (Good 1 0x3B (fsv 123456789 21))); FromNet [RGood rf0]; FromPort (DRtcm (RBad rf_bad)); FromPort (DUbx (Good 1 7 [1; 2]))].
Definition rl : list chunk := [FromPort (DUbx (Good 1 0x3C (fx x1))); FromNet [RNoise 5; RBad rf_bad; RGood rf0]; FromPort (DNoise 10); FromNet [RGood rf0]; FromPort (DUbx (Good 1 0x3C (fx x2)))].
Definition site_of (udp : bool) (l : list chunk) : site := mkSite junk0 (rtcm_init ru0) udp (ditems_bytes [DNoise 7]) (arrivals l).
Definition sb0 : ublox := ublox_register sd (build (mkListener 2 [(0x01, 0x3B); (0x01, 0x07)])).
Definition sb2 : ublox := st_or sb0 (config_base (st_or sb0 (ublox_read sb0 [7])) 3 true).
Definition sr0 : ublox := ublox_register sd (build (mkListener 2 [(0x01, 0x3C)])).
Definition sr2 : ublox := st_or sr0 (config_rover (st_or sr0 (ublox_read sr0 [7])) 3).
Example C95_hypotheses : (no_rtcm [DNoise 7] /\ meets sb0 [DNoise 7] /\ meets sr0 [DNoise 7]) /\
  (meets sb2 (port_frames bl) /\ datagrams_ok bl /\ Forall2 svin_payload (dframes_of 0x01 0x3B (port_frames bl)) [sv 123456789 21]) /\
  (no_rtcm (port_frames rl) /\ meets sr2 (port_frames rl) /\ datagrams_ok rl /\ Forall2 rel_payload (dframes_of 0x01 0x3C (port_frames rl)) [x1; x2]) /\
  (RReach ru0 (rtcm_init ru0) /\ rtcm_parsing (rtcm_init ru0) = false).
Proof.
  destruct rf0_frame as [Hf0 _]. pose proof rf_bad_item as HB.
  assert (HG : ritem_ok (RGood rf0)) by (first [exact (ex_intro _ _ (conj ltac:(lia) Hf0))|eexists; split; [|exact Hf0]; lia]).
  assert (HD : datagrams_ok bl /\ datagrams_ok rl).
  { split; unfold datagrams_ok; cbn [net_frames flat_map bl rl app]; repeat (apply Forall_cons || apply Forall_nil);
      (split; [repeat (apply Forall_cons || apply Forall_nil); try assumption; cbn; lia|apply bytes_ok_dec; vm_compute; reflexivity]). }
  assert (P0 : prev (u_ubx sd) <> 0xB5) by (vm_compute; discriminate).
  split; [split; [intros it [X|[]]; discriminate X|split; (split; [cbn [ditems_ok ditem_ok]; split; [split; [lia|intros [? ?]; lia]|exact I]|split; [apply bytes_ok_dec; reflexivity|intros m []]])]|].
  split; [split; [|split; [apply HD|]]|].
  - split; [cbn [port_frames flat_map bl app ditems_ok ditem_ok item_ok ditem_last]; repeat split; try assumption; try lia; try (vm_compute; congruence)|].
    split; [apply bytes_ok_dec; vm_compute; reflexivity|]. intros m Hm. vm_compute in Hm. destruct Hm.
  - cbn [port_frames flat_map bl app]. unfold dframes_of. cbn [flat_map Z.eqb Pos.eqb andb app]. constructor; [|constructor].
    split; [unfold svin_ok, sl_ok, l_ok, sb_ok; cbn; lia|]. do 7 eexists. reflexivity.
  - split; [|split; [constructor|reflexivity]]. split; [intros it Hi; cbn in Hi; repeat (destruct Hi as [Hi|Hi]; [discriminate Hi|]); destruct Hi|].
    split; [|split; [apply HD|]].
    + split; [cbn [port_frames flat_map rl app ditems_ok ditem_ok item_ok ditem_last]; repeat split; try assumption; try lia; try (vm_compute; congruence); intros [? ?]; lia|].
      split; [apply bytes_ok_dec; vm_compute; reflexivity|]. intros m Hm. vm_compute in Hm. destruct Hm.
    + cbn [port_frames flat_map rl app]. unfold dframes_of. cbn [flat_map Z.eqb Pos.eqb andb app].
      constructor; [|constructor; [|constructor]]; (split; [unfold relpos_ok, w_ok, l_ok, sl_ok, sb_ok; cbn; lia|do 10 eexists; reflexivity]).
Qed.
Definition ran (r : outcome (run * list event)) : option (ending * string * list (Z * list Z) * nat) :=
  match r with Ok (mkRun e t _, ev) => Some (e, t, rtk_of ev, List.length (ser_of ev)) | UB _ => None end.
Example C95_case :
  ran (base_rest (site_of true bl) sd (nav_init st0)) = Some (Returns 0, ("t: 259200000, ACTIVE, dur: 60, pos: [1234567.892100, 1234567.892100, 1234567.892100], acc: 1.234500" ++ nl ++ bad_crc_line ++ nl ++ "quitting" ++ nl)%string, [(3, rf0)], 108%nat) /\
  ran (rover_rest (site_of true rl) sd (nav_init st0)) = Some (Returns 0,
    ("RTK, Moving Base , Floating " ++ nl ++ "valid relative position components " ++ nl ++ "tow: 259200 relNED: -1234, 567, 89, Distance: 1361" ++ nl ++ bad_crc_line ++ "No RTK " ++ nl ++ nl ++ "quitting" ++ nl)%string, [], 65%nat) /\
  ran (rover_rest (site_of false rl) sd (nav_init st0)) = Some (Uncaught "Failed to initialize Rover receive UDP", "", [], 0%nat).
Proof. split; [|split]; vm_compute; reflexivity. Qed.
