(* C96: the example programs base and rover, the whole of main.
   base_main, rover_main (StationStart.v): construction of the driver while the receiver sends the frames ds1 during the first query of its
   version and ds2 during the second, if there is one; then base_rest, rover_rest (C95).  Specification: StationStart.v, `starting`, with
   `shows` of C95 for the text (here without a handler), ver_poll and setup_writes of C49 for what is written. *)
From Coq Require Import String.
From Verif Require Import Base UbxSpec UbxModel UbxProofs UbxStream UbxMain UbxMore UbxHist UbxApi
  UbxTx UbxTxSpec UbxTxApi CrcSpec RtcmModel RtcmSpec RtcmProofs RtcmApi UbloxModel UbloxSpec UbloxProofs UbloxApi UbloxThm UbloxCfg
  BitModel UtcModel UtcSpec Dbl NavModel NavSpec NavGpsSpec NavStrSpec NavGloSpec NavGalSpec NavObj NavGpsThm NavDev NavSafe NavWire DeviceSafe
  NavShow TextSpec ConsoleSpec Console ReportSpec ExShow ExShowThm RosModel RosSpec UtcShow UtcShowThm ExSat ExSatThm SerialProg LogProg StationProg StationStart.
From Verif Require Import UbxEx Properties_Rtcm Properties_Ublox Properties_NavGps Properties_NavGal Properties_NavDev Properties_Safe Properties_Examples Properties_Console Properties_Station.
Local Open Scope string_scope.
Local Open Scope list_scope.
Local Open Scope Z_scope.

(* memory at the start of main; st: the parser's buffers for Galileo pages, zero where C57 needs it *)
Definition memory_ok (u : uninit) (ru : runinit) (out0 : list Z) (st : Z -> list Z) (junk : list Z) : Prop :=
  uninit_ok u /\ runinit_ok ru /\ Zlen out0 = 2048 /\ junk_ok junk /\ (forall sv, 1 <= sv <= 255 -> st (sv - 1) = repeat 0 380).
(* whole frames for the driver as it is made *)
Definition greets (u : uninit) (ds1 ds2 : list ditem) : Prop :=
  no_rtcm (ds1 ++ ds2) /\ ditems_ok 0 (ds1 ++ ds2) /\ bytes_ok (ditems_bytes (ds1 ++ ds2)) /\ (forall m, In m (dsfr_msgs (inbuf (ubx_init u)) (ds1 ++ ds2)) -> calm (NMsg m)).
Definition queries (ds1 : list ditem) : list (list Z) := if existsb is_ver ds1 then ver_poll else ver_poll ++ ver_poll.

(* no version reply during either query: the exception leaves main; nothing but two queries was written *)
Theorem C96_refused u ru out0 st w ds1 ds2 ev : memory_ok u ru out0 st (si_junk w) -> greets u ds1 ds2 -> ctor u ru out0 1 (ditems_bytes ds1) (ditems_bytes ds2) = Ok (None, ev) ->
  exists s n t, starting (si_junk w) (ublox_blank u ru out0 1) (nav_init st) ds1 ds2 s n t /\
    base_main w u ru out0 (nav_init st) (ditems_bytes ds1) (ditems_bytes ds2) = Ok (mkRun (Uncaught "Unable to connect.  Please check your serial port configuration") t "", ev) /\
    rover_main w u ru out0 (nav_init st) (ditems_bytes ds1) (ditems_bytes ds2) = Ok (mkRun (Uncaught "Unable to connect.  Please check your serial port configuration") t "", ev) /\
    existsb is_ver (ds1 ++ ds2) = false /\ ser_of ev = ver_poll ++ ver_poll /\ rtk_of ev = [].
Proof.
  intros (Hu & Hru & Hz & HJ & Hst) (HN & Hok & Hb & HC) EC.
  destruct (connecting_shows (si_junk w) u ru out0 st ds1 ds2 None ev HJ Hu Hru Hz Hst HN Hok Hb HC EC) as (n & t & sx & Q1 & Q2 & _ & Q4 & Q5 & Q6).
  exists sx, n, t. split; [exact Q2|]. unfold base_main, rover_main, station_main. rewrite Q1. split; [reflexivity|]. split; [reflexivity|]. auto.
Qed.
Print Assumptions C96_refused.
(* the driver is made: what was printed and written by then, and C95's `connected` *)
Theorem C96_connected u ru out0 st junk ds1 ds2 s ev : memory_ok u ru out0 st junk -> greets u ds1 ds2 -> ctor u ru out0 1 (ditems_bytes ds1) (ditems_bytes ds2) = Ok (Some s, ev) ->
  exists s1 n t, connecting junk u ru out0 (nav_init st) (ditems_bytes ds1) (ditems_bytes ds2) = Ok (Some s, n, ev, t) /\
    starting junk (ublox_blank u ru out0 1) (nav_init st) ds1 ds2 s1 n t /\ u_ubx s = u_ubx s1 /\ connected u ru junk s n /\
    existsb is_ver (ds1 ++ ds2) = true /\ ser_of ev = queries ds1 ++ setup_writes (major (u_ubx s)) /\ rtk_of ev = [].
Proof.
  intros (Hu & Hru & Hz & HJ & Hst) (HN & Hok & Hb & HC) EC.
  destruct (connecting_shows junk u ru out0 st ds1 ds2 (Some s) ev HJ Hu Hru Hz Hst HN Hok Hb HC EC) as (n & t & sx & Q1 & Q2 & Q3 & Q4 & Q5 & Q6 & (o & Q7) & R1 & R2 & R3 & R4 & R5).
  exists sx, n, t. split; [exact Q1|]. split; [exact Q2|]. split; [rewrite Q7; reflexivity|]. split; [|auto].
  split; [exact R1|]. split; [rewrite R2; discriminate|]. split; [exact R3|]. split; [exact R4|]. split; [exact R5|exact Q3].
Qed.
Print Assumptions C96_connected.
(* base, from the start of main to its end *)
Theorem C96_base u ru out0 st w ds1 ds2 s e0 ds0 l s0 s1 e1 s2 e2 s3 e3 xs0 xs : memory_ok u ru out0 st (si_junk w) -> greets u ds1 ds2 ->
  ctor u ru out0 1 (ditems_bytes ds1) (ditems_bytes ds2) = Ok (Some s, e0) ->
  si_udp w = true -> si_before w = ditems_bytes ds0 -> si_after w = arrivals l ->
  s0 = ublox_register s (build (mkListener 2 [(0x01, 0x3B); (0x01, 0x07)])) -> no_rtcm ds0 -> meets s0 ds0 -> Forall2 svin_payload (dframes_of 0x01 0x3B ds0) xs0 ->
  ublox_read s0 (ditems_bytes ds0) = Ok (s1, e1) -> config_base s1 3 true = Ok (s2, e2) ->
  meets s2 (port_frames l) -> datagrams_ok l -> Forall2 svin_payload (dframes_of 0x01 0x3B (port_frames l)) xs -> ublox_read s2 (ditems_bytes (port_frames l)) = Ok (s3, e3) ->
  exists sx n0 n1 n3 t0 t1 t3 ev, base_main w u ru out0 (nav_init st) (ditems_bytes ds1) (ditems_bytes ds2) = Ok (mkRun (Returns 0) (t0 ++ t1 ++ t3 ++ newline ++ line "quitting") "", ev) /\
    starting (si_junk w) (ublox_blank u ru out0 1) (nav_init st) ds1 ds2 sx n0 t0 /\ u_ubx s = u_ubx sx /\
    shows (si_junk w) false base_display s0 n0 (map FromPort ds0) s1 n1 t1 /\ shows (si_junk w) false base_display s2 n1 l s3 n3 t3 /\
    ser_of ev = queries ds1 ++ setup_writes (major (u_ubx s)) ++ usb_rtcm_rates 1 ++ stationary_writes (u_out s1) /\ rtk_of ev = forwarded 3 (port_frames l).
Proof.
  intros HM HG EC EU EB EA E0 HN A HX0 E1 E2 B Hn HX E3. pose proof HM as (Hu & Hru & Hz & HJ & Hst).
  destruct (C96_connected u ru out0 st (si_junk w) ds1 ds2 s e0 HM HG EC) as (sx & n0 & t0 & Q1 & Q2 & Q3 & Q4 & _ & Q6 & Q7).
  destruct (C95_base u ru s n0 w ds0 l s0 s1 e1 s2 e2 s3 e3 xs0 xs Hu Hru HJ Q4 EU EB EA E0 HN A HX0 E1 E2 B Hn HX E3) as (n1 & n3 & t1 & t3 & ev & R1 & R2 & R3 & R4 & R5).
  exists sx, n0, n1, n3, t0, t1, t3, (e0 ++ ev). split; [unfold base_main, station_main; rewrite Q1; cbn [bind]; rewrite R1; reflexivity|].
  split; [exact Q2|]. split; [exact Q3|]. split; [exact R2|]. split; [exact R3|].
  split; [rewrite ser_of_app, Q6, R4, <- app_assoc; reflexivity|rewrite rtk_of_app, Q7; exact R5].
Qed.
Print Assumptions C96_base.
(* rover, likewise *)
Theorem C96_rover u ru rd out0 st w ds1 ds2 s e0 ds0 l s0 s1 e1 s2 e2 s3 e3 xs0 xs : memory_ok u ru out0 st (si_junk w) -> runinit_ok rd -> greets u ds1 ds2 ->
  ctor u ru out0 1 (ditems_bytes ds1) (ditems_bytes ds2) = Ok (Some s, e0) ->
  RReach rd (si_dbg w) -> rtcm_parsing (si_dbg w) = false -> si_udp w = true -> si_before w = ditems_bytes ds0 -> si_after w = arrivals l ->
  s0 = ublox_register s (build (mkListener 2 [(0x01, 0x3C)])) -> no_rtcm ds0 -> meets s0 ds0 -> Forall2 rel_payload (dframes_of 0x01 0x3C ds0) xs0 ->
  ublox_read s0 (ditems_bytes ds0) = Ok (s1, e1) -> config_rover s1 3 = Ok (s2, e2) ->
  no_rtcm (port_frames l) -> meets s2 (port_frames l) -> datagrams_ok l -> Forall2 rel_payload (dframes_of 0x01 0x3C (port_frames l)) xs ->
  ublox_read s2 (ditems_bytes (port_frames l)) = Ok (s3, e3) ->
  exists sx n0 n1 n3 t0 t1 t3 ev, rover_main w u ru out0 (nav_init st) (ditems_bytes ds1) (ditems_bytes ds2) = Ok (mkRun (Returns 0) (t0 ++ t1 ++ t3 ++ newline ++ line "quitting") "", ev) /\
    starting (si_junk w) (ublox_blank u ru out0 1) (nav_init st) ds1 ds2 sx n0 t0 /\ u_ubx s = u_ubx sx /\
    shows (si_junk w) false rover_display s0 n0 (map FromPort ds0) s1 n1 t1 /\ shows (si_junk w) true rover_display s2 n1 l s3 n3 t3 /\
    ser_of ev = queries ds1 ++ setup_writes (major (u_ubx s)) ++ usb_rtcm_rates 0 ++ map ritems_bytes (net_frames l) /\ rtk_of ev = [].
Proof.
  intros HM Hrd HG EC HD HDp EU EB EA E0 HN A HX0 E1 E2 HN1 B Hn HX E3. pose proof HM as (Hu & Hru & Hz & HJ & Hst).
  destruct (C96_connected u ru out0 st (si_junk w) ds1 ds2 s e0 HM HG EC) as (sx & n0 & t0 & Q1 & Q2 & Q3 & Q4 & _ & Q6 & Q7).
  destruct (C95_rover u ru rd s n0 w ds0 l s0 s1 e1 s2 e2 s3 e3 xs0 xs Hu Hru Hrd HJ Q4 HD HDp EU EB EA E0 HN A HX0 E1 E2 HN1 B Hn HX E3) as (n1 & n3 & t1 & t3 & ev & R1 & R2 & R3 & R4 & R5).
  exists sx, n0, n1, n3, t0, t1, t3, (e0 ++ ev). split; [unfold rover_main, station_main; rewrite Q1; cbn [bind]; rewrite R1; reflexivity|].
  split; [exact Q2|]. split; [exact Q3|]. split; [exact R2|]. split; [exact R3|].
  split; [rewrite ser_of_app, Q6, R4, <- app_assoc; reflexivity|rewrite rtk_of_app, Q7; exact R5].
Qed.
Print Assumptions C96_rover.
(* the text of construction is determined *)
Theorem C96_text_determined junk s0 n0 ds1 ds2 s n t s' n' t' : starting junk s0 n0 ds1 ds2 s n t -> starting junk s0 n0 ds1 ds2 s' n' t' -> s = s' /\ n = n' /\ t = t'.
Proof. exact (starting_fun junk s0 n0 ds1 ds2 s n t s' n' t'). Qed.
Print Assumptions C96_text_determined.

(* ---------------------------------------------------------------- cases: the version comes during the second query *)
Definition g1 : list ditem := [DNoise 7].
Definition g2 : list ditem := [DUbx (Good 10 4 monver_pl); DNoise 9].
Definition sg : ublox := Eval vm_compute in ust (ctor u0 ru0 out00 1 (ditems_bytes g1) (ditems_bytes g2)).
Definition kb0 : ublox := ublox_register sg (build (mkListener 2 [(0x01, 0x3B); (0x01, 0x07)])).
Definition kb2 : ublox := st_or kb0 (config_base (st_or kb0 (ublox_read kb0 [7])) 3 true).
Definition kr0 : ublox := ublox_register sg (build (mkListener 2 [(0x01, 0x3C)])).
Definition kr2 : ublox := st_or kr0 (config_rover (st_or kr0 (ublox_read kr0 [7])) 3).
Example C96_made : exists ev, ctor u0 ru0 out00 1 (ditems_bytes g1) (ditems_bytes g2) = Ok (Some sg, ev). Proof. eexists. vm_compute. reflexivity. Qed.
Example C96_silent : exists ev, ctor u0 ru0 out00 1 (ditems_bytes g1) (ditems_bytes g1) = Ok (None, ev). Proof. eexists. vm_compute. reflexivity. Qed.
Example C96_hypotheses : memory_ok u0 ru0 out00 st0 junk0 /\ greets u0 g1 g2 /\ greets u0 g1 g1 /\
  (meets kb0 [DNoise 7] /\ meets kb2 (port_frames bl)) /\ (meets kr0 [DNoise 7] /\ meets kr2 (port_frames rl)).
Proof.
  destruct rf0_frame as [Hf0 _]. pose proof rf_bad_item as HB.
  assert (HG : ritem_ok (RGood rf0)) by (first [exact (ex_intro _ _ (conj ltac:(lia) Hf0))|eexists; split; [|exact Hf0]; lia]).
  split; [split; [exact u0_ok|split; [exact ru0_ok|split; [vm_compute; reflexivity|split; [exact junk0_ok|intros; reflexivity]]]]|].
  split; [split; [intros it [X|[X|[X|[]]]]; discriminate X|]|split; [split; [intros it [X|[X|[]]]; discriminate X|]|split; split]].
  - split; [cbn [app g1 g2 ditems_ok ditem_ok item_ok ditem_last item_last]; repeat split; try lia; try (vm_compute; congruence); intros [? ?]; lia|].
    split; [apply bytes_ok_dec; vm_compute; reflexivity|]. intros m Hm. vm_compute in Hm. destruct Hm.
  - split; [cbn [app g1 ditems_ok ditem_ok ditem_last]; repeat split; try lia; intros [? ?]; lia|]. split; [apply bytes_ok_dec; vm_compute; reflexivity|]. intros m Hm. vm_compute in Hm. destruct Hm.
  - split; [cbn [ditems_ok ditem_ok]; split; [split; [lia|intros [? ?]; lia]|exact I]|split; [apply bytes_ok_dec; reflexivity|intros m []]].
  - split; [cbn [port_frames flat_map bl app ditems_ok ditem_ok item_ok ditem_last]; repeat split; try assumption; try lia; try (vm_compute; congruence)|].
    split; [apply bytes_ok_dec; vm_compute; reflexivity|]. intros m Hm. vm_compute in Hm. destruct Hm.
  - split; [cbn [ditems_ok ditem_ok]; split; [split; [lia|intros [? ?]; lia]|exact I]|split; [apply bytes_ok_dec; reflexivity|intros m []]].
  - split; [cbn [port_frames flat_map rl app ditems_ok ditem_ok item_ok ditem_last]; repeat split; try assumption; try lia; try (vm_compute; congruence); intros [? ?]; lia|].
    split; [apply bytes_ok_dec; vm_compute; reflexivity|]. intros m Hm. vm_compute in Hm. destruct Hm.
Qed.
Definition greeting : string := ("Unable to query version.  Trying again (2 out of 3)" ++ nl ++ "Connected:" ++ nl ++ "Module: ZED-F9P" ++ nl ++ "Protocol Version: 27.11" ++ nl ++ nl)%string.
Example C96_case :
  ran (base_main (site_of true bl) u0 ru0 out00 (nav_init st0) (ditems_bytes g1) (ditems_bytes g2)) = Some (Returns 0,
    (greeting ++ "t: 259200000, ACTIVE, dur: 60, pos: [1234567.892100, 1234567.892100, 1234567.892100], acc: 1.234500" ++ nl ++ bad_crc_line ++ nl ++ "quitting" ++ nl)%string, [(3, rf0)], 216%nat) /\
  ran (rover_main (site_of true rl) u0 ru0 out00 (nav_init st0) (ditems_bytes g1) (ditems_bytes g2)) = Some (Returns 0,
    (greeting ++ "RTK, Moving Base , Floating " ++ nl ++ "valid relative position components " ++ nl ++ "tow: 259200 relNED: -1234, 567, 89, Distance: 1361" ++ nl ++ bad_crc_line ++ "No RTK " ++ nl ++ nl ++ "quitting" ++ nl)%string, [], 173%nat) /\
  ran (base_main (site_of true bl) u0 ru0 out00 (nav_init st0) (ditems_bytes g1) (ditems_bytes g1)) = Some (Uncaught "Unable to connect.  Please check your serial port configuration",
    ("Unable to query version.  Trying again (2 out of 3)" ++ nl ++ "Unable to query version.  Trying again (3 out of 3)" ++ nl)%string, [], 18%nat).
Proof. split; [|split]; vm_compute; reflexivity. Qed.
