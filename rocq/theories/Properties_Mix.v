(* C97: the example programs base and rover, the whole of main, with bytes and datagrams in any order and interrupted at any byte.
   Programs: base_main, rover_main (C96).  Specification: StationMix.v, `arrive`: the order in which frames are complete; `unfinished`: the
   beginning of a frame; the text: `shows` and `starting` of C95 and C96. *)
From Coq Require Import String.
From Verif Require Import Base UbxSpec UbxModel UbxProofs UbxStream UbxMain UbxMore UbxHist UbxApi
  UbxTx UbxTxSpec UbxTxApi CrcSpec RtcmModel RtcmSpec RtcmProofs RtcmApi UbloxModel UbloxSpec UbloxProofs UbloxApi UbloxThm UbloxCfg
  BitModel UtcModel UtcSpec Dbl NavModel NavSpec NavGpsSpec NavStrSpec NavGloSpec NavGalSpec NavObj NavGpsThm NavDev NavSafe NavWire DeviceSafe
  NavShow TextSpec ConsoleSpec Console ReportSpec ExShow ExShowThm RosModel RosSpec UtcShow UtcShowThm ExSat ExSatThm SerialProg LogProg StationProg StationStart StationMix.
From Verif Require Import UbxEx Properties_Rtcm Properties_Ublox Properties_NavGps Properties_NavGal Properties_NavDev Properties_Safe Properties_Examples Properties_Console Properties_Station Properties_Begin.
Local Open Scope string_scope.
Local Open Scope list_scope.
Local Open Scope Z_scope.

(* every interleaving of the bytes of whole frames, an unfinished one, and datagrams is the arrival of those frames and datagrams *)
Theorem C97_any_order before ds tail nets a : ditems_ok before ds -> shuffle (map Port (ditems_bytes ds ++ tail)) (map Net (map ritems_bytes nets)) a ->
  exists l, arrive l tail a /\ port_frames l = ds /\ net_frames l = nets.
Proof. exact (any_order ds before tail nets a). Qed.
Print Assumptions C97_any_order.
(* base: p is the part of a frame that has come when the role is configured; l: what is complete after that, the frame with p included;
   tail: what has come of one more frame when the program is stopped.  Everything is as if the frames had come undivided *)
Theorem C97_base u ru out0 st w ds1 ds2 s e0 ds0 p l tail s0 s1 e1 s2 e2 s3 e3 xs0 xs : memory_ok u ru out0 st (si_junk w) -> greets u ds1 ds2 ->
  ctor u ru out0 1 (ditems_bytes ds1) (ditems_bytes ds2) = Ok (Some s, e0) ->
  si_udp w = true -> si_before w = ditems_bytes ds0 ++ p -> arrive l tail (map Port p ++ si_after w) ->
  s0 = ublox_register s (build (mkListener 2 [(0x01, 0x3B); (0x01, 0x07)])) -> no_rtcm ds0 -> meets s0 ds0 -> Forall2 svin_payload (dframes_of 0x01 0x3B ds0) xs0 ->
  ublox_read s0 (ditems_bytes ds0) = Ok (s1, e1) -> unfinished T_NONE (prev (u_ubx s1)) p -> config_base s1 3 true = Ok (s2, e2) ->
  meets s2 (port_frames l) -> unfinished T_BASE (ditems_last (prev (u_ubx s2)) (port_frames l)) tail -> datagrams_ok l ->
  Forall2 svin_payload (dframes_of 0x01 0x3B (port_frames l)) xs -> ublox_read s2 (ditems_bytes (port_frames l)) = Ok (s3, e3) ->
  exists sx n0 n1 n3 t0 t1 t3 ev, base_main w u ru out0 (nav_init st) (ditems_bytes ds1) (ditems_bytes ds2) = Ok (mkRun (Returns 0) (t0 ++ t1 ++ t3 ++ newline ++ line "quitting") "", ev) /\
    starting (si_junk w) (ublox_blank u ru out0 1) (nav_init st) ds1 ds2 sx n0 t0 /\ u_ubx s = u_ubx sx /\
    shows (si_junk w) false base_display s0 n0 (map FromPort ds0) s1 n1 t1 /\ shows (si_junk w) false base_display s2 n1 l s3 n3 t3 /\
    ser_of ev = queries ds1 ++ setup_writes (major (u_ubx s)) ++ usb_rtcm_rates 1 ++ stationary_writes (u_out s1) /\ rtk_of ev = forwarded 3 (port_frames l).
Proof.
  intros HM HG EC EU EB HA E0 HN A HX0 E1 HC E2 B HU Hn HX E3. pose proof HM as (Hu & Hru & Hz & HJ & Hst).
  destruct (C96_connected u ru out0 st (si_junk w) ds1 ds2 s e0 HM HG EC) as (sy & m & ty & Q1 & _ & _ & (HR & HT & EL & HP & HRp & HCp) & _).
  destruct (C96_base u ru out0 st (framed w ds0 l) ds1 ds2 s e0 ds0 l s0 s1 e1 s2 e2 s3 e3 xs0 xs HM HG EC EU eq_refl eq_refl E0 HN A HX0 E1 E2 B Hn HX E3)
    as (sx & n0 & n1 & n3 & t0 & t1 & t3 & ev & R).
  exists sx, n0, n1, n3, t0, t1, t3, ev. replace (base_main w u ru out0 (nav_init st) (ditems_bytes ds1) (ditems_bytes ds2)) with (base_main (framed w ds0 l) u ru out0 (nav_init st) (ditems_bytes ds1) (ditems_bytes ds2)); [exact R|].
  unfold base_main, station_main. change (si_junk (framed w ds0 l)) with (si_junk w). rewrite Q1. cbn [bind]. subst s0. destruct A as (A1 & A2 & A3). destruct B as (B1 & B2 & B3).
  rewrite (base_mixed u ru s m w ds0 p l tail s1 e1 s2 e2 s3 e3 xs0 xs Hu Hru HJ HR HT EL HP HRp HCp EU EB HA HN A1 A2 A3 HX0 E1 HC E2 B1 B2 HU HX E3). reflexivity.
Qed.
Print Assumptions C97_base.
(* rover, likewise; every datagram is written to the receiver when it comes, also inside a frame *)
Theorem C97_rover u ru rd out0 st w ds1 ds2 s e0 ds0 p l tail s0 s1 e1 s2 e2 s3 e3 xs0 xs : memory_ok u ru out0 st (si_junk w) -> runinit_ok rd -> greets u ds1 ds2 ->
  ctor u ru out0 1 (ditems_bytes ds1) (ditems_bytes ds2) = Ok (Some s, e0) ->
  RReach rd (si_dbg w) -> rtcm_parsing (si_dbg w) = false -> si_udp w = true -> si_before w = ditems_bytes ds0 ++ p -> arrive l tail (map Port p ++ si_after w) ->
  s0 = ublox_register s (build (mkListener 2 [(0x01, 0x3C)])) -> no_rtcm ds0 -> meets s0 ds0 -> Forall2 rel_payload (dframes_of 0x01 0x3C ds0) xs0 ->
  ublox_read s0 (ditems_bytes ds0) = Ok (s1, e1) -> unfinished T_NONE (prev (u_ubx s1)) p -> config_rover s1 3 = Ok (s2, e2) ->
  no_rtcm (port_frames l) -> meets s2 (port_frames l) -> unfinished T_ROVER (ditems_last (prev (u_ubx s2)) (port_frames l)) tail -> datagrams_ok l ->
  Forall2 rel_payload (dframes_of 0x01 0x3C (port_frames l)) xs -> ublox_read s2 (ditems_bytes (port_frames l)) = Ok (s3, e3) ->
  exists sx n0 n1 n3 t0 t1 t3 ev, rover_main w u ru out0 (nav_init st) (ditems_bytes ds1) (ditems_bytes ds2) = Ok (mkRun (Returns 0) (t0 ++ t1 ++ t3 ++ newline ++ line "quitting") "", ev) /\
    starting (si_junk w) (ublox_blank u ru out0 1) (nav_init st) ds1 ds2 sx n0 t0 /\ u_ubx s = u_ubx sx /\
    shows (si_junk w) false rover_display s0 n0 (map FromPort ds0) s1 n1 t1 /\ shows (si_junk w) true rover_display s2 n1 l s3 n3 t3 /\
    ser_of ev = queries ds1 ++ setup_writes (major (u_ubx s)) ++ usb_rtcm_rates 0 ++ map ritems_bytes (net_frames l) /\ rtk_of ev = [].
Proof.
  intros HM Hrd HG EC HD HDp EU EB HA E0 HN A HX0 E1 HC E2 HN1 B HU Hn HX E3. pose proof HM as (Hu & Hru & Hz & HJ & Hst).
  destruct (C96_connected u ru out0 st (si_junk w) ds1 ds2 s e0 HM HG EC) as (sy & m & ty & Q1 & _ & _ & (HR & HT & EL & HP & HRp & HCp) & _).
  destruct (C96_rover u ru rd out0 st (framed w ds0 l) ds1 ds2 s e0 ds0 l s0 s1 e1 s2 e2 s3 e3 xs0 xs HM Hrd HG EC HD HDp EU eq_refl eq_refl E0 HN A HX0 E1 E2 HN1 B Hn HX E3)
    as (sx & n0 & n1 & n3 & t0 & t1 & t3 & ev & R).
  exists sx, n0, n1, n3, t0, t1, t3, ev. replace (rover_main w u ru out0 (nav_init st) (ditems_bytes ds1) (ditems_bytes ds2)) with (rover_main (framed w ds0 l) u ru out0 (nav_init st) (ditems_bytes ds1) (ditems_bytes ds2)); [exact R|].
  unfold rover_main, station_main. change (si_junk (framed w ds0 l)) with (si_junk w). rewrite Q1. cbn [bind]. subst s0. destruct A as (A1 & A2 & A3). destruct B as (B1 & B2 & B3).
  rewrite (rover_mixed u ru 0%nat s m w ds0 p l tail s1 e1 s2 e2 s3 e3 xs0 xs Hu Hru HJ HR HT EL HP HRp HCp EU EB HA HN A1 A2 A3 HX0 E1 HC E2 HN1 B1 B2 HU HX E3). reflexivity.
Qed.
Print Assumptions C97_rover.

(* ---------------------------------------------------------------- cases: a rover configured inside a frame, a datagram inside that frame, stopped inside another *)
Definition fm : list Z := ditem_bytes (DUbx (Good 1 0x3C (fx x1))).
Definition ml : list chunk := [FromNet [RNoise 5; RBad rf_bad; RGood rf0]; FromPort (DUbx (Good 1 0x3C (fx x1))); FromPort (DNoise 10)].
Definition mw : site := mkSite junk0 (rtcm_init ru0) true ([7] ++ firstn 9 fm)
  (map Port (firstn 20 (skipn 9 fm)) ++ [Net (ritems_bytes [RNoise 5; RBad rf_bad; RGood rf0])] ++ map Port (skipn 29 fm) ++ [Port 10] ++ map Port (firstn 30 fm)).
Lemma shuffle_left {A} (a : list A) : shuffle a [] a. Proof. induction a; constructor; assumption. Qed.
Lemma shuffle_insert {A} (a : list A) x b : shuffle (a ++ b) [x] (a ++ x :: b). Proof. induction a as [|y a IH]; [constructor; apply shuffle_left|constructor; exact IH]. Qed.
Example C97_hypotheses : si_before mw = ditems_bytes [DNoise 7] ++ firstn 9 fm /\ arrive ml (firstn 30 fm) (map Port (firstn 9 fm) ++ si_after mw) /\
  (meets kr2 (port_frames ml) /\ datagrams_ok ml /\ no_rtcm (port_frames ml) /\ Forall2 rel_payload (dframes_of 0x01 0x3C (port_frames ml)) [x1]) /\
  unfinished T_NONE (prev (u_ubx (st_or kr0 (ublox_read kr0 [7])))) (firstn 9 fm) /\ unfinished T_ROVER (ditems_last (prev (u_ubx kr2)) (port_frames ml)) (firstn 30 fm).
Proof.
  destruct rf0_frame as [Hf0 _]. pose proof rf_bad_item as HB.
  assert (HG : ritem_ok (RGood rf0)) by (first [exact (ex_intro _ _ (conj ltac:(lia) Hf0))|eexists; split; [|exact Hf0]; lia]).
  assert (HU : forall T before, unfinished T before (firstn 9 fm) /\ unfinished T before (firstn 30 fm)).
  { intros T before. assert (HO : forall k, (T = T_BASE \/ no_rtcm [DUbx (Good 1 0x3C (fx x1))]) /\ ditem_ok before (DUbx (Good 1 0x3C (fx x1))) /\ bytes_ok (ditem_bytes (DUbx (Good 1 0x3C (fx x1)))) /\ ditem_bytes (DUbx (Good 1 0x3C (fx x1))) = firstn k fm ++ skipn k fm).
    { intros k. split; [right; intros it [X|[]]; discriminate X|]. split; [cbn [ditem_ok item_ok]; repeat split; try lia; vm_compute; congruence|]. split; [apply bytes_ok_dec; vm_compute; reflexivity|symmetry; apply firstn_skipn]. }
    split; right.
    - destruct (HO 9%nat) as (A & B & C & D). exists (DUbx (Good 1 0x3C (fx x1))), (skipn 9 fm). split; [exact A|]. split; [exact B|]. split; [exact C|]. split; [vm_compute; discriminate|exact D].
    - destruct (HO 30%nat) as (A & B & C & D). exists (DUbx (Good 1 0x3C (fx x1))), (skipn 30 fm). split; [exact A|]. split; [exact B|]. split; [exact C|]. split; [vm_compute; discriminate|exact D]. }
  split; [reflexivity|]. split; [|split; [|split; apply HU]].
  - set (nt := [RNoise 5; RBad rf_bad; RGood rf0]). set (q := removelast (skipn 29 fm)). set (b := last fm 0).
    replace (map Port (firstn 9 fm) ++ si_after mw) with ((map Port (firstn 29 fm) ++ Net (ritems_bytes nt) :: map Port q) ++ Port b :: ([] ++ Port 10 :: map Port (firstn 30 fm))) by (vm_compute; reflexivity).
    apply (av_frame (DUbx (Good 1 0x3C (fx x1))) (firstn 29 fm ++ q) b [nt]); [vm_compute; reflexivity|rewrite map_app; apply shuffle_insert|].
    apply (av_frame (DNoise 10) [] 10 [] [] []); [reflexivity|constructor|]. apply (av_end []). apply shuffle_left.
  - split; [|split; [|split]].
    + split; [cbn [port_frames flat_map ml app ditems_ok ditem_ok item_ok ditem_last]; repeat split; try assumption; try lia; try (vm_compute; congruence); intros [? ?]; lia|].
      split; [apply bytes_ok_dec; vm_compute; reflexivity|]. intros m Hm. vm_compute in Hm. destruct Hm.
    + unfold datagrams_ok; cbn [net_frames flat_map ml app]. apply Forall_cons; [|apply Forall_nil]. split; [repeat (apply Forall_cons || apply Forall_nil); try assumption; cbn; lia|apply bytes_ok_dec; vm_compute; reflexivity].
    + intros it Hi; cbn in Hi; repeat (destruct Hi as [Hi|Hi]; [discriminate Hi|]); destruct Hi.
    + cbn [port_frames flat_map ml app]. unfold dframes_of. cbn [flat_map Z.eqb Pos.eqb andb app]. constructor; [|constructor].
      split; [unfold relpos_ok, w_ok, l_ok, sl_ok, sb_ok; cbn; lia|do 10 eexists; reflexivity].
Qed.
Example C97_case :
  ran (rover_main mw u0 ru0 out00 (nav_init st0) (ditems_bytes g1) (ditems_bytes g2)) = Some (Returns 0,
    (greeting ++ bad_crc_line ++ "RTK, Moving Base , Floating " ++ nl ++ "valid relative position components " ++ nl ++ "tow: 259200 relNED: -1234, 567, 89, Distance: 1361" ++ nl ++ nl ++ "quitting" ++ nl)%string, [], 172%nat).
Proof. vm_compute. reflexivity. Qed.
