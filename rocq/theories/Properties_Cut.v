(* C98: the driver is constructed, and the example programs base and rover register their handler, in the middle of frames.
   ctor: UBLOX::UBLOX (C49); base_main, rover_main: the whole programs (C96).  Specification: StationCut.v: `cut_queries`, `early`; C97: `unfinished`. *)
From Coq Require Import String.
From Verif Require Import Base UbxSpec UbxModel UbxProofs UbxStream UbxMain UbxMore UbxHist UbxApi
  UbxTx UbxTxSpec UbxTxApi CrcSpec RtcmModel RtcmSpec RtcmProofs RtcmApi UbloxModel UbloxSpec UbloxProofs UbloxApi UbloxThm UbloxCfg
  BitModel UtcModel UtcSpec Dbl NavModel NavSpec NavGpsSpec NavStrSpec NavGloSpec NavGalSpec NavObj NavGpsThm NavDev NavSafe NavWire DeviceSafe
  NavShow TextSpec ConsoleSpec Console ReportSpec ExShow ExShowThm RosModel RosSpec UtcShow UtcShowThm ExSat ExSatThm SerialProg LogProg UbloxStart StationProg StationStart StationMix StationCut.
From Verif Require Import UbxEx Properties_Rtcm Properties_Ublox Properties_NavGps Properties_NavGal Properties_NavDev Properties_Safe Properties_Examples Properties_Console Properties_Station Properties_Begin Properties_Mix.
Local Open Scope string_scope.
Local Open Scope list_scope.
Local Open Scope Z_scope.

(* the bytes of whole frames, cut at any place, are whole frames, the beginning of one and the rest *)
Theorem C98_cut_anywhere ds rx rest : no_rtcm ds -> ditems_ok 0 ds -> bytes_ok (ditems_bytes ds) -> rx ++ rest = ditems_bytes ds ->
  exists a b p, ds = a ++ b /\ rx = ditems_bytes a ++ p /\ p ++ rest = ditems_bytes b /\ unfinished T_NONE (ditems_last 0 a) p.
Proof. exact (cut_anywhere ds 0 rx rest). Qed.
Print Assumptions C98_cut_anywhere.
(* the constructor succeeds or fails, and writes, as if no frame had been divided; the object it makes has read q: with whatever comes next it does what
   the one made without divided frames does with q before that, registrations in between included *)
Theorem C98_ctor u ru out0 st junk ds1 ds2 rx1 rx2 q res ev : memory_ok u ru out0 st junk -> greets u ds1 ds2 ->
  ctor u ru out0 1 (ditems_bytes ds1) (ditems_bytes ds2) = Ok (res, ev) -> cut_queries ds1 ds2 rx1 rx2 q ->
  match res with
  | None => ctor u ru out0 1 rx1 rx2 = Ok (None, ev)
  | Some s => exists s', ctor u ru out0 1 rx1 rx2 = Ok (Some s', ev) /\
      forall ls rest, ublox_read (uw_ls s' (u_ls s' ++ map build ls)) rest = ublox_read (uw_ls s (u_ls s ++ map build ls)) (q ++ rest)
  end.
Proof.
  intros (Hu & Hru & Hz & HJ & Hst) (HN & Hok & Hb & HC) EC HQ.
  pose proof (connecting_cut junk u ru out0 st ds1 ds2 rx1 rx2 q res ev HJ Hu Hru Hz Hst HN Hok Hb HC EC HQ) as H.
  destruct (connecting_shows junk u ru out0 st ds1 ds2 res ev HJ Hu Hru Hz Hst HN Hok Hb HC EC) as (n & t & sx & Q1 & _). destruct res as [s|].
  - destruct H as (HI & x & r & HX & H). rewrite Q1 in H. cbn [bind] in H. exists (late s x r). split; [exact (connecting_is_ctor _ _ _ _ _ _ _ _ _ _ _ H)|]. intros ls rest.
    destruct HI as (I1 & I2 & I3 & I4). change (u_ls (late s x r)) with (u_ls s). set (S := uw_ls s (u_ls s ++ map build ls)).
    destruct (creeps_self T_NONE (l0 :: ls) s q x r S HX) as [A _]; [|reflexivity|reflexivity|].
    { split; [exact I1|]. split; [unfold S; cbn [uw_ls u_ls]; rewrite I2; reflexivity|]. split; [exact I3|exact I4]. }
    rewrite ublox_read_app, A. cbn [bind app]. change (uw_ls (late s x r) (u_ls s ++ map build ls)) with (late S x r). destruct (ublox_read (late S x r) rest) as [[s2 e2]|k]; reflexivity.
  - rewrite Q1 in H. exact (connecting_is_ctor _ _ _ _ _ _ _ _ _ _ _ H).
Qed.
Print Assumptions C98_ctor.
(* the programs run as if q had come after the registration: what is printed, returned and sent is the same *)
Theorem C98_programs w u ru out0 st ds1 ds2 rx1 rx2 q res ev : memory_ok u ru out0 st (si_junk w) -> greets u ds1 ds2 ->
  ctor u ru out0 1 (ditems_bytes ds1) (ditems_bytes ds2) = Ok (res, ev) -> cut_queries ds1 ds2 rx1 rx2 q ->
  base_main w u ru out0 (nav_init st) rx1 rx2 = base_main (early q w) u ru out0 (nav_init st) (ditems_bytes ds1) (ditems_bytes ds2) /\
  rover_main w u ru out0 (nav_init st) rx1 rx2 = rover_main (early q w) u ru out0 (nav_init st) (ditems_bytes ds1) (ditems_bytes ds2).
Proof.
  intros (Hu & Hru & Hz & HJ & Hst) (HN & Hok & Hb & HC) EC HQ. split.
  - apply (main_cut base_rest w u ru out0 st ds1 ds2 rx1 rx2 q res ev); try assumption. intros s n x r. apply base_rest_late.
  - apply (main_cut rover_rest w u ru out0 st ds1 ds2 rx1 rx2 q res ev); try assumption. intros s n x r. apply rover_rest_late.
Qed.
Print Assumptions C98_programs.
(* base from the start of main to its end, cut anywhere: during the queries, at the registration, at the configuration (p), at the end (tail) *)
Theorem C98_base u ru out0 st w rx1 rx2 ds1 ds2 q s e0 ds0 p l tail s0 s1 e1 s2 e2 s3 e3 xs0 xs : memory_ok u ru out0 st (si_junk w) -> greets u ds1 ds2 ->
  ctor u ru out0 1 (ditems_bytes ds1) (ditems_bytes ds2) = Ok (Some s, e0) -> cut_queries ds1 ds2 rx1 rx2 q ->
  si_udp w = true -> q ++ si_before w = ditems_bytes ds0 ++ p -> arrive l tail (map Port p ++ si_after w) ->
  s0 = ublox_register s (build (mkListener 2 [(0x01, 0x3B); (0x01, 0x07)])) -> no_rtcm ds0 -> meets s0 ds0 -> Forall2 svin_payload (dframes_of 0x01 0x3B ds0) xs0 ->
  ublox_read s0 (ditems_bytes ds0) = Ok (s1, e1) -> unfinished T_NONE (prev (u_ubx s1)) p -> config_base s1 3 true = Ok (s2, e2) ->
  meets s2 (port_frames l) -> unfinished T_BASE (ditems_last (prev (u_ubx s2)) (port_frames l)) tail -> datagrams_ok l ->
  Forall2 svin_payload (dframes_of 0x01 0x3B (port_frames l)) xs -> ublox_read s2 (ditems_bytes (port_frames l)) = Ok (s3, e3) ->
  exists sx n0 n1 n3 t0 t1 t3 ev, base_main w u ru out0 (nav_init st) rx1 rx2 = Ok (mkRun (Returns 0) (t0 ++ t1 ++ t3 ++ newline ++ line "quitting") "", ev) /\
    starting (si_junk w) (ublox_blank u ru out0 1) (nav_init st) ds1 ds2 sx n0 t0 /\ u_ubx s = u_ubx sx /\
    shows (si_junk w) false base_display s0 n0 (map FromPort ds0) s1 n1 t1 /\ shows (si_junk w) false base_display s2 n1 l s3 n3 t3 /\
    ser_of ev = queries ds1 ++ setup_writes (major (u_ubx s)) ++ usb_rtcm_rates 1 ++ stationary_writes (u_out s1) /\ rtk_of ev = forwarded 3 (port_frames l).
Proof.
  intros HM HG EC HQ EU EB HA E0 HN A HX0 E1 HC E2 B HU Hn HX E3. rewrite (proj1 (C98_programs w u ru out0 st ds1 ds2 rx1 rx2 q _ _ HM HG EC HQ)).
  exact (C97_base u ru out0 st (early q w) ds1 ds2 s e0 ds0 p l tail s0 s1 e1 s2 e2 s3 e3 xs0 xs HM HG EC EU EB HA E0 HN A HX0 E1 HC E2 B HU Hn HX E3).
Qed.
Print Assumptions C98_base.
Theorem C98_rover u ru rd out0 st w rx1 rx2 ds1 ds2 q s e0 ds0 p l tail s0 s1 e1 s2 e2 s3 e3 xs0 xs : memory_ok u ru out0 st (si_junk w) -> runinit_ok rd -> greets u ds1 ds2 ->
  ctor u ru out0 1 (ditems_bytes ds1) (ditems_bytes ds2) = Ok (Some s, e0) -> cut_queries ds1 ds2 rx1 rx2 q ->
  RReach rd (si_dbg w) -> rtcm_parsing (si_dbg w) = false -> si_udp w = true -> q ++ si_before w = ditems_bytes ds0 ++ p -> arrive l tail (map Port p ++ si_after w) ->
  s0 = ublox_register s (build (mkListener 2 [(0x01, 0x3C)])) -> no_rtcm ds0 -> meets s0 ds0 -> Forall2 rel_payload (dframes_of 0x01 0x3C ds0) xs0 ->
  ublox_read s0 (ditems_bytes ds0) = Ok (s1, e1) -> unfinished T_NONE (prev (u_ubx s1)) p -> config_rover s1 3 = Ok (s2, e2) ->
  no_rtcm (port_frames l) -> meets s2 (port_frames l) -> unfinished T_ROVER (ditems_last (prev (u_ubx s2)) (port_frames l)) tail -> datagrams_ok l ->
  Forall2 rel_payload (dframes_of 0x01 0x3C (port_frames l)) xs -> ublox_read s2 (ditems_bytes (port_frames l)) = Ok (s3, e3) ->
  exists sx n0 n1 n3 t0 t1 t3 ev, rover_main w u ru out0 (nav_init st) rx1 rx2 = Ok (mkRun (Returns 0) (t0 ++ t1 ++ t3 ++ newline ++ line "quitting") "", ev) /\
    starting (si_junk w) (ublox_blank u ru out0 1) (nav_init st) ds1 ds2 sx n0 t0 /\ u_ubx s = u_ubx sx /\
    shows (si_junk w) false rover_display s0 n0 (map FromPort ds0) s1 n1 t1 /\ shows (si_junk w) true rover_display s2 n1 l s3 n3 t3 /\
    ser_of ev = queries ds1 ++ setup_writes (major (u_ubx s)) ++ usb_rtcm_rates 0 ++ map ritems_bytes (net_frames l) /\ rtk_of ev = [].
Proof.
  intros HM Hrd HG EC HQ HD HDp EU EB HA E0 HN A HX0 E1 HC E2 HN1 B HU Hn HX E3. rewrite (proj2 (C98_programs w u ru out0 st ds1 ds2 rx1 rx2 q _ _ HM HG EC HQ)).
  exact (C97_rover u ru rd out0 st (early q w) ds1 ds2 s e0 ds0 p l tail s0 s1 e1 s2 e2 s3 e3 xs0 xs HM Hrd HG EC HD HDp EU EB HA E0 HN A HX0 E1 HC E2 HN1 B HU Hn HX E3).
Qed.
Print Assumptions C98_rover.

(* ---------------------------------------------------------------- cases: the version reply is divided by the end of the first query, a report by the end of the second *)
Definition fv : list Z := ditem_bytes (DUbx (Good 10 4 monver_pl)).
Definition cw : site := mkSite junk0 (rtcm_init ru0) true (skipn 5 fm ++ [7] ++ firstn 9 fm) (si_after mw).
Example C98_hypotheses : cut_queries g1 g2 ([7] ++ firstn 11 fv) (skipn 11 fv ++ [9] ++ firstn 5 fm) (firstn 5 fm) /\
  firstn 5 fm ++ si_before cw = ditems_bytes [DUbx (Good 1 0x3C (fx x1)); DNoise 7] ++ firstn 9 fm.
Proof.
  assert (HO : forall before k d, ditem_ok before d -> no_rtcm [d] -> forallb (fun b => (0 <=? b) && (b <? 256)) (ditem_bytes d) = true -> skipn k (ditem_bytes d) <> [] -> unfinished T_NONE before (firstn k (ditem_bytes d))).
  { intros before k d H1 H2 H3 H4. right. exists d, (skipn k (ditem_bytes d)). split; [right; exact H2|]. split; [exact H1|]. split; [apply bytes_ok_dec; exact H3|]. split; [exact H4|symmetry; apply firstn_skipn]. }
  split; [|vm_compute; reflexivity]. exists (firstn 11 fv). split; [reflexivity|]. split.
  - apply (HO _ 11%nat (DUbx (Good 10 4 monver_pl))); [cbn [ditem_ok item_ok]; repeat split; try lia; vm_compute; congruence|intros it [X|[]]; discriminate X|vm_compute; reflexivity|vm_compute; discriminate].
  - change (existsb is_ver g1) with false. cbv iota. split; [vm_compute; reflexivity|].
    apply (HO _ 5%nat (DUbx (Good 1 0x3C (fx x1)))); [cbn [ditem_ok item_ok]; repeat split; try lia; vm_compute; congruence|intros it [X|[]]; discriminate X|vm_compute; reflexivity|vm_compute; discriminate].
Qed.
Example C98_case :
  rover_main cw u0 ru0 out00 (nav_init st0) ([7] ++ firstn 11 fv) (skipn 11 fv ++ [9] ++ firstn 5 fm) = rover_main (early (firstn 5 fm) cw) u0 ru0 out00 (nav_init st0) (ditems_bytes g1) (ditems_bytes g2) /\
  ran (rover_main cw u0 ru0 out00 (nav_init st0) ([7] ++ firstn 11 fv) (skipn 11 fv ++ [9] ++ firstn 5 fm)) = Some (Returns 0,
    (greeting ++ "RTK, Moving Base , Floating " ++ nl ++ "valid relative position components " ++ nl ++ "tow: 259200 relNED: -1234, 567, 89, Distance: 1361" ++ nl
      ++ bad_crc_line ++ "RTK, Moving Base , Floating " ++ nl ++ "valid relative position components " ++ nl ++ "tow: 259200 relNED: -1234, 567, 89, Distance: 1361" ++ nl ++ nl ++ "quitting" ++ nl)%string, [], 172%nat).
Proof. split; vm_compute; reflexivity. Qed.
