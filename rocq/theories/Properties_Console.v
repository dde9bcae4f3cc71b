(* C86: what the library prints on standard output (ConsoleSpec: line, banner, said, tells, banners, the literal lines;
   Console: ublox_says, ctor_says, rtcm_says model the printf calls of ubx.cpp:549-551, rtcm.cpp:107 and 175, ublox.cpp:38-42). *)
From Coq Require Import String.
From Verif Require Import Base UbxSpec UbxModel UbxProofs UbxStream UbxMain UbxMore UbxHist UbxApi
  UbxTx UbxTxSpec UbxTxApi CrcSpec CrcErr RtcmModel RtcmSpec RtcmProofs RtcmApi UbloxModel UbloxSpec UbloxProofs UbloxApi UbloxThm
  BitModel UtcModel UtcSpec Dbl NavModel NavSpec NavGpsSpec NavObj NavGpsThm NavDev NavSafe DeviceSafe ExShow TextSpec ConsoleSpec Console.
From Verif Require Import UbxEx Properties_Rtcm Properties_Ublox.
Local Open Scope string_scope.
Local Open Scope list_scope.
Local Open Scope Z_scope.

(* any constructed object between frames, any stream of noise without D3, UBX frames and, in base mode, RTCM frames: the text is
   that of the frames in order - the connection banner for a good MON-VER frame, one line for an RTCM frame with a wrong CRC,
   nothing for any other frame, good or damaged *)
Theorem C86_text u ru n s ls ds s' ev : uninit_ok u -> runinit_ok ru -> UReach u ru n s -> Forall listener_ok ls -> u_ls s = map build ls ->
  parsing_message (u_ubx s) = false -> rtcm_parsing (u_rtcm s) = false ->
  ditems_ok (prev (u_ubx s)) ds -> bytes_ok (ditems_bytes ds) -> (u_type s = T_BASE \/ no_rtcm ds) ->
  ublox_read s (ditems_bytes ds) = Ok (s', ev) ->
  exists t, tells s ds t /\ ublox_says s (ditems_bytes ds) = Ok t /\ (forall t', tells s ds t' -> t' = t).
Proof.
  intros Hu Hru HR Hls HL H1 H2 Hok Hb HT E.
  destruct (stream_says (u_type s) ls ds s s' ev HT Hls (reach_idle u ru n s ls Hu Hru HR HL H1 H2) Hok Hb E) as (t & HP & HS).
  exists t. split; [exact HP|]. split; [exact HS|]. intros t' HP'. exact (tells_fun ds s t' t HP' HP).
Qed.
Print Assumptions C86_text.
(* without a version reply: one line per damaged RTCM frame and nothing else *)
Theorem C86_only_damaged_rtcm u ru n s ls ds s' ev : uninit_ok u -> runinit_ok ru -> UReach u ru n s -> Forall listener_ok ls -> u_ls s = map build ls ->
  parsing_message (u_ubx s) = false -> rtcm_parsing (u_rtcm s) = false ->
  ditems_ok (prev (u_ubx s)) ds -> bytes_ok (ditems_bytes ds) -> (u_type s = T_BASE \/ no_rtcm ds) -> existsb is_ver ds = false ->
  ublox_read s (ditems_bytes ds) = Ok (s', ev) ->
  ublox_says s (ditems_bytes ds) = Ok (joined (repeat bad_crc_line (length (filter is_damaged ds)))).
Proof.
  intros Hu Hru HR Hls HL H1 H2 Hok Hb HT HV E.
  destruct (stream_says (u_type s) ls ds s s' ev HT Hls (reach_idle u ru n s ls Hu Hru HR HL H1 H2) Hok Hb E) as (t & HP & HS).
  rewrite HS, (tells_no_version ds s t HV HP). reflexivity.
Qed.
Print Assumptions C86_only_damaged_rtcm.
(* construction, the receiver answering (or not) with complete frames: no retry line if the first wait brings the version,
   one if only the second does, and two, the last of them announcing a third attempt that is never made, if neither does;
   one banner per version reply *)
Theorem C86_connecting u ru out0 nav ds1 ds2 r ev : uninit_ok u -> runinit_ok ru -> Zlen out0 = 2048 -> no_rtcm (ds1 ++ ds2) -> ditems_ok 0 (ds1 ++ ds2) ->
  bytes_ok (ditems_bytes (ds1 ++ ds2)) -> ctor u ru out0 nav (ditems_bytes ds1) (ditems_bytes ds2) = Ok (r, ev) ->
  exists t, ctor_says u ru out0 nav (ditems_bytes ds1) (ditems_bytes ds2) = Ok
    (if existsb is_ver ds1 then t else second_try_line ++ t ++ (if existsb is_ver ds2 then "" else third_try_line))%string /\
    banners (length (filter is_ver (if existsb is_ver ds1 then ds1 else ds2))) t /\
    (r = None <-> existsb is_ver (ds1 ++ ds2) = false).
Proof. exact (ctor_text u ru out0 nav ds1 ds2 r ev). Qed.
Print Assumptions C86_connecting.
(* a stand-alone RTCM reader - on a rover, the object that is fed every correction chunk: one line per frame with a wrong CRC *)
Theorem C86_corrections ru d ls its : runinit_ok ru -> RReach ru d -> rtcm_parsing d = false -> Forall ritem_ok its -> bytes_ok (ritems_bytes its) ->
  rtcm_says ls d (ritems_bytes its) = Ok (joined (map correction_text its)).
Proof. intros Hu HR HP. exact (debug_says ls its d (rreach_idle ru d Hu HR HP)). Qed.
Print Assumptions C86_corrections.
(* "buffer head > payload length" is dead code: whatever bytes an RTCM reader has been given *)
Theorem C86_dead_message u ls s b s' c : runinit_ok u -> RReach u s -> byte_ok b -> rtcm_byte ls s b = Ok (s', c) ->
  rtcm_say s b = Ok "" \/ rtcm_say s b = Ok bad_crc_line.
Proof. exact (rtcm_say_two u ls s b s' c). Qed.
Print Assumptions C86_dead_message.

(* ---------------------------------------------------------------- examples *)
Definition rf_bad : list Z := [0xD3; 0xAC; 2; 0xB5; 0x62; 159; 248; 249].
Lemma rf_bad_item : ritem_ok (RBad rf_bad).
Proof.
  exists 2. split; [lia|]. split; [exists 0xAC, 2, [0xB5; 0x62], [159; 248; 249]; repeat split|].
  assert (Hb : bytes_ok rf_bad) by (repeat constructor; unfold byte_ok; lia).
  intros H. apply block_check_iff in H; [|exact Hb|cbn; lia]. destruct H as (v & E1 & E2). vm_compute in E1. assert (v = v) by reflexivity.
  injection E1 as <-. vm_compute in E2. discriminate.
Qed.
Definition cds : list ditem := [DNoise 1; DRtcm (RBad rf_bad); DUbx (Good 1 7 [1; 2]); DRtcm (RGood rf0); DUbx (Bad 1 7 [1] 0 0); DRtcm (RBad rf_bad)].
Example C86_case : UReach u0 ru0 1 d2 /\ u_type d2 = T_BASE /\ ditems_ok (prev (u_ubx d2)) cds /\ bytes_ok (ditems_bytes cds) /\
  ublox_says d2 (ditems_bytes cds) = Ok (bad_crc_line ++ bad_crc_line)%string.
Proof.
  split; [exact d2_reach|]. split; [apply d2_facts|]. split; [|split; [apply bytes_ok_dec; vm_compute; reflexivity|vm_compute; reflexivity]].
  assert (EP : prev (u_ubx d2) <> 0xB5) by (vm_compute; discriminate). destruct rf0_frame as [Hf _]. pose proof rf_bad_item as HB.
  cbn [ditems_ok ditem_ok cds item_ok is_noise is_rnoise ditem_last].
  split; [split; [lia|lia]|]. split; [split; [exact HB|reflexivity]|].
  split; [split; [split; [reflexivity|vm_compute; split; discriminate]|reflexivity]|].
  split; [split; [exists 2; split; [lia|exact Hf]|reflexivity]|].
  split; [split; [split; [reflexivity|split; [vm_compute; split; discriminate|vm_compute; discriminate]]|reflexivity]|].
  split; [split; [exact HB|reflexivity]|exact I].
Qed.
(* nobody answers; the answer comes in the second wait *)
Example C86_connecting_case :
  ctor_says u0 ru0 out00 77 [1; 2] [3] = Ok (second_try_line ++ third_try_line)%string /\
  ctor_says u0 ru0 out00 77 [1; 2] mv_frame =
    Ok (second_try_line ++ line "Connected:" ++ line "Module: ZED-F9P" ++ line "Protocol Version: 27.11" ++ line "")%string.
Proof. split; vm_compute; reflexivity. Qed.
Example C86_banner_case : banner 27 11 [90; 69; 68; 45; 70; 57; 80; 0; 65]
  (line "Connected:" ++ line "Module: ZED-F9P" ++ line "Protocol Version: 27.11" ++ line "")%string.
Proof.
  exists "ZED-F9P"%string. split; [|reflexivity]. exists [90; 69; 68; 45; 70; 57; 80], [65]. split; [reflexivity|]. split; [|reflexivity].
  cbn. intuition lia.
Qed.
