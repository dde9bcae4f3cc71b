(* C85: which streams a UBLOX object survives. *)
From Verif Require Import Base UbxSpec UbxModel UbxProofs UbxStream UbxMain UbxMore UbxHist UbxApi
  UbxTx UbxTxSpec UbxTxApi CrcSpec RtcmModel RtcmSpec RtcmProofs RtcmApi UbloxModel UbloxSpec UbloxProofs UbloxApi UbloxThm
  BitModel UtcModel UtcSpec Dbl NavModel NavSpec NavGpsSpec NavObj NavGpsThm NavDev NavSafe DeviceSafe.
From Verif Require Import UbxEx Properties_Rtcm Properties_Ublox Properties_NavGps Properties_NavGal Properties_NavDev Properties_Wire.

(* Any constructed object, in any mode, between frames, whose parser has so far been given only calm messages and times
   (NavSafe: before 2038 and no Galileo satellite 0): a stream ds of noise without D3, UBX frames (good, damaged or
   oversized) and, in base mode, RTCM frames of up to 1018 payload bytes, in which no MON-VER reply occurs and every
   RXM-SFRBX is calm, is processed completely, the calls and writes are exactly those of the frames, and the object is
   again between frames, so that the same holds for whatever comes next. *)
Theorem C85_stream_processed junk u ru k s n nid ls ds : uninit_ok u -> runinit_ok ru -> junk_ok junk ->
  UReach u ru k s -> calm_parser junk n ->
  Forall listener_ok ls -> (forall l, In l ls -> lid l <> nid) -> u_ls s = map build (mkListener nid [(0x02, 0x13)] :: ls) ->
  parsing_message (u_ubx s) = false -> rtcm_parsing (u_rtcm s) = false ->
  ditems_ok (prev (u_ubx s)) ds -> bytes_ok (ditems_bytes ds) -> (u_type s = T_BASE \/ no_rtcm ds) ->
  (forall pl, ~ In (DUbx (Good 10 4 pl)) ds) -> (forall m, In m (dsfr_msgs (inbuf (u_ubx s)) ds) -> calm (NMsg m)) ->
  exists s' n' v, dev_read junk nid s n (ditems_bytes ds) =
      Ok (s', n', ditems_events (mkListener nid [(0x02, 0x13)] :: ls) k (u_rtk s) (inbuf (u_ubx s)) ds, v) /\
    nav_run junk n (map NMsg (dsfr_msgs (inbuf (u_ubx s)) ds)) = Ok (n', v) /\
    UReach u ru k s' /\ calm_parser junk n' /\ u_ls s' = u_ls s /\ u_type s' = u_type s /\
    parsing_message (u_ubx s') = false /\ rtcm_parsing (u_rtcm s') = false.
Proof. exact (device_stream junk u ru k s n nid ls ds). Qed.
Print Assumptions C85_stream_processed.
(* nor does it fail anywhere inside such a stream *)
Theorem C85_never_faults junk u ru k s n nid ls ds bs rest : uninit_ok u -> runinit_ok ru -> junk_ok junk ->
  UReach u ru k s -> calm_parser junk n ->
  Forall listener_ok ls -> (forall l, In l ls -> lid l <> nid) -> u_ls s = map build (mkListener nid [(0x02, 0x13)] :: ls) ->
  parsing_message (u_ubx s) = false -> rtcm_parsing (u_rtcm s) = false ->
  ditems_ok (prev (u_ubx s)) ds -> bytes_ok (ditems_bytes ds) -> (u_type s = T_BASE \/ no_rtcm ds) ->
  (forall pl, ~ In (DUbx (Good 10 4 pl)) ds) -> (forall m, In m (dsfr_msgs (inbuf (u_ubx s)) ds) -> calm (NMsg m)) ->
  bs ++ rest = ditems_bytes ds -> exists s' n' ev v, dev_read junk nid s n bs = Ok (s', n', ev, v).
Proof. exact (device_prefix junk u ru k s n nid ls ds bs rest). Qed.
Print Assumptions C85_never_faults.
(* the limit of 1018 is real: a base that receives a frame header announcing 1019 to 1023 bytes (1023 is legal RTCM)
   writes past its buffer at the 1025th byte, whatever the bytes are *)
Theorem C85_long_corrections_overrun u ru n s h1 h2 q : uninit_ok u -> runinit_ok ru -> UReach u ru n s -> u_type s = T_BASE ->
  parsing_message (u_ubx s) = false -> rtcm_parsing (u_rtcm s) = false ->
  bytes_ok ([0xD3; h1; h2] ++ q) -> 1019 <= rtcm_len h1 h2 <= 1023 -> 1022 <= Zlen q ->
  ublox_read s ([0xD3; h1; h2] ++ q) = UB UB_oob_write.
Proof. exact (long_frame_base u ru n s h1 h2 q). Qed.
Print Assumptions C85_long_corrections_overrun.

(* ---------------------------------------------------------------- examples *)
Definition sds : list ditem := [DNoise 0x24; DUbx (Good 2 0x13 (sfr_pl 2 19 (p0 ++ [0]))); DNoise 10; DUbx (Good 1 7 [1; 2; 3]); DUbx (Oversize 9 9 65535)].
Definition sdb : list ditem := sds ++ [DRtcm (RGood rf0); DUbx (Good 1 7 [4])].
Lemma sds_calm : forall m, In m (dsfr_msgs (inbuf (u_ubx dv)) sds) -> calm (NMsg m).
Proof.
  assert (E : dsfr_msgs (inbuf (u_ubx dv)) sds = [gp p0]) by (vm_compute; reflexivity).
  intros m Hm. rewrite E in Hm. destruct Hm as [<-|[]].
  assert (W : forall g sv ws, 0 <= g < 256 -> 0 <= sv < 256 -> length ws = 10%nat -> msg_ok (msg g sv ws)) by (intros; apply words_ok; assumption).
  split; [apply W; [lia|lia|reflexivity]|]. split; [intros X; vm_compute in X; congruence|].
  intros _. split; [vm_compute; congruence|intros _ _; vm_compute; congruence].
Qed.
Lemma nav1_calm : calm_parser junk0 nav1.
Proof. exists st0, [NEcb 7], []. split; [reflexivity|]. split; [intros o [<-|[]]; exact I|reflexivity]. Qed.
(* every hypothesis of C85_stream_processed, for a rover-less object and for a base *)
Example C85_hypotheses : UReach u0 ru0 0 dv /\ calm_parser junk0 nav1 /\ Forall listener_ok [l9] /\ (forall l, In l [l9] -> lid l <> 77) /\
  u_ls dv = map build (mkListener 77 [(2, 0x13)] :: [l9]) /\ parsing_message (u_ubx dv) = false /\ rtcm_parsing (u_rtcm dv) = false /\
  ditems_ok (prev (u_ubx dv)) sds /\ bytes_ok (ditems_bytes sds) /\ no_rtcm sds /\ (forall pl, ~ In (DUbx (Good 10 4 pl)) sds).
Proof.
  split; [exact d1_reach|]. split; [exact nav1_calm|]. split; [constructor; [exact l9_ok|constructor]|]. split; [intros l [<-|[]]; discriminate|].
  split; [vm_compute; reflexivity|]. split; [vm_compute; reflexivity|]. split; [vm_compute; reflexivity|]. split.
  { cbn [sds ditems_ok ditem_ok item_ok ditem_last is_noise]. repeat split; try lia; try (vm_compute; congruence). }
  split; [apply bytes_ok_dec; vm_compute; reflexivity|]. split.
  - intros it H. cbn [sds In] in H. repeat (destruct H as [H|H]; [discriminate|]). exact H.
  - intros pl H. cbn [sds In] in H. repeat (destruct H as [H|H]; [discriminate|]). exact H.
Qed.
Example C85_case :
  option_map (fun ev => (length (ubx_of ev), length (rtk_of ev))) (evs (ublox_read dv (ditems_bytes sds))) = Some (2%nat, 0%nat) /\
  option_map (fun ev => (length (ubx_of ev), length (rtk_of ev))) (evs (ublox_read d2 (ditems_bytes sdb))) = Some (3%nat, 1%nat).
Proof. split; vm_compute; reflexivity. Qed.
(* each exclusion is needed: outside base mode a D3 among the noise can overrun the correction buffer as well; a Galileo
   message of satellite 0 writes outside the store *)
Example C85_exclusions : ublox_read dv ([0xD3; 3; 0xFF] ++ repeat 0 1022) = UB UB_oob_write /\
  dev_read junk0 77 dv nav1 (ditems_bytes [DUbx (Good 2 0x13 (sfr_pl 2 0 (p0 ++ [0])))]) = UB UB_oob_write /\
  ublox_read d2 ([0xD3; 3; 0xFB] ++ repeat 0 1022) = UB UB_oob_write.
Proof. repeat split; vm_compute; reflexivity. Qed.
