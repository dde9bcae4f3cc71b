(* C47 (where the forwarded frames come from) and C68 (base, link and rover together).  woven fs bs (UbloxFwd.v): the frames fs are
   disjoint contiguous pieces of the byte string bs, in this order.  link sent arrived: every datagram that arrived was sent
   (it may be lost, repeated or overtaken, but not altered). *)
From Verif Require Import Base UbxSpec UbxModel UbxProofs UbxStream UbxMain UbxMore UbxHist UbxApi UbxEx
  UbxTx UbxTxSpec UbxTxApi CrcSpec CrcErr RtcmModel RtcmSpec RtcmProofs RtcmApi Properties_Rtcm
  UbloxModel UbloxSpec UbloxProofs UbloxApi UbloxThm UbloxCfg Properties_Ublox UbloxFwd.

(* ---- C47 *)
Theorem C47_forwarded_frames_were_received u ru n s bs s' ev :
  uninit_ok u -> runinit_ok ru -> UReach u ru n s -> u_type s = T_BASE -> rtcm_parsing (u_rtcm s) = false -> bytes_ok bs ->
  ublox_read s bs = Ok (s', ev) ->
  exists fs, woven fs bs /\ Forall (fun f => exists m, 1 <= m <= 1018 /\ rtcm_frame m f) fs /\
    rtk_of ev = flat_map (fun f => repeat (u_rtk s, f) n) fs.
Proof. exact (forwarded_received u ru n s bs s' ev). Qed.
Print Assumptions C47_forwarded_frames_were_received.
Example C47_received_case : woven [rf0; rf0] ([1; 2] ++ rf0 ++ ubx_frame 1 7 [0xD3; 0; 4] ++ rf0 ++ [0xD3]) /\
  option_map rtk_of (evs (ublox_read d2 ([1; 2] ++ rf0 ++ ubx_frame 1 7 [0xD3; 0; 4] ++ rf0 ++ [0xD3]))) = Some [(5, rf0); (5, rf0)].
Proof. split; [constructor; constructor; constructor|vm_compute; reflexivity]. Qed.

(* ---- C68 *)
(* s: an object in base mode, idle.  d: the private parser of the rover's correction callback, idle (as after config_rover).
   map snd (rtk_of ev): the datagrams written to the correction interface while bs was received. *)
Theorem C68_base_to_rover u ru n s bs s' ev ru' d arrived :
  uninit_ok u -> runinit_ok ru -> UReach u ru n s -> u_type s = T_BASE -> rtcm_parsing (u_rtcm s) = false -> bytes_ok bs ->
  ublox_read s bs = Ok (s', ev) ->
  runinit_ok ru' -> RReach ru' d -> rtcm_parsing d = false -> link (map snd (rtk_of ev)) arrived ->
  exists d', rover_chunks d arrived = Ok (d', map EvSer arrived) /\ rtcm_parsing d' = false /\
    forall w, In w arrived -> (exists m, 1 <= m <= 1018 /\ rtcm_frame m w) /\ Zlen w <= 1024 /\ exists a c, bs = a ++ w ++ c.
Proof. exact (base_to_rover u ru n s bs s' ev ru' d arrived). Qed.
Print Assumptions C68_base_to_rover.
(* nothing lost: the rover's receiver gets exactly the good frames of the stream, once each, in order *)
Theorem C68_perfect_link u ru s ls ds s' ev ru' d :
  uninit_ok u -> runinit_ok ru -> UReach u ru 1 s -> u_type s = T_BASE -> Forall listener_ok ls -> u_ls s = map build ls ->
  parsing_message (u_ubx s) = false -> rtcm_parsing (u_rtcm s) = false -> ditems_ok (prev (u_ubx s)) ds -> bytes_ok (ditems_bytes ds) ->
  ublox_read s (ditems_bytes ds) = Ok (s', ev) -> runinit_ok ru' -> RReach ru' d -> rtcm_parsing d = false ->
  exists d', rover_chunks d (map snd (rtk_of ev)) =
      Ok (d', map EvSer (flat_map (fun i => match i with DRtcm (RGood f) => [f] | _ => [] end) ds)) /\ rtcm_parsing d' = false.
Proof. exact (perfect_link u ru s ls ds s' ev ru' d). Qed.
Print Assumptions C68_perfect_link.
(* the stream of C45_case; one of its two frames arrives twice *)
Example C68_case : UReach u0 ru0 1 d2 /\ u_type d2 = T_BASE /\ rtcm_parsing (u_rtcm d2) = false /\ RReach ru0 (rtcm_init ru0) /\
  rtcm_parsing (rtcm_init ru0) = false /\
  exists s' ev, ublox_read d2 (ditems_bytes ds0) = Ok (s', ev) /\ map snd (rtk_of ev) = [rf0; rf0] /\ link (map snd (rtk_of ev)) [rf0; rf0; rf0] /\
  evs (let* (d, e) := rover_chunks (rtcm_init ru0) [rf0; rf0; rf0] in Ok (d2, e)) = Some [EvSer rf0; EvSer rf0; EvSer rf0].
Proof.
  destruct d2_facts as (H1 & _ & _ & _ & H2). split; [exact d2_reach|]. split; [exact H1|]. split; [exact H2|]. split; [constructor|]. split; [reflexivity|].
  destruct (ublox_read d2 (ditems_bytes ds0)) as [[s' ev]|k] eqn:E.
  - exists s', ev. split; [reflexivity|].
    assert (EV : option_map (fun e => map snd (rtk_of e)) (evs (ublox_read d2 (ditems_bytes ds0))) = Some [rf0; rf0]) by (vm_compute; reflexivity).
    rewrite E in EV. cbn [evs option_map] in EV. assert (map snd (rtk_of ev) = [rf0; rf0]) as -> by congruence. split; [reflexivity|].
    split; [|vm_compute; reflexivity]. intros w [<-|[<-|[<-|[]]]]; left; reflexivity.
  - exfalso. assert (EV : option_map (fun e => map snd (rtk_of e)) (evs (ublox_read d2 (ditems_bytes ds0))) = Some [rf0; rf0]) by (vm_compute; reflexivity).
    rewrite E in EV. discriminate.
Qed.
