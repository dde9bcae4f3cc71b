(* C44-C49, C58: class UBLOX.  UReach u ru n s: s is the state of a UBLOX object (uninitialised memory u, ru) after
   construction and any received chunks, config_base / config_rover calls and listener registrations, n of them
   config_base.  Observable events, in order: EvUbx (a got_ubx call), EvSer (a write to the receiver's serial port),
   EvRtk (a write to the correction interface). *)
From Verif Require Import Base UbxSpec UbxModel UbxProofs UbxStream UbxMain UbxMore UbxHist UbxApi UbxEx
  UbxTx UbxTxSpec UbxTxApi CrcSpec CrcErr RtcmModel RtcmSpec RtcmProofs RtcmApi Properties_Rtcm
  UbloxModel UbloxSpec UbloxProofs UbloxApi UbloxThm UbloxCfg.

(* ---- a concrete object: MON-VER answer in the first wait, one more listener, base mode on interface 5 *)
Definition out00 : list Z := repeat 0 (Z.to_nat 2048).
Definition mv_frame : list Z := ubx_frame 10 4 monver_pl.
Definition ust (r : outcome (option ublox * list event)) : ublox :=
  match r with Ok (Some s, _) => s | _ => ublox_blank u0 ru0 out00 77 end.
(* evaluated once, here *)
Definition d0 : ublox := Eval vm_compute in ust (ctor u0 ru0 out00 77 mv_frame []).
Lemma d0_made : exists ev, ctor u0 ru0 out00 77 mv_frame [] = Ok (Some d0, ev). Proof. eexists. vm_compute. reflexivity. Qed.
Definition l9 : listener := mkListener 9 [(1, 7)].
Definition d1 : ublox := ublox_register d0 (build l9).
Definition st_or (d : ublox) (r : outcome (ublox * list event)) : ublox := match r with Ok (s, _) => s | UB _ => d end.
Definition evs (r : outcome (ublox * list event)) : option (list event) := match r with Ok (_, ev) => Some ev | UB _ => None end.
Definition d2 : ublox := Eval vm_compute in st_or d1 (config_base d1 5 true).
Lemma d2_made : exists ev, config_base d1 5 true = Ok (d2, ev). Proof. eexists. vm_compute. reflexivity. Qed.
Lemma ver_bytes : bytes_ok mv_frame. Proof. apply bytes_ok_dec. vm_compute. reflexivity. Qed.
Lemma d0_reach : UReach u0 ru0 0 d0.
Proof. destruct d0_made as [ev E]. apply (U_new u0 ru0 out00 77 mv_frame [] d0 ev); [vm_compute; reflexivity|exact ver_bytes|constructor|exact E]. Qed.
Lemma l9_ok : listener_ok l9. Proof. repeat constructor; cbn; lia. Qed.
Lemma d1_reach : UReach u0 ru0 0 d1. Proof. apply U_listen; [exact d0_reach|exact l9_ok]. Qed.
Lemma d2_reach : UReach u0 ru0 1 d2.
Proof.
  destruct (modes u0 ru0 0 d1 5 true u0_ok ru0_ok d1_reach) as [(s' & ev & E & _ & _ & HR & _) _].
  destruct d2_made as [ev' E']. assert (s' = d2) by congruence. subst s'. exact HR.
Qed.
Lemma d2_facts : u_type d2 = T_BASE /\ u_rtk d2 = 5 /\ u_ls d2 = map build [mkListener 77 [(2, 0x13)]; l9] /\
  parsing_message (u_ubx d2) = false /\ rtcm_parsing (u_rtcm d2) = false.
Proof. vm_compute. auto 10. Qed.

(* ---- C44 *)
Theorem C44_chunking_irrelevant s cs cs' : concat cs = concat cs' -> ublox_chunks s cs = ublox_chunks s cs'.
Proof. exact (chunking s cs cs'). Qed.
Print Assumptions C44_chunking_irrelevant.
Theorem C44_one_read_per_chunk s a b :
  ublox_read s (a ++ b) = (let* (s1, e1) := ublox_read s a in let* (s2, e2) := ublox_read s1 b in Ok (s2, e1 ++ e2)).
Proof. exact (ublox_read_app a b s). Qed.
Print Assumptions C44_one_read_per_chunk.
Example C44_case : evs (ublox_chunks d2 [firstn 3 rf0; []; skipn 3 rf0]) = Some [EvRtk 5 rf0].
Proof. vm_compute. reflexivity. Qed.

(* ---- C45 *)
Theorem C45_base_demultiplexes u ru n s ls ds :
  uninit_ok u -> runinit_ok ru -> UReach u ru n s -> u_type s = T_BASE -> Forall listener_ok ls -> u_ls s = map build ls ->
  parsing_message (u_ubx s) = false -> rtcm_parsing (u_rtcm s) = false ->
  ditems_ok (prev (u_ubx s)) ds -> bytes_ok (ditems_bytes ds) ->
  (exists s', ublox_read s (ditems_bytes ds) = Ok (s', ditems_events ls n (u_rtk s) (inbuf (u_ubx s)) ds) /\
     parsing_message (u_ubx s') = false /\ rtcm_parsing (u_rtcm s') = false /\ u_type s' = T_BASE /\ u_rtk s' = u_rtk s)
  \/ ((exists pl, In (DUbx (Good 10 4 pl)) ds) /\ ublox_read s (ditems_bytes ds) = UB UB_cstring).
Proof. exact (demux_reach u ru n s ls ds). Qed.
Print Assumptions C45_base_demultiplexes.
(* the limit of it: a 0xD3 outside any frame hides the next 5..1023 bytes, whatever they are, from the UBX reader *)
Theorem C45_stray_start_byte_hides_ubx u ru n s h1 h2 q :
  uninit_ok u -> runinit_ok ru -> UReach u ru n s -> u_type s = T_BASE ->
  parsing_message (u_ubx s) = false -> rtcm_parsing (u_rtcm s) = false ->
  bytes_ok ([0xD3; h1; h2] ++ q) -> 1 <= rtcm_len h1 h2 <= 1018 -> Zlen q = rtcm_len h1 h2 + 3 ->
  exists s' ev, ublox_read s ([0xD3; h1; h2] ++ q) = Ok (s', ev) /\ ubx_of ev = [] /\
    parsing_message (u_ubx s') = false /\ rtcm_parsing (u_rtcm s') = false /\ inbuf (u_ubx s') = inbuf (u_ubx s).
Proof. exact (stray_d3 u ru n s h1 h2 q). Qed.
Print Assumptions C45_stray_start_byte_hides_ubx.
(* rf0's payload is B5 62; the UBX frame's payload contains D3 *)
Definition ds0 : list ditem := [DNoise 0x62; DRtcm (RGood rf0); DUbx (Good 1 7 [0xD3; 0; 4]); DRtcm (REmpty 0); DUbx (Bad 1 7 [1] 0 0); DRtcm (RGood rf0)].
(* the first bytes of the message only, to keep the case readable *)
Definition cut (e : event) : event := match e with EvUbx c => EvUbx (mkCall (c_lid c) (c_cls c) (c_id c) (firstn 4 (c_msg c))) | _ => e end.
Example C45_case : ditems_ok (prev (u_ubx d2)) ds0 /\ bytes_ok (ditems_bytes ds0) /\
  option_map (map cut) (evs (ublox_read d2 (ditems_bytes ds0))) = Some [EvRtk 5 rf0; EvUbx (mkCall 9 1 7 [0xD3; 0; 4; 65]); EvRtk 5 rf0].
Proof.
  split; [|split; [apply bytes_ok_dec; vm_compute; reflexivity|vm_compute; reflexivity]].
  assert (EP : prev (u_ubx d2) <> 0xB5) by (vm_compute; discriminate).
  cbn [ditems_ok ditem_ok ds0 item_ok ritem_ok is_noise is_rnoise ditem_last].
  destruct rf0_frame as [Hf _]. repeat split; try lia; try (exists 2; split; [lia|exact Hf]).
  - change (Zlen [0xD3; 0; 4]) with 3. lia.
  - change (Zlen [0xD3; 0; 4]) with 3. lia.
  - change (Zlen [1]) with 1. lia.
  - change (Zlen [1]) with 1. lia.
  - vm_compute. discriminate.
Qed.
Example C45_stray_case : rtcm_len 0 8 = 8 /\
  evs (ublox_read d2 ([0xD3; 0; 8] ++ ubx_frame 1 7 [1; 2; 3])) = Some [].
Proof. split; [reflexivity|vm_compute; reflexivity]. Qed.

(* ---- C46 *)
Theorem C46_ubx_sees_every_byte u ru n s bs :
  uninit_ok u -> runinit_ok ru -> UReach u ru n s -> u_type s <> T_BASE -> bytes_ok bs ->
  (exists s' outs, ublox_read s bs = Ok (s', map EvUbx (flat_map fst outs)) /\ feed (u_ls s) (u_ubx s) bs = Ok (u_ubx s', outs))
  \/ (ublox_read s bs = UB UB_cstring /\ feed (u_ls s) (u_ubx s) bs = UB UB_cstring)
  \/ ublox_read s bs = UB UB_oob_write.
Proof. exact (nonbase_reach u ru n s bs). Qed.
Print Assumptions C46_ubx_sees_every_byte.
(* the third case is the correction reader's own buffer overrun (C20); it needs more than 1024 bytes *)
Theorem C46_short_streams_safe u ru n s bs :
  uninit_ok u -> runinit_ok ru -> UReach u ru n s -> u_type s <> T_BASE -> bytes_ok bs ->
  rtcm_parsing (u_rtcm s) = false -> Zlen bs <= 1024 -> ublox_read s bs <> UB UB_oob_write.
Proof. exact (nonbase_short u ru n s bs). Qed.
Print Assumptions C46_short_streams_safe.
(* one valid RTCM frame silences the object for good *)
Theorem C46_rtcm_payload_swallows_ubx u ru n s bs :
  uninit_ok u -> runinit_ok ru -> UReach u ru n s -> u_type s <> T_BASE -> bytes_ok bs ->
  parsing_message (u_ubx s) = false -> rtcm_parsing (u_rtcm s) = false ->
  exists s', ublox_read s (swallow_frame ++ bs) = Ok (s', []).
Proof. exact (swallow u ru n s bs). Qed.
Print Assumptions C46_rtcm_payload_swallows_ubx.
Example C46_swallow_is_valid : rtcm_frame 6 swallow_frame.
Proof.
  assert (Hb : bytes_ok swallow_frame) by (apply bytes_ok_dec; reflexivity). split.
  - exists 0, 6, [0xB5; 0x62; 1; 7; 0; 0], [0xA6; 0xBA; 0x4D]. repeat split.
  - apply block_check_iff; [exact Hb|cbn; lia|]. eexists. split; [vm_compute; reflexivity|vm_compute; reflexivity].
Qed.
Example C46_case : UReach u0 ru0 0 d1 /\ u_type d1 <> T_BASE /\ parsing_message (u_ubx d1) = false /\ rtcm_parsing (u_rtcm d1) = false /\
  evs (ublox_read d1 (swallow_frame ++ ubx_frame 1 7 [1; 2])) = Some [] /\
  option_map (map cut) (evs (ublox_read d1 (ubx_frame 1 7 [1; 2]))) = Some [EvUbx (mkCall 9 1 7 [1; 2; 65; 65])].
Proof.
  split; [exact d1_reach|]. split; [vm_compute; discriminate|]. split; [vm_compute; reflexivity|].
  split; [vm_compute; reflexivity|]. split; vm_compute; reflexivity.
Qed.

(* ---- C47 *)
Theorem C47_forwarding u ru n s bs s' ev :
  uninit_ok u -> runinit_ok ru -> UReach u ru n s -> bytes_ok bs -> ublox_read s bs = Ok (s', ev) ->
  (u_type s <> T_BASE -> rtk_of ev = []) /\
  exists fs, Forall good_rtcm fs /\ rtk_of ev = flat_map (fun f => repeat (u_rtk s, f) n) fs.
Proof. exact (forward_sound u ru n s bs s' ev). Qed.
Print Assumptions C47_forwarding.
Theorem C47_every_frame_n_times u ru n s f m :
  uninit_ok u -> runinit_ok ru -> UReach u ru n s -> u_type s = T_BASE ->
  parsing_message (u_ubx s) = false -> rtcm_parsing (u_rtcm s) = false -> 1 <= m <= 1018 -> rtcm_frame m f -> bytes_ok f ->
  exists s', ublox_read s f = Ok (s', repeat (EvRtk (u_rtk s) f) n).
Proof. exact (good_frame_forwarded u ru n s f m). Qed.
Print Assumptions C47_every_frame_n_times.
Theorem C47_modes u ru n s i st :
  uninit_ok u -> runinit_ok ru -> UReach u ru n s ->
  (exists s' ev, config_base s i st = Ok (s', ev) /\ u_type s' = T_BASE /\ u_rtk s' = i /\ UReach u ru (S n) s' /\ u_ls s' = u_ls s /\
     u_ubx s' = u_ubx s /\ u_rtcm s' = u_rtcm s) /\
  (exists s' ev, config_rover s i = Ok (s', ev) /\ u_type s' = T_ROVER /\ u_rtk s' = i /\ UReach u ru n s' /\ u_ls s' = u_ls s /\
     u_ubx s' = u_ubx s /\ u_rtcm s' = u_rtcm s).
Proof. exact (modes u ru n s i st). Qed.
Print Assumptions C47_modes.
Theorem C47_reading_never_sends u ru n s bs s' ev :
  uninit_ok u -> runinit_ok ru -> UReach u ru n s -> bytes_ok bs -> ublox_read s bs = Ok (s', ev) -> ser_of ev = [].
Proof. exact (reads_never_send u ru n s bs s' ev). Qed.
Print Assumptions C47_reading_never_sends.
Example C47_case : evs (ublox_read (st_or d2 (config_base d2 6 false)) rf0) = Some [EvRtk 6 rf0; EvRtk 6 rf0].
Proof. vm_compute. reflexivity. Qed.

(* ---- C48 *)
Theorem C48_verbatim ru d cs :
  runinit_ok ru -> RReach ru d -> rtcm_parsing d = false -> bytes_ok (concat cs) ->
  (exists d', rover_chunks d cs = Ok (d', map EvSer cs)) \/
  (rover_chunks d cs = UB UB_oob_write /\
   exists its h1 h2 q, concat cs = ritems_bytes its ++ [0xD3; h1; h2] ++ q /\ Forall ritem_ok its /\
     1019 <= rtcm_len h1 h2 <= 1023 /\ 1022 <= Zlen q).
Proof. exact (rover_verbatim ru d cs). Qed.
Print Assumptions C48_verbatim.
(* the second case is unavoidable: the callback's private debug parser is overrun by a long correction frame *)
Theorem C48_debug_parser_overflow ru d cs :
  runinit_ok ru -> RReach ru d -> rtcm_parsing d = false -> bytes_ok (concat cs) ->
  (exists its h1 h2 q, concat cs = ritems_bytes its ++ [0xD3; h1; h2] ++ q /\ Forall ritem_ok its /\
     1019 <= rtcm_len h1 h2 <= 1023 /\ 1022 <= Zlen q) -> rover_chunks d cs = UB UB_oob_write.
Proof. exact (rover_overflow ru d cs). Qed.
Print Assumptions C48_debug_parser_overflow.
(* The receiver is represented by this library's own UBX reader.  A correction chunk between the first two of the nine
   writes of a command makes it miss the command; a schedule that keeps the nine writes adjacent does not. *)
Theorem C48_interleaving_loses_command u s ls cls id pl c :
  uninit_ok u -> Reach u s -> parsing_message s = false -> Forall listener_ok ls ->
  bytes_ok (ubx_frame cls id pl) -> bytes_ok c -> c <> [] -> hd 0 c <> 0x62 ->
  ~ In 0xB5 c -> ~ In 0xB5 (tl (ubx_frame cls id pl)) ->
  exists w s', shuffle (frame_writes cls id pl) [c] w /\
    feed (map build ls) s (concat w) = Ok (s', repeat ([], false) (length (concat w))) /\ parsing_message s' = false.
Proof. exact (interleaved_lost u s ls cls id pl c). Qed.
Print Assumptions C48_interleaving_loses_command.
Theorem C48_adjacent_writes_received u s ls cls id pl a b :
  uninit_ok u -> Reach u s -> parsing_message s = false -> Forall listener_ok ls -> byte_ok cls -> byte_ok id -> ubx_payload_ok pl -> (cls, id) <> (10, 4) ->
  bytes_ok (concat a) -> no_sync (prev s :: concat a) -> bytes_ok (concat b) -> no_sync (ck_b_of (ubx_body cls id pl) :: concat b) ->
  shuffle (frame_writes cls id pl) (a ++ b) (a ++ frame_writes cls id pl ++ b) /\
  exists s' outs d, feed (map build ls) s (concat (a ++ frame_writes cls id pl ++ b)) = Ok (s', outs) /\
    deliveries outs = [d] /\ delivered ls (cls, id, pl) d.
Proof. exact (adjacent_received u s ls cls id pl a b). Qed.
Print Assumptions C48_adjacent_writes_received.
Example C48_case : ~ In 0xB5 (tl (ubx_frame 6 1 [2; 0x15; 1])) /\ bytes_ok (ubx_frame 6 1 [2; 0x15; 1]) /\ Reach u0 s0 /\ parsing_message s0 = false /\
  (let* (_, ev) := rover_cb (rtcm_init ru0) rf0 in Ok ev) = Ok [EvSer rf0].
Proof.
  split; [vm_compute; intuition discriminate|]. split; [apply bytes_ok_dec; vm_compute; reflexivity|]. split; [exact s0_reach|].
  split; [apply s0_facts|vm_compute; reflexivity].
Qed.

(* ---- C49: rx1, rx2 are the bytes received during the first and the second wait *)
Theorem C49_construction u ru out0 nav rx1 rx2 r ev :
  uninit_ok u -> runinit_ok ru -> Zlen out0 = 2048 -> bytes_ok rx1 -> bytes_ok rx2 ->
  ctor u ru out0 nav rx1 rx2 = Ok (r, ev) ->
  (ver_seen rx1 -> exists s, r = Some s /\ ser_of ev = ver_poll ++ setup_writes (major (u_ubx s))) /\
  (~ ver_seen rx1 -> ver_seen (rx1 ++ rx2) -> exists s, r = Some s /\ ser_of ev = ver_poll ++ ver_poll ++ setup_writes (major (u_ubx s))) /\
  (~ ver_seen (rx1 ++ rx2) -> r = None /\ ser_of ev = ver_poll ++ ver_poll).
Proof. exact (ctor_spec u ru out0 nav rx1 rx2 r ev). Qed.
Print Assumptions C49_construction.
Definition summary (r : outcome (option ublox * list event)) : outcome (option Z * list (list Z)) :=
  let* (o, ev) := r in Ok (option_map (fun s => major (u_ubx s)) o, ser_of ev).
Example C49_case :
  summary (ctor u0 ru0 out00 77 [1; 2] [3]) = Ok (None, ver_poll ++ ver_poll) /\
  summary (ctor u0 ru0 out00 77 (firstn 100 mv_frame) (skipn 100 mv_frame)) = Ok (Some 27, ver_poll ++ ver_poll ++ setup_writes 27) /\
  summary (ctor u0 ru0 out00 77 mv_frame [3]) = Ok (Some 27, ver_poll ++ setup_writes 27).
Proof. split; [|split]; vm_compute; reflexivity. Qed.

(* ---- C58: what the configuration calls send (usb_rtcm_rates, stationary_writes: UbloxCfg) *)
Theorem C58_config_base_sends u ru n s i st : uninit_ok u -> runinit_ok ru -> UReach u ru n s ->
  exists s' ev, config_base s i st = Ok (s', ev) /\ ubx_of ev = [] /\ rtk_of ev = [] /\
    ser_of ev = usb_rtcm_rates 1 ++ (if st then stationary_writes (u_out s) else []).
Proof. exact (base_sends_reach u ru n s i st). Qed.
Print Assumptions C58_config_base_sends.
Theorem C58_config_rover_sends u ru n s i : uninit_ok u -> runinit_ok ru -> UReach u ru n s ->
  exists s' ev, config_rover s i = Ok (s', ev) /\ ubx_of ev = [] /\ rtk_of ev = [] /\ ser_of ev = usb_rtcm_rates 0.
Proof. exact (rover_sends_reach u ru n s i). Qed.
Print Assumptions C58_config_rover_sends.
(* the object of the examples: the set-up's last message left 02 13 01 in the buffer *)
Example C58_case :
  option_map (fun ev => List.length (ser_of ev)) (evs (config_base d1 5 false)) = Some 63%nat /\
  option_map (fun ev => List.length (ser_of ev)) (evs (config_base d1 5 true)) = Some 108%nat /\
  option_map (fun ev => nth 105 (ser_of ev) []) (evs (config_base d1 5 true)) =
    Some ([0; 1; 1; 0; 0x10; 0; 3; 0x40; 119; 0; 0; 0] ++ repeat 0 12 ++ [60; 0; 0; 0; 3; 0; 0; 0] ++ repeat 0 8).
Proof. split; [|split]; vm_compute; reflexivity. Qed.
