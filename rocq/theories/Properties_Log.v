(* C84: what the message handler of read_log.cpp prints.  Model: ExLog.v; the lines expected: pvt_says, raw_says (ExLogThm.v), where a number
   given by IEEE bits is printed as the nearest thousandth of its value (prints64, prints32; PrintFlocq.v relates the value to Flocq's).
   log_console hid ev: everything the handler, registered as number hid, prints in the course of the events ev. *)
From Coq Require Import String.
From Verif Require Import Base UbxSpec UbxModel UbxProofs UbxStream UbxMain UbxMore UbxHist UbxApi UbxEx CrcSpec RtcmModel RtcmSpec RtcmApi Properties_Rtcm
  UbloxModel UbloxSpec UbloxProofs UbloxApi UbloxThm Properties_Ublox RosModel RosSpec ExShow ExShowThm ExLog ExLogThm.
Local Open Scope string_scope.
Local Open Scope Z_scope.

(* ---- C84 *)
(* for any stream: one text per valid PVT or RAWX frame, in order, and nothing else *)
Theorem C84_log_prints u ru n s ls hid its s' ev xs :
  uninit_ok u -> runinit_ok ru -> UReach u ru n s -> u_type s <> T_BASE -> Forall listener_ok ls -> u_ls s = map build ls ->
  NoDup (map lid ls) -> In (mkListener hid [(0x01, 0x07); (0x02, 0x15)]) ls ->
  parsing_message (u_ubx s) = false -> items_ok (prev (u_ubx s)) its -> bytes_ok (items_bytes its) ->
  ublox_read s (items_bytes its) = Ok (s', ev) -> Forall2 log_carries (log_frames its) xs ->
  exists ts, log_console hid ev = Ok (texts ts) /\ Forall2 log_says xs ts.
Proof. exact (log_prints u ru n s ls hid its s' ev xs). Qed.
Print Assumptions C84_log_prints.
(* it reads outside the message's measurement array exactly if some RAWX frame announces 31 to 127 measurements *)
Theorem C84_log_fails u ru n s ls hid its s' ev :
  uninit_ok u -> runinit_ok ru -> UReach u ru n s -> u_type s <> T_BASE -> Forall listener_ok ls -> u_ls s = map build ls ->
  NoDup (map lid ls) -> In (mkListener hid [(0x01, 0x07); (0x02, 0x15)]) ls ->
  parsing_message (u_ubx s) = false -> items_ok (prev (u_ubx s)) its -> bytes_ok (items_bytes its) ->
  ublox_read s (items_bytes its) = Ok (s', ev) -> Forall (fun f => (12 <= length (snd f))%nat /\ bytes_ok (snd f)) (log_frames its) ->
  (Exists too_many (log_frames its) -> log_console hid ev = UB UB_oob_read) /\
  (~ Exists too_many (log_frames its) -> exists t, log_console hid ev = Ok t).
Proof. exact (log_fails u ru n s ls hid its s' ev). Qed.
Print Assumptions C84_log_fails.

(* ---- cases: d1 with this handler as number 8 *)
Definition llog : listener := mkListener 8 [(0x01, 0x07); (0x02, 0x15)].
Definition e3 : ublox := ublox_register d1 (build llog).
Definition w0 : raw := mkRaw 0x4109F0A200000000 2049 18 1 1 0 0
  [mkMeas 0x4174FB1805604189 0x419A8E56F0000000 0xC4B44000 0 12 [0; 0; 0; 0; 0; 0; 0; 0; 0; 0]; mkMeas 0x7FF8000000000000 0xFFF0000000000000 0x80000000 6 3 [1; 2; 3; 4; 5; 6; 7; 8; 9; 10]].
Definition v0 : pvt := mkPvt 212500250 2019 4 16 11 1 40 7 20 250300000 3 1 0 12 (-1116489123) 402505678 1391234 1400000 15 20 (-5) 1234 0 0 0 0 0 150 0.
Definition its2 : list item := [Noise 7; Noise 0xB5; Good 1 7 (pvt_bytes v0 0 0 0 0 0 0 ++ [0; 0; 0; 0]); Noise 0xB5; Bad 2 0x15 [1] 0 0; Noise 0xB5; Good 1 0x3C [1]; Noise 0xB5; Good 2 0x15 (raw_bytes w0)].
Definition lprinted (hid : Z) (r : outcome (ublox * list event)) : outcome string := match r with Ok (_, ev) => log_console hid ev | UB k => UB k end.
Example C84_case :
  (UReach u0 ru0 0 e3 /\ u_ls e3 = map build [mkListener 77 [(2, 0x13)]; l9; llog] /\ u_type e3 <> T_BASE /\ parsing_message (u_ubx e3) = false) /\
  items_ok (prev (u_ubx e3)) its2 /\ bytes_ok (items_bytes its2) /\ Forall2 log_carries (log_frames its2) [LPvt v0; LRaw w0] /\
  lprinted 8 (ublox_read e3 (items_bytes its2)) = Ok
   ("GOT UBX MESSAGE" ++ nl ++ "t: 2019 4/16, 11:1:40.250, lla: 40.251, -111.649, 1391.234, vel: -0.005, 1.234, 0.000" ++ nl ++ "tow: 212500250" ++ nl ++
    "GOT UBX MESSAGE" ++ nl ++ "week: 2049, tow: 212500.250 gnss_id: 0, sat_id: 12, P 22000000.336, L 111383996.000, D -1442.000" ++ nl ++
    "week: 2049, tow: 212500.250 gnss_id: 6, sat_id: 3, P nan, L -inf, D -0.000" ++ nl).
Proof.
  split; [split; [apply U_listen; [exact d1_reach|repeat constructor; cbn; lia]|vm_compute; repeat split; discriminate]|].
  assert (EP : prev (u_ubx e3) <> 0xB5) by (vm_compute; discriminate).
  split; [cbn [items_ok item_ok its2 item_last item_bytes last]; repeat split; try lia; try (vm_compute; congruence); try (intros [? ?]; lia); try contradiction|].
  split; [apply bytes_ok_dec; vm_compute; reflexivity|].
  split; [|vm_compute; reflexivity].
  change (log_frames its2) with [(1, 7, (pvt_bytes v0 0 0 0 0 0 0 ++ [0; 0; 0; 0])%list); (2, 0x15, raw_bytes w0)].
  repeat apply Forall2_cons; [| |constructor].
  - split; [unfold pvt_ok, w_ok, l_ok, sl_ok, sb_ok; cbn; lia|]. do 7 eexists. reflexivity.
  - split; [|split; [cbn; lia|reflexivity]]. unfold raw_ok. cbn [w_tow w_week w_meas w0]. split; [lia|]. split; [lia|].
    repeat apply Forall_cons; try apply Forall_nil; unfold meas_ok; cbn [q_pr q_cp q_do q_rest length]; lia.
Qed.
(* 31 measurements *)
Definition f31 : list Z := ([0; 0; 0; 0; 0; 0; 0; 0; 0; 0; 18; 31; 0; 1; 0; 0] ++ repeat 0 992)%list.
Example C84_fail_case : too_many (2, 0x15, f31) /\ lprinted 8 (ublox_read e3 (items_bytes [Noise 0xB5; Good 2 0x15 f31])) = UB UB_oob_read.
Proof. split; [exists f31; split; [reflexivity|]; exists 31; split; [reflexivity|lia]|vm_compute; reflexivity]. Qed.
(* a frame shorter than it announces prints what an earlier message left behind *)
Theorem C84_prints_only_the_frame_refuted : exists its1 its2 f a b,
  items_ok (prev (u_ubx e3)) (its1 ++ [f])%list /\ items_ok (prev (u_ubx e3)) (its2 ++ [f])%list /\ log_frames its1 = [] /\ log_frames its2 = [] /\
  lprinted 8 (ublox_read e3 (items_bytes (its1 ++ [f])%list)) = Ok a /\ lprinted 8 (ublox_read e3 (items_bytes (its2 ++ [f])%list)) = Ok b /\ a <> b.
Proof.
  exists [Noise 0xB5; Good 0x0D 1 (repeat 1 48); Noise 0xB5], [Noise 0xB5; Good 0x0D 1 (repeat 2 48); Noise 0xB5], (Good 2 0x15 [0; 0; 0; 0; 0; 0; 0; 0; 0; 0; 18; 1; 0; 1; 0; 0]).
  do 2 eexists. assert (EP : prev (u_ubx e3) <> 0xB5) by (vm_compute; discriminate).
  split; [cbn [items_ok item_ok item_last item_bytes last app repeat]; repeat split; try lia; try (vm_compute; congruence); try (intros [? ?]; lia); try contradiction|].
  split; [cbn [items_ok item_ok item_last item_bytes last app repeat]; repeat split; try lia; try (vm_compute; congruence); try (intros [? ?]; lia); try contradiction|].
  split; [reflexivity|]. split; [reflexivity|]. split; [vm_compute; reflexivity|]. split; [vm_compute; reflexivity|]. vm_compute. discriminate.
Qed.
Print Assumptions C84_prints_only_the_frame_refuted.
