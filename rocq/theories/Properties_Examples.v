(* C75: what the example programs rover.cpp and base.cpp print.  Model: ExShow.v; lines expected: rel_text, svin_text (ExShowThm.v).
   console h hid ev: everything the handler h, registered as number hid, prints in the course of the events ev. *)
From Coq Require Import String.
From Verif Require Import Base UbxSpec UbxModel UbxProofs UbxStream UbxMain UbxMore UbxHist UbxApi UbxEx CrcSpec RtcmModel RtcmSpec RtcmApi Properties_Rtcm
  UbloxModel UbloxSpec UbloxProofs UbloxApi UbloxThm Properties_Ublox RosModel RosSpec TextSpec ExShow ExShowThm.
Local Open Scope string_scope.
Local Open Scope Z_scope.

(* ---- C75 *)
(* rover.cpp: for any stream, one text per valid RELPOSNED frame, in order, and nothing else *)
Theorem C75_rover_console u ru n s ls hid its s' ev xs :
  uninit_ok u -> runinit_ok ru -> UReach u ru n s -> u_type s <> T_BASE -> Forall listener_ok ls -> u_ls s = map build ls ->
  NoDup (map lid ls) -> In (mkListener hid [(0x01, 0x3C)]) ls ->
  parsing_message (u_ubx s) = false -> items_ok (prev (u_ubx s)) its -> bytes_ok (items_bytes its) ->
  ublox_read s (items_bytes its) = Ok (s', ev) -> Forall2 rel_payload (frames_of 0x01 0x3C its) xs ->
  console rover_handler hid ev = texts (map rel_text xs).
Proof. exact (rover_console u ru n s ls hid its s' ev xs). Qed.
Print Assumptions C75_rover_console.
(* the text: "No RTK" exactly when no flag at all is set; otherwise always "Moving Base" and "Floating", never "Fixed" *)
Theorem C75_rover_status x ver r0 r1 r2 r3 r4 q1 q2 q3 q4 rest : relpos_ok x ->
  let t := rover_handler 0x01 0x3C (relpos_bytes x ver r0 r1 r2 r3 r4 q1 q2 q3 q4 ++ rest)%list in
  (says "No RTK" t <-> p_flags x = 0) /\ (says "Moving Base" t <-> p_flags x <> 0) /\ (says "Floating" t <-> p_flags x <> 0) /\ ~ says "Fixed" t /\
  (p_flags x <> 0 -> exists a, t = a ++ rel_line x).
Proof.
  intros H t. assert (E : t = rel_text x) by exact (show_rel_text x ver r0 r1 r2 r3 r4 q1 q2 q3 q4 rest H). rewrite E.
  split; [apply says_no_rtk|]. split; [apply says_moving|]. split; [apply says_floating|]. split; [apply never_fixed|].
  intros HF. exists ("RTK, Moving Base , Floating " ++ nl ++ "valid relative position components " ++ nl). unfold rel_text. destruct (Z.eqb_spec (p_flags x) 0); [contradiction|]. rewrite !sapp_assoc. reflexivity.
Qed.
Print Assumptions C75_rover_status.
(* the words do not follow the flags they are printed for (bit 1 differential, 3 floating, 4 fixed, 5 moving base; ubx_defs.h:700-711) *)
Theorem C75_status_follows_flags_refuted : exists x y, relpos_ok x /\ relpos_ok y /\
  Z.testbit (p_flags x) 1 = true /\ Z.testbit (p_flags x) 4 = true /\ Z.testbit (p_flags x) 3 = false /\ Z.testbit (p_flags x) 5 = false /\
  (says "Moving Base" (rel_text x) /\ says "Floating" (rel_text x) /\ ~ says "Fixed" (rel_text x)) /\
  Z.testbit (p_flags y) 1 = false /\ ~ says "No RTK" (rel_text y).
Proof.
  exists (mkRelpos 0 0 0 0 0 0 0 0 0 0 0 0 0 0 0 0 0x17), (mkRelpos 0 0 0 0 0 0 0 0 0 0 0 0 0 0 0 0 1).
  split; [unfold relpos_ok, w_ok, l_ok, sl_ok, sb_ok; cbn; lia|]. split; [unfold relpos_ok, w_ok, l_ok, sl_ok, sb_ok; cbn; lia|].
  split; [reflexivity|]. split; [reflexivity|]. split; [reflexivity|]. split; [reflexivity|].
  split; [split; [apply says_moving; discriminate|split; [apply says_floating; discriminate|apply never_fixed]]|]. split; [reflexivity|].
  intros H. apply says_no_rtk in H. discriminate H.
Qed.
Print Assumptions C75_status_follows_flags_refuted.

(* base.cpp: one line per valid SVIN frame among noise, UBX and RTCM frames; the position in metres, exact, but of coordinates read as unsigned *)
Theorem C75_base_console u ru n s ls hid ds s' ev xs :
  uninit_ok u -> runinit_ok ru -> UReach u ru n s -> u_type s = T_BASE -> Forall listener_ok ls -> u_ls s = map build ls ->
  NoDup (map lid ls) -> In (mkListener hid [(0x01, 0x07); (0x01, 0x3B)]) ls ->
  parsing_message (u_ubx s) = false -> rtcm_parsing (u_rtcm s) = false -> ditems_ok (prev (u_ubx s)) ds -> bytes_ok (ditems_bytes ds) ->
  ublox_read s (ditems_bytes ds) = Ok (s', ev) -> Forall2 svin_payload (dframes_of 0x01 0x3B ds) xs ->
  console base_handler hid ev =
  texts (map (fun x => svin_text x (100 * (s_x x mod 2 ^ 32) + s_hx x mod 256) (100 * (s_y x mod 2 ^ 32) + s_hy x mod 256) (100 * (s_z x mod 2 ^ 32) + s_hz x mod 256)) xs).
Proof. exact (base_console u ru n s ls hid ds s' ev xs). Qed.
Print Assumptions C75_base_console.
(* metres v is v tenths of a millimetre with six decimals *)
Theorem C75_metres v : exists t, fixed_point 4 (v <? 0) (Z.abs v) t /\ metres v = t ++ "00".
Proof. exact (metres_text v). Qed.
Print Assumptions C75_metres.
(* so a coordinate of c centimetres and h tenths of a millimetre is printed right exactly when neither part is negative *)
Theorem C75_base_coordinate_right c h : sl_ok c -> sb_ok h -> (metres (100 * (c mod 2 ^ 32) + h mod 256) = metres (100 * c + h) <-> 0 <= c /\ 0 <= h).
Proof. exact (coordinate_right c h). Qed.
Print Assumptions C75_base_coordinate_right.

(* ---- cases: d1 with the rover's handler; d1 with the base's handler, made a base *)
Definition lrov : listener := mkListener 8 [(0x01, 0x3C)].
Definition e1 : ublox := ublox_register d1 (build lrov).
Definition x1 : relpos := mkRelpos 5 259200250 (-1234) 567 89 1361 0 0 0 0 0 0 0 0 0 0 0x137.
Definition x2 : relpos := mkRelpos 5 259200450 0 0 0 0 0 0 0 0 0 0 0 0 0 0 0.
Definition fx (x : relpos) : list Z := relpos_bytes x 1 0 0 0 0 0 0 0 0 0.
Definition its1 : list item := [Noise 7; Noise 0xB5; Good 1 0x3C (fx x1); Noise 0xB5; Good 1 7 [1; 2]; Noise 0xB5; Bad 1 0x3C [1] 0 0; Noise 0xB5; Good 1 0x3C (fx x2)].
Definition printed (h : Z -> Z -> list Z -> string) (hid : Z) (r : outcome (ublox * list event)) : option string := match r with Ok (_, ev) => Some (console h hid ev) | UB _ => None end.
Example C75_case :
  (UReach u0 ru0 0 e1 /\ u_ls e1 = map build [mkListener 77 [(2, 0x13)]; l9; lrov] /\ u_type e1 <> T_BASE /\ parsing_message (u_ubx e1) = false) /\
  items_ok (prev (u_ubx e1)) its1 /\ bytes_ok (items_bytes its1) /\ Forall2 rel_payload (frames_of 0x01 0x3C its1) [x1; x2] /\
  printed rover_handler 8 (ublox_read e1 (items_bytes its1)) =
    Some ("RTK, Moving Base , Floating " ++ nl ++ "valid relative position components " ++ nl ++ "tow: 259200 relNED: -1234, 567, 89, Distance: 1361" ++ nl ++ "No RTK " ++ nl).
Proof.
  split; [split; [apply U_listen; [exact d1_reach|repeat constructor; cbn; lia]|vm_compute; repeat split; discriminate]|].
  assert (EP : prev (u_ubx e1) <> 0xB5) by (vm_compute; discriminate).
  split; [cbn [items_ok item_ok its1 item_last item_bytes last]; repeat split; try lia; try (vm_compute; congruence); try (intros [? ?]; lia); try contradiction|].
  split; [apply bytes_ok_dec; vm_compute; reflexivity|].
  split; [|vm_compute; reflexivity].
  unfold frames_of, its1. cbn [flat_map Z.eqb Pos.eqb andb app].
  repeat constructor; unfold rel_payload; try (unfold relpos_ok, w_ok, l_ok, sl_ok, sb_ok; cbn; lia); do 10 eexists; reflexivity.
Qed.
Definition lbas : listener := mkListener 8 [(0x01, 0x07); (0x01, 0x3B)].
Definition e2 : ublox := st_or (ublox_register d1 (build lbas)) (config_base (ublox_register d1 (build lbas)) 5 true).
Definition sv (c h : Z) : svin := mkSvin 259200000 60 c c c h h h 12345 60 0 1.
Definition fsv (c h : Z) : list Z := (svin_bytes (sv c h) 0 0 0 0 0 ++ [0; 0])%list.
Example C75_base_case :
  printed base_handler 8 (ublox_read e2 (ditems_bytes [DRtcm (RGood rf0); DUbx (Good 1 0x3B (fsv 123456789 21))])) =
    Some ("t: 259200000, ACTIVE, dur: 60, pos: [1234567.892100, 1234567.892100, 1234567.892100], acc: 1.234500" ++ nl) /\
  printed base_handler 8 (ublox_read e2 (ditems_bytes [DUbx (Good 1 0x3B (fsv (-1) (-1)))])) =
    Some ("t: 259200000, ACTIVE, dur: 60, pos: [42949672.975500, 42949672.975500, 42949672.975500], acc: 1.234500" ++ nl) /\
  svin_ok (sv (-1) (-1)) /\ dframes_of 0x01 0x3B [DRtcm (RGood rf0); DUbx (Good 1 0x3B (fsv 123456789 21))] = [fsv 123456789 21] /\ metres (100 * -1 + -1) = "-0.010100".
Proof.
  split; [vm_compute; reflexivity|]. split; [vm_compute; reflexivity|]. split; [unfold svin_ok, sl_ok, l_ok, sb_ok; cbn; lia|]. split; [reflexivity|vm_compute; reflexivity].
Qed.
