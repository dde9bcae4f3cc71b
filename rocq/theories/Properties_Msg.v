(* C78, C79: satellite numbering, and the message structures against the protocol description. *)
From Coq Require Import String List.
From Verif Require Import Base UbxSpec UbxModel UbxStream UbxHist UbxEx MsgLayout MsgSpec MsgThm RosSpec RosModel MsgUse.
Import ListNotations.
Local Open Scope string_scope.
Local Open Scope list_scope.
Local Open Scope Z_scope.

(* ---------------------------------------------------------------- C78 *)
Theorem C78_constellation_of_every_satellite s : sat_ok s -> sysId (sat_number s) = gnss_id s.
Proof. exact (sysId_known s). Qed.
Print Assumptions C78_constellation_of_every_satellite.
Theorem C78_minus_one_exactly_for_other_numbers v : sysId v = -1 <-> ~ exists s, sat_ok s /\ sat_number s = v.
Proof.
  split.
  - intros H (s & K & E). subst v. rewrite sysId_known in H by exact K. destruct s; discriminate H.
  - intros H. destruct (Z.eq_dec (sysId v) (-1)) as [E|E]; [exact E|]. destruct (H (sysId_only v E)).
Qed.
Print Assumptions C78_minus_one_exactly_for_other_numbers.
Theorem C78_numbers_are_unambiguous s t : sat_ok s -> sat_ok t -> sat_number s = sat_number t -> s = t.
Proof. exact (sat_number_inj s t). Qed.
Print Assumptions C78_numbers_are_unambiguous.
Theorem C78_signals_are_told_apart x y : sigId (ubx_gnss x) (ubx_sig x) = sigId (ubx_gnss y) (ubx_sig y) -> x = y.
Proof. exact (sigId_inj x y). Qed.
Print Assumptions C78_signals_are_told_apart.
Example C78_cases : sat_ok (BDS 6) /\ sysId 33 = 3 /\ sysId 163 = 3 /\ sysId 175 = -1 /\ sysId 0 = -1 /\ sysId (-7) = -1 /\ sysId 246 = 2.
Proof. cbn. repeat split; lia. Qed.

(* ---------------------------------------------------------------- C79 *)
(* reading a member of the message object gives the bytes and the signedness the manual's table gives *)
Theorem C79_members_read_as_documented d name o k m :
  In d documented -> In (name, o, k) (d_rows d) -> bytes_ok m ->
  member m [MsgLayout.F (d_struct d); MsgLayout.F name] = Some (doc_value k m o).
Proof. exact (members_documented d name o k m). Qed.
Print Assumptions C79_members_read_as_documented.
Theorem C79_class_and_id_as_documented d : In d documented -> class_id (d_struct d) = Some (d_cls d, d_id d).
Proof. exact (ids_documented d). Qed.
Print Assumptions C79_class_and_id_as_documented.
Theorem C79_sizes_as_documented :
  sizeof UBX_message = 2048 /\
  (forall d, In d fixed_length -> size_of_struct (d_struct d) = Some (d_len d)) /\
  size_of_struct "CFG_VALSET" = Some 12 /\ size_of_struct "CFG_VALGET" = Some 16 /\
  size_of_struct "RXM_SFRBX" = Some (sfrbx_word 10) /\ size_of_struct "MON_COMM" = Some (comms_group 5) /\
  size_of_struct "RXM_RAWX" = Some (rawx_group 30) /\ size_of_struct "MON_VER" = Some (ver_ext 10 0).
Proof. exact sizes_documented. Qed.
Print Assumptions C79_sizes_as_documented.
(* repeated groups; the structures nested in the packed ones are not themselves packed *)
Theorem C79_measurement_groups n name o k m : 0 <= n < 30 -> In (name, o, k) doc_rawx_group -> bytes_ok m ->
  member m [MsgLayout.F "RXM_RAWX"; MsgLayout.F "meas"; MsgLayout.I n; MsgLayout.F name] = Some (doc_value k m (rawx_group n + o)).
Proof. exact (rawx_groups n name o k m). Qed.
Print Assumptions C79_measurement_groups.
Theorem C79_port_groups n name o k m : 0 <= n < 5 -> In (name, o, k) doc_comms_group -> bytes_ok m ->
  member m [MsgLayout.F "MON_COMM"; MsgLayout.F "blocks"; MsgLayout.I n; MsgLayout.F name] = Some (doc_value k m (comms_group n + o)).
Proof. exact (comms_groups n name o k m). Qed.
Print Assumptions C79_port_groups.
Theorem C79_arrays m : bytes_ok m ->
  (forall n, 0 <= n < 10 -> member m [MsgLayout.F "RXM_SFRBX"; MsgLayout.F "dwrd"; MsgLayout.I n] = Some (doc_value kU4 m (sfrbx_word n))) /\
  (forall n name o k, 0 <= n < 6 -> In (name, o, k) (txbuf_arrays n) ->
     member m [MsgLayout.F "MON_TXBUF"; MsgLayout.F name; MsgLayout.I n] = Some (doc_value k m o)) /\
  (forall n, 0 <= n < 4 -> member m [MsgLayout.F "MON_COMM"; MsgLayout.F "portIds"; MsgLayout.I n] = Some (doc_value kU1 m (comms_protid n))) /\
  (forall c, 0 <= c < 30 -> member m [MsgLayout.F "MON_VER"; MsgLayout.F "swVersion"; MsgLayout.I c] = Some (doc_value kCH m (ver_sw c))) /\
  (forall c, 0 <= c < 10 -> member m [MsgLayout.F "MON_VER"; MsgLayout.F "hwVersion"; MsgLayout.I c] = Some (doc_value kCH m (ver_hw c))).
Proof.
  intros H. repeat split; intros.
  - apply sfrbx_words; assumption.
  - apply (txbuf_elems n); assumption.
  - apply comms_protids; assumption.
  - apply (proj1 (ver_strings c m H)); assumption.
  - apply (proj2 (ver_strings c m H)); assumption.
Qed.
Print Assumptions C79_arrays.
(* a message sent by the receiver, as a listener sees it *)
Theorem C79_listener_reads_what_was_sent u s ls d pl :
  uninit_ok u -> Reach u s -> parsing_message s = false -> Forall listener_ok ls -> In d documented -> ubx_payload_ok pl ->
  d_len d <= Zlen pl ->
  exists s' msg, feed (map build ls) s (ubx_frame (d_cls d) (d_id d) pl)
      = Ok (s', quiet (7 + length pl) ++ [(calls_for ls (d_cls d) (d_id d) msg, true)]) /\
    forall name o k, In (name, o, k) (d_rows d) -> member msg [MsgLayout.F (d_struct d); MsgLayout.F name] = Some (doc_value k pl o).
Proof. exact (delivered_members u s ls d pl). Qed.
Print Assumptions C79_listener_reads_what_was_sent.
Theorem C79_listener_reads_measurements u s ls pl n :
  uninit_ok u -> Reach u s -> parsing_message s = false -> Forall listener_ok ls -> ubx_payload_ok pl ->
  0 <= n < 30 -> rawx_group (n + 1) <= Zlen pl ->
  exists s' msg, feed (map build ls) s (ubx_frame 0x02 0x15 pl)
      = Ok (s', quiet (7 + length pl) ++ [(calls_for ls 0x02 0x15 msg, true)]) /\
    forall name o k, In (name, o, k) doc_rawx_group ->
      member msg [MsgLayout.F "RXM_RAWX"; MsgLayout.F "meas"; MsgLayout.I n; MsgLayout.F name] = Some (doc_value k pl (rawx_group n + o)).
Proof. exact (delivered_measurements u s ls pl n). Qed.
Print Assumptions C79_listener_reads_measurements.
(* assigning a member stores the value at the documented place and touches no other byte *)
Theorem C79_members_written_as_documented d name o k m v :
  In d documented -> In (name, o, k) (d_rows d) -> length m = 2048%nat -> bytes_ok m -> in_kind k v ->
  exists m', assign m [MsgLayout.F (d_struct d); MsgLayout.F name] v = Ok m' /\ length m' = 2048%nat /\ bytes_ok m' /\
    doc_value k m' o = v /\ forall j, 0 <= j -> ~ (o <= j < o + klen k) -> pay m' j = pay m j.
Proof. exact (assign_documented d name o k m v). Qed.
Print Assumptions C79_members_written_as_documented.

(* The declarations that do not follow the manual. *)
(* the survey-in mean position is signed in the manual, unsigned in the structure *)
Theorem C79_survey_mean_loses_its_sign name o k m : In (name, o, k) (d_rows doc_nav_svin_mean) -> bytes_ok m ->
  member m [MsgLayout.F "NAV_SVIN"; MsgLayout.F name]
    = Some (if doc_value k m o <? 0 then doc_value k m o + 2 ^ (8 * klen k) else doc_value k m o).
Proof. exact (svin_mean name o k m). Qed.
Print Assumptions C79_survey_mean_loses_its_sign.
(* the number of measurements is unsigned in the manual, signed in the structure; the structure has room for 30 *)
Theorem C79_number_of_measurements m : bytes_ok m ->
  member m [MsgLayout.F "RXM_RAWX"; MsgLayout.F "numMeas"]
    = Some (if doc_value kU1 m rawx_numMeas_at <? 128 then doc_value kU1 m rawx_numMeas_at else doc_value kU1 m rawx_numMeas_at - 256).
Proof. exact (num_meas m). Qed.
Print Assumptions C79_number_of_measurements.
Theorem C79_no_measurement_beyond_thirty n r m : 30 <= n ->
  member m (MsgLayout.F "RXM_RAWX" :: MsgLayout.F "meas" :: MsgLayout.I n :: r) = None.
Proof. exact (rawx_outside n r m). Qed.
Print Assumptions C79_no_measurement_beyond_thirty.
(* the extension strings have 30 characters in the manual; the structure declares thirty strings of ten *)
Theorem C79_extension_strings_are_cut_in_three i c m : 0 <= i < 30 -> 0 <= c < 10 -> bytes_ok m ->
  member m [MsgLayout.F "MON_VER"; MsgLayout.F "extension"; MsgLayout.I i; MsgLayout.I c]
    = Some (doc_value kCH m (ver_ext (i / 3) (10 * (i mod 3) + c))).
Proof. exact (ver_extension i c m). Qed.
Print Assumptions C79_extension_strings_are_cut_in_three.

(* a NAV-PVT payload with longitude -1.2345678 degrees *)
Definition pvt_pl : list Z := List.repeat 0 24 ++ le32 (2 ^ 32 - 12345678) ++ List.repeat 0 64.
Example C79_cases :
  In doc_nav_pvt documented /\ In ("lon", 24, kI4) (d_rows doc_nav_pvt) /\ ubx_payload_ok pvt_pl /\ d_len doc_nav_pvt <= Zlen pvt_pl /\
  doc_value kI4 pvt_pl 24 = -12345678 /\ member pvt_pl [MsgLayout.F "NAV_PVT"; MsgLayout.F "lon"] = Some (-12345678) /\
  in_kind kI4 (-12345678) /\ uninit_ok u0 /\ Reach u0 s0 /\ parsing_message s0 = false.
Proof.
  split; [cbn; tauto|]. split; [cbn; tauto|]. split; [split; [vm_compute; split; congruence|]|].
  - unfold pvt_pl, bytes_ok. rewrite !Forall_app. split; [|split].
    + apply Forall_forall. intros x H. apply repeat_spec in H. subst x. unfold byte_ok. lia.
    + apply le32_ok.
    + apply Forall_forall. intros x H. apply repeat_spec in H. subst x. unfold byte_ok. lia.
  - split; [vm_compute; congruence|]. split; [vm_compute; reflexivity|]. split; [vm_compute; reflexivity|].
    split; [cbn; lia|]. split; [split; reflexivity|]. split; [exact s0_reach|reflexivity].
Qed.
(* a survey-in mean of -1 cm is read as 4294967295 *)
Example C79_svin_case : doc_value kI4 (List.repeat 0 12 ++ [255; 255; 255; 255]) 12 = -1 /\
  member (List.repeat 0 12 ++ [255; 255; 255; 255]) [MsgLayout.F "NAV_SVIN"; MsgLayout.F "meanX"] = Some 4294967295.
Proof. split; vm_compute; reflexivity. Qed.
