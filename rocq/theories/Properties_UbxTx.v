(* C15-C18, C52: sending.  A sender returns the new 2048-byte output buffer and the list of serial writes. *)
From Verif Require Import Base UbxSpec UbxModel UbxProofs UbxStream UbxMain UbxMore UbxVersion UbxHist UbxApi UbxEx
  UbxTx UbxTxSpec UbxTxProofs UbxTxApi.

(* C15 *)
Theorem C15_send_writes_one_frame cls id buf len :
  Zlen buf = 2048 -> 0 <= len <= 2048 ->
  exists w, send_message cls id buf len = Ok w /\
    concat w = ubx_frame cls id (firstn (Z.to_nat len) buf) /\ length w = 9%nat.
Proof. exact (tx_send cls id buf len). Qed.
Print Assumptions C15_send_writes_one_frame.

Theorem C15_overlong_send_reads_out_of_bounds cls id buf len :
  Zlen buf = 2048 -> 2048 < len -> send_message cls id buf len = UB UB_oob_read.
Proof. exact (tx_over cls id buf len). Qed.
Print Assumptions C15_overlong_send_reads_out_of_bounds.

Theorem C15_second_reader_delivers u s ls cls id buf len w :
  uninit_ok u -> Reach u s -> parsing_message s = false -> Forall listener_ok ls ->
  byte_ok cls -> byte_ok id ->
  ((cls, id) = (10, 4) -> ~ monver_unsafe (overlay (firstn (Z.to_nat len) buf) (inbuf s)) (modname s)) -> bytes_ok buf -> Zlen buf = 2048 -> 1 <= len <= 2048 ->
  send_message cls id buf len = Ok w ->
  exists s' msg, feed (map build ls) s (concat w)
      = Ok (s', quiet (7 + Z.to_nat len) ++ [(calls_for ls cls id msg, true)]) /\
    parsing_message s' = false /\ firstn (Z.to_nat len) msg = firstn (Z.to_nat len) buf.
Proof. exact (tx_received u s ls cls id buf len w). Qed.
Print Assumptions C15_second_reader_delivers.

Definition out0 : list Z := map (fun i => Z.of_nat i mod 256) (List.seq 0 (Z.to_nat 2048)).
Lemma out0_len : Zlen out0 = 2048.
Proof. unfold out0, Zlen. rewrite map_length, seq_length. reflexivity. Qed.
Lemma out0_ok : bytes_ok out0.
Proof. apply Forall_forall. intros x H. apply in_map_iff in H. destruct H as (n & <- & _). unfold byte_ok. lia. Qed.

Example C15_case :
  Reach u0 s0 /\ parsing_message s0 = false /\ bytes_ok out0 /\ Zlen out0 = 2048 /\
  send_message 5 1 out0 3 = Ok [[0xB5]; [0x62]; [5]; [1]; [3]; [0]; [0; 1; 2]; [12]; [60]].
Proof.
  split; [exact s0_reach|]. split; [apply s0_facts|]. split; [exact out0_ok|]. split; [exact out0_len|vm_compute; reflexivity].
Qed.

(* C16 *)
Theorem C16_configure_frame out version layer data key size :
  Zlen out = 2048 -> byte_ok version -> byte_ok layer ->
  exists out', Zlen out' = 2048 /\
    configure out version layer data key size
    = Ok (out', frame_writes 0x06 0x8A (valset_payload version layer key (value_bytes size data))).
Proof. exact (tx_configure out version layer data key size). Qed.
Print Assumptions C16_configure_frame.

Theorem C16_value_transmitted_iff size data : 0 <= data < 2 ^ 32 ->
  of_le (value_bytes size data) = data <-> (size = 1 /\ data < 256) \/ size = 2 \/ data = 0.
Proof. exact (value_faithful size data). Qed.
Print Assumptions C16_value_transmitted_iff.
Example C16_case :
  value_bytes 1 200 = [200; 0; 0; 0] /\ value_bytes 2 500000 = [32; 161; 7; 0] /\ value_bytes 4 500000 = [0; 0; 0; 0] /\
  valset_payload 0 1 0x40030011 (value_bytes 2 500000) = [0; 1; 0; 0; 0x11; 0; 3; 0x40; 32; 161; 7; 0].
Proof. repeat split. Qed.

(* C17 *)
Theorem C17_old_protocol_payloads out major period cls id rate :
  Zlen out = 2048 -> major <= 23 ->
  (exists o, Zlen o = 2048 /\ disable_nmea major out = Ok (o, frame_writes 0x06 0x00 (prt_payload 3 0 921600 0x21 0x21 0x8C0))) /\
  (exists o, Zlen o = 2048 /\ set_dynamic_mode major out = Ok (o, frame_writes 0x06 0x24 (nav5_payload 1 8))) /\
  (exists o, Zlen o = 2048 /\ set_nav_rate major period out = Ok (o, frame_writes 0x06 0x08 (rate_payload (period mod 256) 1 0))) /\
  (exists o, Zlen o = 2048 /\ enable_message cls id rate out = Ok (o, frame_writes 0x06 0x01 [cls mod 256; id mod 256; rate mod 256])).
Proof. exact (tx_old out major period cls id rate). Qed.
Print Assumptions C17_old_protocol_payloads.

Theorem C17_new_protocol_payloads out major period cls id rate :
  Zlen out = 2048 -> 23 < major ->
  (exists o, Zlen o = 2048 /\ disable_nmea major out = Ok (o, valset1 0x10770002 0 ++ valset1 0x10780002 0)) /\
  (exists o, Zlen o = 2048 /\ set_dynamic_mode major out = Ok (o, valset1 0x20110021 6)) /\
  (exists o, Zlen o = 2048 /\ set_nav_rate major period out = Ok (o, valset1 0x30210001 period ++ valset1 0x30210002 1 ++ valset1 0x20210003 0)) /\
  (exists o, Zlen o = 2048 /\ enable_message cls id rate out = Ok (o, frame_writes 0x06 0x01 [cls mod 256; id mod 256; rate mod 256])).
Proof. exact (tx_new out major period cls id rate). Qed.
Print Assumptions C17_new_protocol_payloads.

Theorem C17_get_configuration_payload out version layer key :
  Zlen out = 2048 -> byte_ok version -> byte_ok layer ->
  exists o, Zlen o = 2048 /\ get_configuration out version layer key = Ok (o, frame_writes 0x06 0x8B (valget_payload version layer key)).
Proof. exact (tx_getcfg out version layer key). Qed.
Print Assumptions C17_get_configuration_payload.
Example C17_case : Zlen out0 = 2048 /\
  match set_nav_rate 18 200 out0 with Ok (_, w) => concat w | UB _ => [] end
  = [0xB5; 0x62; 6; 8; 6; 0; 200; 0; 1; 0; 0; 0; 221; 104].
Proof. split; [exact out0_len|vm_compute; reflexivity]. Qed.

(* C18 *)
Theorem C18_survey_payload_bytes out : Zlen out = 2048 ->
  exists o pl, start_survey_in out = Ok (o, frame_writes 0x06 0x71 pl) /\ length pl = 40%nat /\
    (forall i, (i < 40)%nat ->
       nth i pl 0 = match survey_fixed i with Some v => v | None => nth i out 0 end).
Proof. exact (tx_survey_bytes out). Qed.
Print Assumptions C18_survey_payload_bytes.

Theorem C18_survey_leaks_previous_message out cls id rate o1 w1 :
  Zlen out = 2048 -> enable_message cls id rate out = Ok (o1, w1) ->
  exists o pl, start_survey_in o1 = Ok (o, frame_writes 0x06 0x71 pl) /\ nth 0 pl 0 = cls mod 256 /\ nth 1 pl 0 = id mod 256.
Proof. exact (tx_survey_after_enable out cls id rate o1 w1). Qed.
Print Assumptions C18_survey_leaks_previous_message.
Example C18_case :
  match enable_message 1 7 1 out0 with
  | Ok (o1, _) => match start_survey_in o1 with Ok (_, w) => nth 6 w [] | UB _ => [] end
  | UB _ => []
  end
  = [1; 7; 1; 0; 4; 5; 6; 7; 8; 9; 10; 11; 12; 13; 14; 15; 16; 17; 18; 19; 20; 21; 22; 23; 60; 0; 0; 0; 3; 0; 0; 0; 32; 33; 34; 35; 36; 37; 38; 39].
Proof. vm_compute. reflexivity. Qed.

(* C52 *)
Theorem C52_valset_items_wellformed_iff out version layer data key size :
  Zlen out = 2048 -> byte_ok version -> byte_ok layer -> 0 <= key < 2 ^ 32 ->
  exists out' items, configure out version layer data key size
      = Ok (out', frame_writes 0x06 0x8A ([version; layer; 0; 0] ++ items)) /\
    ((exists l, cfg_items items l) <-> item_size key = Some 4%nat).
Proof. exact (tx_configure_items out version layer data key size). Qed.
Print Assumptions C52_valset_items_wellformed_iff.
Example C52_case : item_size 0x40030011 = Some 4%nat /\ item_size 0x20110021 = Some 1%nat /\ item_size 0x30210001 = Some 2%nat.
Proof. repeat split. Qed.
