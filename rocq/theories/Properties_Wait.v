(* C72: what UBX::wait_for_response reports.  rx: the bytes the receive thread handles while the call waits. *)
From Verif Require Import Base UbxSpec UbxModel UbxProofs UbxStream UbxMain UbxMore UbxHist UbxApi UbxEx UbxWait.

(* in every state and for every byte stream: true exactly if an ACK-ACK (class 5, id 1) is handed out meanwhile to a listener
   subscribed to it *)
Theorem C72_true_iff_ack ls l s rx s' outs r : In l ls -> subscribed l 5 1 = true -> wait_for_response ls s rx = Ok (s', outs, r) ->
  (r = true <-> exists k, In k (flat_map fst outs) /\ c_lid k = ml_id l /\ c_cls k = 5 /\ c_id k = 1).
Proof. exact (wait_iff_ack ls l s rx s' outs r). Qed.
Print Assumptions C72_true_iff_ack.
(* without listeners: true exactly if one of the good frames on the wire is an ACK-ACK, whatever it acknowledges *)
Theorem C72_true_iff_ack_frame u s ls its s' outs r : uninit_ok u -> Reach u s -> parsing_message s = false -> Forall listener_ok ls ->
  items_ok (prev s) its -> bytes_ok (items_bytes its) -> wait_for_response (map build ls) s (items_bytes its) = Ok (s', outs, r) ->
  (r = true <-> exists pl, In (5, 1, pl) (good_frames its)).
Proof. exact (wait_items u s ls its s' outs r). Qed.
Print Assumptions C72_true_iff_ack_frame.
(* "true means that the command just sent was accepted" is false: an ACK for another command, and a NAK followed by such an ACK *)
Definition res_of (r : outcome (ubx * list byte_out * bool)) : option bool := match r with Ok (_, _, b) => Some b | UB _ => None end.
Theorem C72_means_accepted_refuted :
  Reach u0 s0 /\ parsing_message s0 = false /\
  (* waiting after a CFG-VALSET (06 8A): the receiver acknowledges an earlier CFG-MSG (06 01) *)
  res_of (wait_for_response (map build ls0) s0 (ubx_frame 5 1 [0x06; 0x01])) = Some true /\
  (* and rejects the CFG-VALSET *)
  res_of (wait_for_response (map build ls0) s0 (ubx_frame 5 0 [0x06; 0x8A] ++ ubx_frame 5 1 [0x06; 0x01])) = Some true.
Proof. split; [exact s0_reach|]. repeat split; vm_compute; reflexivity. Qed.
Print Assumptions C72_means_accepted_refuted.
(* (an item starts at the byte after B5, UbxSpec.v) *)
Example C72_case :
  items_ok (prev s0) [Noise 1; Noise 0xB5; Good 5 0 [6; 1]; Noise 0xB5; Good 1 7 [1; 2; 3]; Noise 0xB5; Good 5 1 [6; 1]] /\
  res_of (wait_for_response (map build ls0) s0 (items_bytes [Noise 1; Noise 0xB5; Good 5 0 [6; 1]; Noise 0xB5; Good 1 7 [1; 2; 3]])) = Some false /\
  res_of (wait_for_response (map build ls0) s0 (items_bytes [Noise 1; Noise 0xB5; Good 5 0 [6; 1]; Noise 0xB5; Good 1 7 [1; 2; 3]; Noise 0xB5; Good 5 1 [6; 1]])) = Some true.
Proof.
  split; [|split; vm_compute; reflexivity].
  repeat split; try (apply bytes_ok_dec; reflexivity); try (vm_compute; intuition congruence); try (vm_compute; reflexivity); try (unfold byte_ok; lia).
Qed.
