(* C67: a further registration changes nothing for the others.  only s l: the object in the same state with l as its only
   listener (so what l alone would be told). *)
From Verif Require Import Base UbxSpec UbxModel UbxTx RtcmModel UbloxModel UbloxSpec UbloxApi UbloxReg UbxStream UbxEx Properties_Rtcm Properties_Ublox.

(* one byte: the earlier listeners are called as before, the new one after them, exactly as if it were alone; writes and
   forwarded corrections are the same, and so is the state; what was undefined stays so *)
Theorem C67_one_byte s l b :
  match ublox_byte s b with
  | UB k => ublox_byte (ublox_register s l) b = UB k
  | Ok (s1, e) => exists ex e',
      ublox_byte (only s l) b = Ok (only s1 l, ex) /\ ublox_byte (ublox_register s l) b = Ok (ublox_register s1 l, e') /\
      ubx_of e' = ubx_of e ++ ubx_of ex /\ (length (ubx_of ex) <= 1)%nat /\ ser_of e' = ser_of e /\ rtk_of e' = rtk_of e /\
      (fresh_id s (ml_id l) -> filter (fun v => negb (goes_to (ml_id l) v)) e' = e /\ filter (goes_to (ml_id l)) e' = filter (goes_to (ml_id l)) ex)
  end.
Proof. exact (reg_byte s l b). Qed.
Print Assumptions C67_one_byte.
(* any stream: without the calls of the new listener (of a new identity) the events are the same, in the same order *)
Theorem C67_any_stream bs s l :
  match ublox_read s bs with
  | UB k => ublox_read (ublox_register s l) bs = UB k
  | Ok (s1, e) => exists ex e',
      ublox_read (only s l) bs = Ok (only s1 l, ex) /\ ublox_read (ublox_register s l) bs = Ok (ublox_register s1 l, e') /\
      ser_of e' = ser_of e /\ rtk_of e' = rtk_of e /\
      (fresh_id s (ml_id l) -> filter (fun v => negb (goes_to (ml_id l) v)) e' = e /\ filter (goes_to (ml_id l)) e' = filter (goes_to (ml_id l)) ex)
  end.
Proof. exact (reg_stream bs s l). Qed.
Print Assumptions C67_any_stream.
(* and configuring the receiver does not depend on the listeners *)
Theorem C67_configuration s l iface st :
  config_base (ublox_register s l) iface st = (let* (s1, e) := config_base s iface st in Ok (ublox_register s1 l, e)) /\
  config_rover (ublox_register s l) iface = (let* (s1, e) := config_rover s iface in Ok (ublox_register s1 l, e)).
Proof. exact (config_reg s l iface st). Qed.
Print Assumptions C67_configuration.

(* two listeners for ACK frames and the parser; the third listener is called last *)
Definition ack_frame : list Z := ubx_frame 5 1 [6; 1].
Definition called (r : outcome (ublox * list event)) : option (list Z) := match r with Ok (_, e) => Some (map c_lid (ubx_of e)) | UB _ => None end.
Definition reg1 : ublox := ublox_register Properties_Ublox.d0 (build (mkListener 5 [(5, 1); (1, 7)])).
Example C67_case : fresh_id reg1 9 /\
  called (ublox_read reg1 (ack_frame ++ ubx_frame 1 7 [0])) = Some [5; 5] /\
  called (ublox_read (only reg1 (build (mkListener 9 [(5, 1)]))) (ack_frame ++ ubx_frame 1 7 [0])) = Some [9] /\
  called (ublox_read (ublox_register reg1 (build (mkListener 9 [(5, 1)]))) (ack_frame ++ ubx_frame 1 7 [0])) = Some [5; 9; 5].
Proof.
  split; [intros H; vm_compute in H; intuition discriminate|]. split; [vm_compute; reflexivity|]. split; vm_compute; reflexivity.
Qed.
