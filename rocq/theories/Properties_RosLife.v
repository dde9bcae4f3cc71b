(* C71, the ROS node.  Model: RosLife.v.  ros_main rtk: what the node's main thread does (rtk: the parameter rtk_type): serial port 10, UBLOX object 1,
   correction link 20 (opened if bit 1 of rtk is set); the port is destroyed at the end of the constructor, link and object when the node ends.
   r: the buffers received, falling anywhere (shuffle); a destroyed interface receives nothing (pclient_ok). *)
From Verif Require Import Base UbloxSpec Lifetime Shutdown RosLife.

(* once the constructor has returned nothing reaches the node but what arrives on the correction link, and unless the node is a rover that
   has no effect: no UBX message, no correction frame is ever read again *)
Theorem C71_ros_node_deaf rtk r h h1 i bf fr um h2 : shuffle (ros_main rtk) r h -> Forall is_rx r -> pclient_ok h ->
  h = h1 ++ Do (Recv i bf fr) um :: h2 -> In (lone (DelI 10)) h1 ->
  i = 20 /\ Z.testbit rtk 1 = true /\ (rtk <> 2 -> recv_effects (lib h1) i bf fr = []).
Proof. exact (ros_deaf rtk r h h1 i bf fr um h2). Qed.
Print Assumptions C71_ros_node_deaf.

(* and the port is destroyed, whatever rtk is *)
Theorem C71_ros_port_dies rtk : pclient_ok (ros_main rtk) /\ In (lone (DelI 10)) (ros_main rtk).
Proof. split; [apply ros_client|]. unfold ros_main. apply in_or_app. right. apply in_or_app. right. left. reflexivity. Qed.
Print Assumptions C71_ros_port_dies.

(* a rover passes what arrives on the link to the port: the node runs without using a destroyed object iff it is no rover, or no correction arrives
   after the constructor has returned *)
Theorem C71_ros_node rtk r h : shuffle (ros_main rtk) r h -> Forall is_rx r -> pclient_ok h ->
  (prun p_empty h <> None <-> (rtk = 2 -> forall h1 bf fr um h2, h = h1 ++ Do (Recv 20 bf fr) um :: h2 -> ~ In (lone (DelI 10)) h1)).
Proof. exact (ros_iff_role rtk r h). Qed.
Print Assumptions C71_ros_node.

(* "a rover node can be sent corrections" is false: the first one that arrives once the node is up is written to a port that does not exist any more *)
Definition corr : pev := Do (Recv 20 [211; 0; 0] (fun _ => [])) (fun _ => false).
Theorem C71_ros_rover_corrections_refuted : exists h, shuffle (ros_main 2) [corr] h /\ pclient_ok h /\ prun p_empty h = None.
Proof.
  exists [lone (NewI 10); lone (New 1 10 true); lone (NewI 20); lone (Rover 1 20); lone (DelI 10); corr; lone (DelI 20); lone (Del 1)].
  split; [exact (late_shuffle 5 (ros_main 2) corr)|]. split; [unfold corr; run_client|vm_compute; reflexivity].
Qed.
Print Assumptions C71_ros_rover_corrections_refuted.
(* a moment earlier it is passed on; a base, and a node with another rtk_type, are safe, and deaf *)
Example C71_ros_case :
  (let h := [lone (NewI 10); lone (New 1 10 true); lone (NewI 20); lone (Rover 1 20); corr; lone (DelI 10); lone (DelI 20); lone (Del 1)] in
   shuffle (ros_main 2) [corr] h /\ Forall is_rx [corr] /\ pclient_ok h /\ prun p_empty h <> None) /\
  (let h := [lone (NewI 10); lone (New 1 10 true); lone (NewI 20); lone (Base 1 20); lone (DelI 10); corr; lone (DelI 20); lone (Del 1)] in
   shuffle (ros_main 3) [corr] h /\ pclient_ok h /\ prun p_empty h <> None) /\
  (let h := [lone (NewI 10); lone (New 1 10 true); lone (NewI 20); lone (DelI 10); corr; lone (DelI 20); lone (Del 1)] in
   shuffle (ros_main 6) [corr] h /\ pclient_ok h /\ prun p_empty h <> None) /\
  (pclient_ok (ros_main 0) /\ prun p_empty (ros_main 0) <> None).
Proof.
  split; [|split; [|split]]; cbv zeta.
  - split; [exact (late_shuffle 4 (ros_main 2) corr)|]. split; [constructor; [do 4 eexists; reflexivity|constructor]|]. split; [unfold corr; run_client|vm_compute; discriminate].
  - split; [exact (late_shuffle 5 (ros_main 3) corr)|]. split; [unfold corr; run_client|vm_compute; discriminate].
  - split; [exact (late_shuffle 4 (ros_main 6) corr)|]. split; [unfold corr; run_client|vm_compute; discriminate].
  - split; [apply ros_client|vm_compute; discriminate].
Qed.
