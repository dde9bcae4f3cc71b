(* C74: the end of main in the long-running example programs, while the receive threads are still running.  Model: Shutdown.v. *)
From Verif Require Import Base UbloxSpec Lifetime Shutdown.

(* ---- C74 *)
(* h: a history of constructions, destructions, registrations and received buffers.  Do (Recv i bf fr) um: interface i receives bf;
   object o completes the RTCM frames fr o and (um o) at least one UBX message from it. *)
Theorem C74_runs_iff_safe h : pclient_ok h ->
  (prun p_empty h <> None <-> forall h1 i bf fr um h2, h = h1 ++ Do (Recv i bf fr) um :: h2 -> psafe h1 i fr um).
Proof. exact (prun_iff h). Qed.
Print Assumptions C74_runs_iff_safe.

(* base.cpp: port 10, UBLOX object 1, UBX handler 30, link 20, destroyed in the order 20, 30, 1, 10.  However the receptions fall, no
   destroyed object is used iff the port receives no buffer that completes a correction frame once the link is gone, none that completes
   a UBX message once the handler is gone, and none at all once the object is gone *)
Theorem C74_base r h : shuffle base_main r h -> Forall is_rx r -> pclient_ok h ->
  (prun p_empty h <> None <-> forall h1 i bf fr um h2, h = h1 ++ Do (Recv i bf fr) um :: h2 -> i = 10 ->
     (In (lone (DelI 20)) h1 -> fr 1 = []) /\ (In (DelH 30) h1 -> um 1 = false) /\ ~ In (lone (Del 1)) h1).
Proof. exact (base_iff r h). Qed.
Print Assumptions C74_base.
(* rover.cpp: same construction; the link is destroyed first, so nothing it received can arrive late *)
Theorem C74_rover r h : shuffle rover_main r h -> Forall is_rx r -> pclient_ok h ->
  (prun p_empty h <> None <-> forall h1 i bf fr um h2, h = h1 ++ Do (Recv i bf fr) um :: h2 -> i = 10 ->
     (In (DelH 30) h1 -> um 1 = false) /\ ~ In (lone (Del 1)) h1).
Proof. exact (rover_iff r h). Qed.
Print Assumptions C74_rover.
(* read_serial.cpp with a log file: the logger (40) is deleted while the port still lists it: nothing at all may be received from then on *)
Theorem C74_log r h : shuffle log_main r h -> Forall is_rx r -> pclient_ok h ->
  (prun p_empty h <> None <-> forall h1 i bf fr um h2, h = h1 ++ Do (Recv i bf fr) um :: h2 -> ~ In (lone (Del 40)) h1).
Proof. exact (log_iff r h). Qed.
Print Assumptions C74_log.

(* "the programs can be stopped at any time" is false for each of them: one buffer of traffic at the wrong moment *)
Theorem C74_stop_any_time_refuted :
  (exists r h, shuffle base_main r h /\ Forall is_rx r /\ pclient_ok h /\ prun p_empty h = None) /\
  (exists r h, shuffle rover_main r h /\ Forall is_rx r /\ pclient_ok h /\ prun p_empty h = None) /\
  (exists r h, shuffle log_main r h /\ Forall is_rx r /\ pclient_ok h /\ prun p_empty h = None).
Proof.
  assert (HR : forall um fs, Forall is_rx [rx um fs]) by (intros um fs; constructor; [do 4 eexists; reflexivity|constructor]).
  split; [|split].
  - exists [rx false [[211; 0; 0]]], (late 7 base_main (rx false [[211; 0; 0]])). split; [apply late_shuffle|]. split; [apply HR|]. split; [|vm_compute; reflexivity].
    apply late_client; [exact base_client|]. apply aib_iff. reflexivity.
  - exists [rx true []], (late 8 rover_main (rx true [])). split; [apply late_shuffle|]. split; [apply HR|]. split; [|vm_compute; reflexivity].
    apply late_client; [exact rover_client|]. apply aib_iff. reflexivity.
  - exists [rx false []], (late 6 log_main (rx false [])). split; [apply late_shuffle|]. split; [apply HR|]. split; [|vm_compute; reflexivity].
    apply late_client; [exact log_client|]. apply aib_iff. reflexivity.
Qed.
Print Assumptions C74_stop_any_time_refuted.
(* the same buffers a moment earlier are harmless, and so is a buffer without complete messages after the handler is gone *)
Example C74_case : Forall is_rx [rx true [[211; 0; 0]]] /\
  (pclient_ok (late 6 base_main (rx true [[211; 0; 0]])) /\ prun p_empty (late 6 base_main (rx true [[211; 0; 0]])) <> None) /\
  (pclient_ok (late 8 base_main (rx false [])) /\ prun p_empty (late 8 base_main (rx false [])) <> None) /\
  (pclient_ok (late 7 rover_main (rx true [])) /\ prun p_empty (late 7 rover_main (rx true [])) <> None) /\
  (pclient_ok (late 5 log_main (rx true [])) /\ prun p_empty (late 5 log_main (rx true [])) <> None).
Proof.
  split; [constructor; [do 4 eexists; reflexivity|constructor]|].
  repeat split; try (vm_compute; discriminate); apply late_client; try apply aib_iff; try reflexivity; [exact base_client|exact base_client|exact rover_client|exact log_client].
Qed.
