(* C69 (registering a listener while a message is being handed out), C70 (configuring while bytes arrive), C71 (what may be
   destroyed when).  Models: ListenerVec.v, UbloxConc.v, Lifetime.v. *)
From Verif Require Import Base UbxSpec UbxModel UbxProofs UbxStream UbxMain UbxMore UbxHist UbxApi UbxEx
  UbxTx UbxTxSpec UbxTxApi CrcSpec RtcmModel RtcmSpec RtcmProofs RtcmApi Properties_Rtcm
  UbloxModel UbloxSpec UbloxProofs UbloxApi UbloxThm UbloxCfg Properties_Ublox ListenerVec UbloxConc Lifetime.

(* ---- C69 *)
(* Listeners ls were registered one after the other.  A message arrives; sub l: is l subscribed to it.  nth k ps []: the listeners
   registered (by another thread, or by a callback) between the k-th read of the list by the dispatch and the one before.
   early ps (reads sub ls): all that were registered before its last read.  With 2^e the least power of two not below the number of
   listeners: if the registrations fit, exactly the old subscribed listeners are called, in order, and the new ones are
   registered after them; otherwise the dispatch reads freed memory. *)
Theorem C69_ubx_dispatch_with_registrations sub ls ps : ls <> [] ->
  exists e, (length ls <= 2 ^ e < 2 * length ls /\
    (length ls + length (early ps (reads sub ls)) <= 2 ^ e ->
       ubx_dispatch sub ps (pushes vec_new ls) = Done (pushes vec_new (ls ++ early ps (reads sub ls))) (filter sub ls)) /\
    (2 ^ e < length ls + length (early ps (reads sub ls)) -> ubx_dispatch sub ps (pushes vec_new ls) = UseAfterFree))%nat.
Proof. exact (ubx_dispatch_built sub ls ps). Qed.
Print Assumptions C69_ubx_dispatch_with_registrations.
(* the same for the lists that are not filtered: RTCM listeners, serial listeners, log play-back *)
Theorem C69_all_dispatch_with_registrations ls ps : ls <> [] ->
  exists e, (length ls <= 2 ^ e < 2 * length ls /\
    (length ls + length (early ps (length ls)) <= 2 ^ e ->
       all_dispatch ps (pushes vec_new ls) = Done (pushes vec_new (ls ++ early ps (length ls))) ls) /\
    (2 ^ e < length ls + length (early ps (length ls)) -> all_dispatch ps (pushes vec_new ls) = UseAfterFree))%nat.
Proof. exact (all_dispatch_built ls ps). Qed.
Print Assumptions C69_all_dispatch_with_registrations.
(* "a listener may be registered at any time" is false: with 1, 2, 4, 8, ... listeners, one registration before the dispatch has
   read the list for the last time makes it read freed memory *)
Theorem C69_register_any_time_refuted sub ls ps f :
  length ls = (2 ^ f)%nat -> early ps (reads sub ls) <> [] -> ubx_dispatch sub ps (pushes vec_new ls) = UseAfterFree.
Proof. exact (full_dispatch sub ls ps f). Qed.
Print Assumptions C69_register_any_time_refuted.
(* registered between messages, all is well *)
Theorem C69_register_between_messages_partial sub ls :
  ubx_dispatch sub [] (pushes vec_new ls) = Done (pushes vec_new ls) (filter sub ls) /\
  all_dispatch [] (pushes vec_new ls) = Done (pushes vec_new ls) ls.
Proof. exact (quiet_dispatch sub ls). Qed.
Print Assumptions C69_register_between_messages_partial.
(* listener 77 (ephemerides) alone, as the constructor leaves it: a registration between its two uses is fatal; a fourth
   listener beside three is not, and is not called for the message in progress; a callback of the last listener may register *)
Example C69_case :
  ubx_dispatch (fun _ => true) [[]; [9]] (pushes vec_new [77]) = UseAfterFree /\
  ubx_dispatch (fun l => negb (l =? 2)) [[]; [4]] (pushes vec_new [1; 2; 3]) = Done (mkVec 3 [1; 2; 3; 4] 4) [1; 3] /\
  ubx_dispatch (fun _ => true) [[]; []; [4]; [5]] (pushes vec_new [1; 2; 3]) = UseAfterFree /\
  ubx_dispatch (fun _ => true) [[]; []; [9]] (pushes vec_new [77]) = Done (mkVec 1 [77] 1) [77] /\
  length [77] = (2 ^ 0)%nat /\ early [[]; [9]] (reads (fun _ => true) [77]) <> [] /\
  all_dispatch [[5]] (pushes vec_new [1; 2]) = UseAfterFree.
Proof. repeat split; try reflexivity. discriminate. Qed.

(* ---- C70 *)
(* prog: the actions of a configuration function (UbloxConc.v); bs: bytes the receive thread handles meanwhile; h: any interleaving.
   base_acts / rover_acts run alone are config_base / config_rover. *)
Theorem C70_alone s i st : conc s (base_acts i st) = config_base s i st /\ conc s (rover_acts i) = config_rover s i.
Proof. exact (conj (base_alone s i st) (rover_alone s i)). Qed.
Print Assumptions C70_alone.
Theorem C70_config_base_commands u ru n s i st bs h s' ev :
  uninit_ok u -> runinit_ok ru -> UReach u ru n s -> bytes_ok bs -> shuffle (base_acts i st) (map ARx bs) h -> conc s h = Ok (s', ev) ->
  exists s0 ev0, config_base s i st = Ok (s0, ev0) /\ ser_of ev = ser_of ev0.
Proof. intros Hu Hr HR. exact (base_any_schedule s i st bs h s' ev (proj1 (ureach_inv u ru n s Hu Hr HR))). Qed.
Print Assumptions C70_config_base_commands.
Theorem C70_config_rover_commands u ru n s i bs h s' ev :
  uninit_ok u -> runinit_ok ru -> UReach u ru n s -> bytes_ok bs -> shuffle (rover_acts i) (map ARx bs) h -> conc s h = Ok (s', ev) ->
  exists s0 ev0, config_rover s i = Ok (s0, ev0) /\ ser_of ev = ser_of ev0.
Proof. intros Hu Hr HR. exact (rover_any_schedule s i bs h s' ev (proj1 (ureach_inv u ru n s Hu Hr HR))). Qed.
Print Assumptions C70_config_rover_commands.
(* no frame goes anywhere but to the new interface when an object is first made a base *)
Theorem C70_first_base_forwards u ru s i st bs h s' ev :
  uninit_ok u -> runinit_ok ru -> UReach u ru 0 s -> bytes_ok bs -> shuffle (base_acts i st) (map ARx bs) h -> conc s h = Ok (s', ev) ->
  Forall (fun w => fst w = i /\ exists m, 1 <= m <= 1018 /\ rtcm_frame m (snd w)) (rtk_of ev).
Proof.
  intros Hu Hr HR Hb HS E. destruct (ureach_inv u ru 0 s Hu Hr HR) as [HI HN]. exact (first_base_forwards s i st bs h s' ev HI HN Hb HS E).
Qed.
Print Assumptions C70_first_base_forwards.
(* the set-up at the end of the constructor: reception is unaffected, and the commands are those for the protocol version known when
   disable_nmea and set_nav_rate start *)
Theorem C70_setup u ru s bs h s' ev :
  uninit_ok u -> runinit_ok ru -> polled u ru s -> bytes_ok bs -> shuffle setup_acts (map ARx bs) h -> conc s h = Ok (s', ev) ->
  exists p1 q1 p2 q2 sr er, bs = p1 ++ q1 /\ bs = p2 ++ q2 /\
    ser_of ev = nmea_writes (version_after s p1) ++ rate_writes (version_after s p2) ++ setup_messages /\
    ublox_read s bs = Ok (sr, er) /\ ubx_of ev = ubx_of er /\ rtk_of ev = rtk_of er /\ u_ubx s' = u_ubx sr /\ u_rtcm s' = u_rtcm sr.
Proof. intros Hu Hr HP. exact (setup_any_schedule s bs h s' ev (polled_inv u ru s Hu Hr HP)). Qed.
Print Assumptions C70_setup.
Theorem C70_setup_alone m : setup_writes m = nmea_writes m ++ rate_writes m ++ setup_messages.
Proof. exact (setup_split m). Qed.
Print Assumptions C70_setup_alone.
(* the protocol version changes only when a MON-VER message is handed out *)
Theorem C70_version_stable s p q sr er l :
  ublox_read s (p ++ q) = Ok (sr, er) -> In l (u_ls s) -> subscribed l 10 4 = true ->
  (forall msg, ~ In (mkCall (ml_id l) 10 4 msg) (ubx_of er)) -> version_after s p = major (u_ubx s).
Proof. exact (read_version p s q sr er l). Qed.
Print Assumptions C70_version_stable.
(* no schedule adds a fault to those of plain reception (C07, C12): the version text of MON-VER, oversized payloads *)
Theorem C70_no_new_faults u ru n s prog bs h k :
  uninit_ok u -> runinit_ok ru -> UReach u ru n s -> bytes_ok bs ->
  (exists i st, prog = base_acts i st) \/ (exists i, prog = rover_acts i) \/ prog = setup_acts ->
  shuffle prog (map ARx bs) h -> conc s h = UB k -> k = UB_cstring \/ k = UB_oob_write.
Proof.
  intros Hu Hr HR Hb HP HS. apply conc_ub; [exact (proj1 (ureach_inv u ru n s Hu Hr HR))|].
  apply (shuffle_forall _ _ _ _ HS); [|apply rx_ok; exact Hb]. destruct HP as [(i & st & ->)|[(i & ->)| ->]]; [apply base_ok|apply rover_ok|apply setup_ok].
Qed.
Print Assumptions C70_no_new_faults.
(* "frames go to the interface just configured" is false when a rover is made a base again, on another interface: a frame that completes
   between the store to the mode and the store to the interface goes to the old one.  d2: a base on interface 5 *)
Definition d3 : ublox := st_or d2 (config_rover d2 6).
Lemma d3_reach : UReach u0 ru0 1 d3.
Proof.
  destruct (config_rover d2 6) as [[s ev]|k] eqn:E.
  - apply (U_rover u0 ru0 1 d2 6 d3 ev d2_reach). unfold d3. rewrite E. reflexivity.
  - exfalso. assert (X : evs (config_rover d2 6) <> None) by (vm_compute; discriminate). rewrite E in X. apply X. reflexivity.
Qed.
Definition h3 : list act := match base_acts 7 false with a :: r => a :: map ARx rf0 ++ r | [] => [] end.
Lemma shuffle_left {A} (l : list A) : shuffle l [] l. Proof. induction l; constructor; assumption. Qed.
Lemma shuffle_rx_block bs r : shuffle r (map ARx bs) (map ARx bs ++ r).
Proof. induction bs as [|b bs IH]; [apply shuffle_left|]. cbn [map app]. constructor. exact IH. Qed.
Theorem C70_new_interface_only_refuted :
  exists n s i bs h s' ev, UReach u0 ru0 n s /\ bytes_ok bs /\ shuffle (base_acts i false) (map ARx bs) h /\ conc s h = Ok (s', ev) /\
    exists w, In w (rtk_of ev) /\ fst w <> i.
Proof.
  exists 1%nat, d3, 7, rf0, h3. destruct (conc d3 h3) as [[s' ev]|k] eqn:E.
  - exists s', ev. split; [exact d3_reach|]. split; [apply bytes_ok_dec; vm_compute; reflexivity|]. split; [|split; [reflexivity|]].
    + unfold h3, base_acts. cbn [app]. constructor. apply shuffle_rx_block.
    + exists (6, rf0). split; [|discriminate].
      assert (X : option_map rtk_of (evs (conc d3 h3)) = Some [(6, rf0)]) by (vm_compute; reflexivity). rewrite E in X. cbn [evs option_map] in X.
      assert (rtk_of ev = [(6, rf0)]) as -> by congruence. left. reflexivity.
  - exfalso. assert (X : option_map rtk_of (evs (conc d3 h3)) = Some [(6, rf0)]) by (vm_compute; reflexivity). rewrite E in X. discriminate.
Qed.
Print Assumptions C70_new_interface_only_refuted.
(* a frame arrives before, and one after, the interface is set for the first time (d1: constructed, one listener) *)
Example C70_case :
  UReach u0 ru0 0 d1 /\
  let h := [AType T_BASE] ++ map ARx rf0 ++ [AIface 7; AReg] ++ map ARx rf0 ++ skipn 3 (base_acts 7 true) in
  shuffle (base_acts 7 true) (map ARx (rf0 ++ rf0)) h /\
  option_map rtk_of (evs (conc d1 h)) = Some [(7, rf0)] /\
  option_map ser_of (evs (conc d1 h)) = option_map ser_of (evs (config_base d1 7 true)).
Proof.
  split; [exact d1_reach|]. cbn zeta. split.
  - unfold base_acts. rewrite map_app. cbn [app]. constructor.
    assert (G : forall bs r b2 r2, shuffle r b2 r2 -> shuffle r (map ARx bs ++ b2) (map ARx bs ++ r2)).
    { induction bs as [|b bs IH]; intros r b2 r2 HS; [exact HS|]. cbn [map app]. constructor. apply IH. exact HS. }
    apply G. constructor. constructor. apply shuffle_rx_block.
  - split; vm_compute; reflexivity.
Qed.
Example C70_setup_case : exists s ev, get_version (ublox_blank u0 ru0 out00 77) mv_frame = Ok (s, ev, true) /\ polled u0 ru0 s /\
  option_map ser_of (evs (conc s (firstn 1 setup_acts ++ map ARx mv_frame ++ skipn 1 setup_acts))) = Some (setup_writes 27).
Proof.
  destruct (get_version (ublox_blank u0 ru0 out00 77) mv_frame) as [[[s ev] b]|k] eqn:E.
  - exists s, ev.
    assert (X : (let* (s, ev, b) := get_version (ublox_blank u0 ru0 out00 77) mv_frame in
                 Ok (b, option_map ser_of (evs (conc s (firstn 1 setup_acts ++ map ARx mv_frame ++ skipn 1 setup_acts))))) = Ok (true, Some (setup_writes 27))) by (vm_compute; reflexivity).
    rewrite E in X. cbn [bind] in X. assert (b = true) as -> by congruence. split; [reflexivity|]. split; [|congruence].
    apply (polled_first u0 ru0 out00 77 mv_frame s ev); [vm_compute; reflexivity|exact ver_bytes|exact E].
  - exfalso. assert (X : (let* (s, ev, b) := get_version (ublox_blank u0 ru0 out00 77) mv_frame in Ok b) = Ok true) by (vm_compute; reflexivity).
    rewrite E in X. discriminate.
Qed.

(* ---- C71 *)
(* client_ok h: everything is constructed once and only live things are used; safe_recv: everything a received buffer reaches is alive *)
Theorem C71_runs_iff_safe h : client_ok h ->
  (exists w es, exec empty_world h = Ran w es) <-> (forall h1 i buf fr h2, h = h1 ++ Recv i buf fr :: h2 -> safe_recv h1 i fr).
Proof. exact (runs_iff_safe h). Qed.
Print Assumptions C71_runs_iff_safe.
(* what then happens *)
Theorem C71_effects h : client_ok h -> (forall h1 i buf fr h2, h = h1 ++ Recv i buf fr :: h2 -> safe_recv h1 i fr) ->
  exists w es, exec empty_world h = Ran w es /\ effects h es.
Proof. intros HC HS. destruct (exec_safe h HC HS) as (w & es & E & _ & HE). eauto. Qed.
Print Assumptions C71_effects.
(* "an object that failed to connect, or was destroyed, is out of the way" is false: it stays registered with its port, and the next
   buffer the port receives is handed to it *)
Theorem C71_dead_object_detached_refuted h1 h2 o p b buf fr : client_ok (h1 ++ Recv p buf fr :: h2) ->
  In (New o p b) h1 -> b = false \/ In (Del o) h1 -> exec empty_world (h1 ++ Recv p buf fr :: h2) = Dangling.
Proof. intros HC HN HD. exact (dead_stays h1 h2 o p b p buf fr HC HN HD eq_refl). Qed.
Print Assumptions C71_dead_object_detached_refuted.
(* a base and its port and correction link (base.cpp), then a second object on the same port.  The end of main destroys the link
   first: a frame received then is written to it *)
Definition fr0 : Z -> list (list Z) := fun o => if o =? 1 then [rf0] else [].
Definition life0 : list ev := [NewI 10; New 1 10 true; NewI 20; Base 1 20; New 2 10 true; Recv 10 rf0 fr0].
Definition effs (r : res) : option (list eff) := match r with Ran _ es => Some es | Dangling => None end.
Lemma client_app h e : client_ok h -> uses_ok h e -> client_ok (h ++ [e]).
Proof.
  intros HC HU h1 x h2 E. destruct h2 as [|y h2 _] using rev_ind.
  - apply app_inj_tail in E. destruct E as [<- <-]. exact HU.
  - rewrite app_comm_cons, app_assoc in E. apply app_inj_tail in E. destruct E as [E _]. exact (HC _ _ _ E).
Qed.
Lemma client_nil : client_ok []. Proof. intros h1 e h2 E. destruct h1; discriminate. Qed.
Lemma life0_client : client_ok life0.
Proof.
  unfold life0. pose proof client_nil as H.
  repeat (match goal with H : client_ok ?p |- client_ok ?q =>
    match q with context [_] => let n := eval cbn in (nth (length p) q (DelI 0)) in
      assert (client_ok (p ++ [n])) by (apply client_app; [exact H|]; clear H; unfold uses_ok, alive_i, alive_o; cbn; repeat split;
         try (intros; intuition (discriminate || congruence)); eauto 10; try (intros; intuition (match goal with E : New _ _ _ = New _ _ _ |- _ => injection E as <- <- end; auto; try discriminate)));
      clear H; cbn [app] in * end end). assumption.
Qed.
Example C71_case : client_ok life0 /\
  effs (exec empty_world life0) = Some [Read 1 rf0; Write 20 rf0; Read 2 rf0] /\
  exec empty_world (life0 ++ [DelI 20; Recv 10 rf0 fr0]) = Dangling /\
  exec empty_world [NewI 10; New 1 10 false; Recv 10 [0] (fun _ => [])] = Dangling /\
  effs (exec empty_world [NewI 10; New 1 10 true; NewI 20; Rover 1 20; Recv 20 [5; 6] (fun _ => [])]) = Some [Write 10 [5; 6]] /\
  exec empty_world [NewI 10; New 1 10 true; NewI 20; Rover 1 20; Del 1; Recv 20 [5; 6] (fun _ => [])] = Dangling.
Proof. split; [exact life0_client|]. repeat split; vm_compute; reflexivity. Qed.
