(* Model of class UBLOX: src/ublox.cpp, include/UBLOX/ublox.h. *)
From Verif Require Import Base UbxModel UbxTx RtcmModel.

(* ublox.h:42-48 rtk_type_t *)
Definition T_NONE : Z := 0.
Definition T_ROVER : Z := 2.
Definition T_BASE : Z := 3.

(* What a UBLOX object does to the outside: a got_ubx call of one UBX listener, a write to its own serial port, a write
   to the correction interface (identified by a number). *)
Inductive event :=
| EvUbx (c : call)
| EvSer (bytes : list Z)
| EvRtk (iface : Z) (bytes : list Z).

(* ublox.h:74-81.  The UBX member is split into its receiving part (u_ubx), out_message_ (u_out) and listeners_ (u_ls).
   rtcm_'s only possible listeners are this object itself, so a count is enough (registerListener pushes `this` again
   on every config_base). *)
Record ublox := mkUblox {
  u_ubx : ubx; u_out : list Z; u_ls : list mlistener;
  u_rtcm : rtcm; u_nreg : nat;
  u_type : Z; u_rtk : Z }.
Definition uw_ubx s v := mkUblox v (u_out s) (u_ls s) (u_rtcm s) (u_nreg s) (u_type s) (u_rtk s).
Definition uw_out s v := mkUblox (u_ubx s) v (u_ls s) (u_rtcm s) (u_nreg s) (u_type s) (u_rtk s).
Definition uw_ls s v := mkUblox (u_ubx s) (u_out s) v (u_rtcm s) (u_nreg s) (u_type s) (u_rtk s).
Definition uw_rtcm s v := mkUblox (u_ubx s) (u_out s) (u_ls s) v (u_nreg s) (u_type s) (u_rtk s).
Definition uw_mode s n t i := mkUblox (u_ubx s) (u_out s) (u_ls s) (u_rtcm s) n t i.

(* UBLOX::got_rtcm ublox.cpp:141-148 *)
Definition got_rtcm (s : ublox) (f : list Z) : list event :=
  if u_type s =? T_BASE then [EvRtk (u_rtk s) f] else [].

(* ubx_.read_cb(buf[i]) *)
Definition to_ubx (s : ublox) (b : Z) : outcome (ublox * list event) :=
  let* (x, cs, _) := read_cb (u_ls s) (u_ubx s) b in Ok (uw_ubx s x, map EvUbx cs).
(* rtcm_.read_cb(buf + i, 1); the calls go to this->got_rtcm *)
Definition to_rtcm (s : ublox) (b : Z) : outcome (ublox * list event) :=
  let* (r, cs) := rtcm_byte (repeat 0 (u_nreg s)) (u_rtcm s) b in
  Ok (uw_rtcm s r, flat_map (fun c => got_rtcm s (snd c)) cs).

(* loop body of UBLOX::read_cb ublox.cpp:122-138 *)
Definition ublox_byte (s : ublox) (b : Z) : outcome (ublox * list event) :=
  if parsing_message (u_ubx s) then to_ubx s b
  else if rtcm_parsing (u_rtcm s) && (u_type s =? T_BASE) then to_rtcm s b
  else
    let* (s1, e1) := to_ubx s b in
    let* (s2, e2) := to_rtcm s1 b in
    Ok (s2, e1 ++ e2).

(* UBLOX::read_cb ublox.cpp:120-139 (size < 2^31: the loop counter is an int) *)
Fixpoint ublox_read (s : ublox) (bs : list Z) : outcome (ublox * list event) :=
  match bs with
  | [] => Ok (s, [])
  | b :: r =>
      let* (s1, e1) := ublox_byte s b in
      let* (s2, e2) := ublox_read s1 r in
      Ok (s2, e1 ++ e2)
  end.

(* run a sender of the UBX part; its writes go to the serial port *)
Definition usend (f : list Z -> outcome sent) (s : ublox) : outcome (ublox * list event) :=
  let* (o, w) := f (u_out s) in Ok (uw_out s o, map EvSer w).
Fixpoint usends (fs : list (list Z -> outcome sent)) (s : ublox) : outcome (ublox * list event) :=
  match fs with
  | [] => Ok (s, [])
  | f :: r =>
      let* (s1, e1) := usend f s in
      let* (s2, e2) := usends r s1 in
      Ok (s2, e1 ++ e2)
  end.

(* the seven RTCM output keys in the order of ublox.cpp:71-77 / 95-101; values in ubx_defs.h (CFG_VALSET_t) *)
Definition rtcm_keys : list Z :=
  [0x20910301; 0x20910384; 0x209102cf; 0x209102d4; 0x2091031b; 0x209102d9; 0x20910306].

(* UBLOX::config_base ublox.cpp:60-87 (stationary: type == STATIONARY, otherwise MOVING; the assert rules out others) *)
Definition config_base (s : ublox) (iface : Z) (stationary : bool) : outcome (ublox * list event) :=
  usends (map (fun k o => configure o 0 1 1 k 1) rtcm_keys ++
          if stationary then
            [(fun o => configure o 0 1 1 0x2091008b 1); (fun o => configure o 0 1 1 0x20030001 1);
             (fun o => configure o 0 1 500000 0x40030011 2); (fun o => configure o 0 1 119 0x40030010 2);
             start_survey_in]
          else [])
    (uw_mode s (S (u_nreg s)) T_BASE iface).

(* UBLOX::config_rover ublox.cpp:89-112 without the callback it installs (rover_cb) *)
Definition config_rover (s : ublox) (iface : Z) : outcome (ublox * list event) :=
  let* (s1, e) := usends (map (fun k o => configure o 0 1 0 k 1) rtcm_keys) (uw_mode s (u_nreg s) T_ROVER (u_rtk s)) in
  Ok (uw_mode s1 (u_nreg s1) (u_type s1) iface, e).

(* the callback installed on the correction interface, ublox.cpp:107-111: write through, then the static RTCM object
   `debug`, which has no listeners *)
Definition rover_cb (debug : rtcm) (buf : list Z) : outcome (rtcm * list event) :=
  let* (d, _) := rtcm_feed [] debug buf in Ok (d, [EvSer buf]).

(* registerUBXListener ublox.h:65 *)
Definition ublox_register (s : ublox) (l : mlistener) : ublox := uw_ls s (u_ls s ++ [l]).

(* UBX::get_version ubx.cpp:65-89.  The receive thread runs while the call waits; rx is whatever it hands to
   UBLOX::read_cb between the reset of got_ver_ and the last test of it (an arbitrary byte list, so every schedule and
   every timing of the 1000 ms limit is covered). *)
Definition get_version (s : ublox) (rx : list Z) : outcome (ublox * list event * bool) :=
  let s0 := uw_ubx s (w_ver (u_ubx s) false) in
  let* (s1, e1) := usend send_ver_poll s0 in
  let* (s2, e2) := ublox_read s1 rx in
  Ok (s2, e1 ++ e2, got_ver (u_ubx s2)).

(* UBLOX::UBLOX ublox.cpp:29-58: while (++num_tries < 3 && !get_version()); throws iff num_tries reaches 3.
   Result: Some = constructed, None = std::runtime_error.  rx1, rx2: bytes received during the two possible waits.
   The NavParser member is listener number nav_id. *)
Definition ctor_sends (major : Z) : list (list Z -> outcome sent) :=
  [disable_nmea major; set_nav_rate major 200;
   enable_message 0x01 0x07 1; enable_message 0x01 0x3C 1; enable_message 0x01 0x11 1;
   enable_message 0x02 0x15 1; enable_message 0x02 0x13 1].
(* ubx_.registerListener(&nav_) ublox.cpp:32; NavParser subscribes to RXM-SFRBX, nav.cpp:68-71 *)
Definition nav_ml (nav_id : Z) : mlistener := subscribe (mkML nav_id []) 0x02 0x13.
(* memory found by the constructor: the uninitialised parts of the members *)
Definition ublox_blank (u : uninit) (ru : runinit) (out0 : list Z) (nav_id : Z) : ublox :=
  mkUblox (ubx_init u) out0 [nav_ml nav_id] (rtcm_init ru) 0 T_NONE 0.
Definition ctor (u : uninit) (ru : runinit) (out0 : list Z) (nav_id : Z) (rx1 rx2 : list Z)
  : outcome (option ublox * list event) :=
  let finish s e := let* (s', e') := usends (ctor_sends (major (u_ubx s))) s in Ok (Some s', e ++ e') in
  let* (s1, e1, ok1) := get_version (ublox_blank u ru out0 nav_id) rx1 in
  if ok1 then finish s1 e1
  else
    let* (s2, e2, ok2) := get_version s1 rx2 in
    if ok2 then finish s2 (e1 ++ e2) else Ok (None, e1 ++ e2).

(* ---------------------------------------------------------------- two threads *)
(* The application thread runs the constructor or a configuration function while the receive thread runs UBLOX::read_cb.  A
   schedule is an interleaving of the atomic actions of both; granularity and memory model: UbloxConc.v, first comment. *)
Inductive act :=
| ARx (b : Z)                                        (* receive thread: the next byte *)
| ATx (f : Z -> list Z -> outcome sent)              (* a UBX sender, given major_version_ when it starts *)
| AType (t : Z) | AIface (i : Z) | AReg.             (* type_ = t;  rtk_interface_ = i;  rtcm_.registerListener(this) *)
Definition act_step (s : ublox) (a : act) : outcome (ublox * list event) :=
  match a with
  | ARx b => ublox_byte s b
  | ATx f => usend (f (major (u_ubx s))) s
  | AType t => Ok (uw_mode s (u_nreg s) t (u_rtk s), [])
  | AIface i => Ok (uw_mode s (u_nreg s) (u_type s) i, [])
  | AReg => Ok (uw_mode s (S (u_nreg s)) (u_type s) (u_rtk s), [])
  end.
Fixpoint conc (s : ublox) (h : list act) : outcome (ublox * list event) :=
  match h with
  | [] => Ok (s, [])
  | a :: r => let* (s1, e1) := act_step s a in let* (s2, e2) := conc s1 r in Ok (s2, e1 ++ e2)
  end.

(* the configuration functions, action by action *)
Definition rates_tx (v : Z) : list act := map (fun k => ATx (fun _ o => configure o 0 1 v k 1)) rtcm_keys.
(* UBLOX::config_base ublox.cpp:60-87 *)
Definition base_acts (i : Z) (st : bool) : list act :=
  [AType T_BASE; AIface i; AReg] ++ rates_tx 1 ++
  if st then [ATx (fun _ o => configure o 0 1 1 0x2091008b 1); ATx (fun _ o => configure o 0 1 1 0x20030001 1);
              ATx (fun _ o => configure o 0 1 500000 0x40030011 2); ATx (fun _ o => configure o 0 1 119 0x40030010 2);
              ATx (fun _ => start_survey_in)] else [].
(* UBLOX::config_rover ublox.cpp:89-106 *)
Definition rover_acts (i : Z) : list act := [AType T_ROVER] ++ rates_tx 0 ++ [AIface i].
(* end of the constructor ublox.cpp:50-57 *)
Definition setup_acts : list act :=
  [ATx disable_nmea; ATx (fun m => set_nav_rate m 200);
   ATx (fun _ => enable_message 0x01 0x07 1); ATx (fun _ => enable_message 0x01 0x3C 1); ATx (fun _ => enable_message 0x01 0x11 1);
   ATx (fun _ => enable_message 0x02 0x15 1); ATx (fun _ => enable_message 0x02 0x13 1)].

(* the bytes a schedule hands to the receive thread *)
Definition rx_of (h : list act) : list Z := flat_map (fun a => match a with ARx b => [b] | _ => [] end) h.
Definition is_tx (a : act) : bool := match a with ATx _ => true | _ => false end.

(* When the bytes that reach UBLOX::read_cb during construction arrive.  The receive thread of the interface can call
   read_cb as soon as add_listener (ublox.cpp:31) has run. *)
Record csched := mkCS {
  c_type0 : Z;             (* what the memory of type_ holds before ublox.cpp:34: no initialiser, ublox.h:80 *)
  c_a : list Z;            (* between ublox.cpp:31 and :32 *)
  c_b : list Z;            (* between ublox.cpp:32 and :34 *)
  c_0 : list Z;            (* between ublox.cpp:34 and the first store to got_ver_, ubx.cpp:69 *)
  c_1 : list Z;            (* from then to the last test of got_ver_ in the first get_version *)
  c_g : list Z;            (* from then to the second store to got_ver_ *)
  c_2 : list Z;            (* from then to the last test in the second get_version *)
  c_setup : list act }.    (* interleaving of ublox.cpp:50-57 with the bytes that arrive meanwhile *)

(* UBLOX::UBLOX ublox.cpp:29-58 with bytes arriving at any time *)
Definition ctor_any (u : uninit) (ru : runinit) (out0 : list Z) (nav_id : Z) (c : csched) : outcome (option ublox * list event) :=
  let* (sa, ea) := ublox_read (mkUblox (ubx_init u) out0 [] (rtcm_init ru) 0 (c_type0 c) 0) (c_a c) in    (* :31 *)
  let* (sb, eb) := ublox_read (ublox_register sa (nav_ml nav_id)) (c_b c) in                              (* :32 *)
  let* (s0, e0) := ublox_read (uw_mode sb (u_nreg sb) T_NONE (u_rtk sb)) (c_0 c) in                       (* :34 *)
  let finish s e := let* (s', e') := conc s (c_setup c) in Ok (Some s', e ++ e') in                       (* :50-57 *)
  let* (s1, e1, ok1) := get_version s0 (c_1 c) in                                                         (* :38 *)
  let ev1 := ea ++ eb ++ e0 ++ e1 in
  if ok1 then finish s1 ev1
  else
    let* (sg, eg) := ublox_read s1 (c_g c) in
    let* (s2, e2, ok2) := get_version sg (c_2 c) in                                                       (* :38 *)
    if ok2 then finish s2 (ev1 ++ eg ++ e2) else Ok (None, ev1 ++ eg ++ e2).                              (* :46 *)
