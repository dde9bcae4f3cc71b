(* Model of the ROS node: src/ros/ublox_ros.cpp, include/UBLOX/ublox_ros.h and the message definitions in msg.
   ROS itself is not modelled: publish() is an event (type pub).  header.stamp = ros::Time::now() is left out of every
   message.  The generated message classes initialise all members to zero. *)
From Verif Require Import Base UbxModel UbxTx RtcmModel UbloxModel BitModel UtcModel Dbl UtcDouble NavModel NavDev.

(* ---------------------------------------------------------------- reading the message structure *)
(* packed little-endian members of UBX_message_t (ubx_defs.h:1007-1029) at a byte offset *)
Definition u8_at (m : list Z) (o : nat) : Z := nth o m 0.
Definition u16_at (m : list Z) (o : nat) : Z := of_le (firstn 2 (skipn o m)).
Definition u32_at (m : list Z) (o : nat) : Z := of_le (firstn 4 (skipn o m)).
Definition u64_at (m : list Z) (o : nat) : Z := of_le (firstn 8 (skipn o m)).
Definition i8_at (m : list Z) (o : nat) : Z := i8 (u8_at m o).
Definition i32_at (m : list Z) (o : nat) : Z := i32 (u32_at m o).
(* an R8 member: IEEE binary64; None for NaN and infinities *)
Definition f64_of_bits (w : Z) : option dbl :=
  let s := if w / 2 ^ 63 =? 0 then 1 else -1 in
  let ex := (w / 2 ^ 52) mod 2048 in
  let fr := w mod 2 ^ 52 in
  if ex =? 2047 then None else if ex =? 0 then Some (mkD (s * fr) (-1074)) else Some (mkD (s * (2 ^ 52 + fr)) (ex - 1075)).

(* ---------------------------------------------------------------- literals of ublox_ros.cpp *)
Definition D_1EM7 : dbl := mkD 7555786372591432 (-76).
Definition D_1EM5 : dbl := mkD 5902958103587057 (-69).
Definition D_1EM3 : dbl := mkD 4611686018427388 (-62).
Definition D_1EM2 : dbl := mkD 5764607523034235 (-59).   (* 1e-2 and 0.01 *)
Definition D_TENTH : dbl := mkD 7205759403792794 (-56).
(* M_PI / 180.0, ublox_ros.cpp:45 (a constant: the quotient is computed first) *)
Definition D_DEG : dbl := mkD 5030569068109113 (-58).
Lemma ros_literals : literal D_1EM7 1 7 /\ literal D_1EM5 1 5 /\ literal D_1EM3 1 3 /\ literal D_1EM2 1 2 /\ literal D_TENTH 1 1 /\
  (* D_DEG is a 53-bit number within half a unit of the quotient of the doubles D_PI and 180 *)
  2 ^ 52 <= dm D_DEG < 2 ^ 53 /\ 2 * Z.abs (dm D_PI * 2 ^ (de D_PI - de D_DEG) - dm D_DEG * 180) < 180.
Proof. unfold literal. repeat split; vm_compute; congruence. Qed.
Definition deg2rad (x : dbl) : dbl := dmul D_DEG x.       (* ublox_ros.cpp:43-46 *)

(* ---------------------------------------------------------------- published messages *)
(* msg/PositionVelocityTime.msg *)
Inductive pvi := Vyear | Vmonth | Vday | Vhour | Vmin | Vsec | Vnano | VtAcc | Vvalid | VfixType | Vflags | Vflags2 | VnumSV.
Inductive pvd := Vlla0 | Vlla1 | Vlla2 | VhMSL | VhAcc | VvAcc | Vvel0 | Vvel1 | Vvel2 | VgSpeed | VheadMot | VsAcc | VheadAcc
  | VpDOP | VheadVeh.
(* msg/RelPos.msg *)
Inductive rpi := RrefStationId | RaccHeading | Rflags.
Inductive rpd := Rned0 | Rned1 | Rned2 | Rlen | Rheading | Rhp0 | Rhp1 | Rhp2 | Rhplen | Racc0 | Racc1 | Racc2 | Racclen.
(* msg/SurveyStatus.msg *)
Inductive svi := Sdur | SmeanAcc | Sobs | Svalid | Sactive.
Inductive svd := Smean0 | Smean1 | Smean2 | Shp0 | Shp1 | Shp2.
(* msg/PosVelEcef.msg *)
Record ecef := mkEcef { em_fix : Z; em_lla : dbl * dbl * dbl; em_pos : dbl * dbl * dbl; em_hacc : dbl; em_vacc : dbl;
  em_vel : dbl * dbl * dbl; em_sacc : dbl }.
Definition ecef_new : ecef := mkEcef 0 (d0, d0, d0) (d0, d0, d0) d0 d0 (d0, d0, d0) d0.
(* msg/Ephemeris.msg and msg/GlonassEphemeris.msg carry the members of the same name (None: not in the message); times
   are two uint32 *)
Definition rostime (t : utc) : Z * Z := (u32 (sec t), u32 (nsec t)).
Inductive pub :=
| PubPvt (i : pvi -> Z) (d : pvd -> dbl)
| PubRel (i : rpi -> Z) (d : rpd -> dbl)
| PubSvin (i : svi -> Z) (d : svd -> dbl)
| PubEcef (e : ecef)
| PubObs (stamp : Z * Z) (n : Z)                (* n: number of observations in the vector *)
| PubEph (i : ifld -> option Z) (d : dfld -> dbl) (toe toc : Z * Z)
| PubGeph (i : gfld -> option Z) (d : gdfld -> dbl) (toe tof : Z * Z).

(* members of UBLOX_ROS that matter, ublox_ros.h:79-83; the three times are not initialised *)
Record ros := mkRos { r_pos : Z; r_vel : Z; r_pvt : Z; r_ecef : ecef }.

(* ---------------------------------------------------------------- callbacks *)
Definition tows_agree (s : ros) : bool := (r_pos s =? r_pvt s) && (r_pos s =? r_vel s).
(* pvtCB ublox_ros.cpp:145-190 *)
Definition pvt_i (m : list Z) (f : pvi) : Z :=
  match f with
  | Vyear => u16_at m 4 | Vmonth => u8_at m 6 | Vday => u8_at m 7 | Vhour => u8_at m 8 | Vmin => u8_at m 9 | Vsec => u8_at m 10
  | Vnano => i32_at m 16 | VtAcc => u32_at m 12 | Vvalid => u8_at m 11 | VfixType => u8_at m 20 | Vflags => u8_at m 21
  | Vflags2 => u8_at m 22 | VnumSV => u8_at m 23
  end.
Definition pvt_d (m : list Z) (f : pvd) : dbl :=
  match f with
  | Vlla0 => sc (i32_at m 28) D_1EM7 | Vlla1 => sc (i32_at m 24) D_1EM7 | Vlla2 => sc (i32_at m 32) D_1EM3
  | VhMSL => sc (i32_at m 36) D_1EM3 | VhAcc => sc (u32_at m 40) D_1EM3 | VvAcc => sc (u32_at m 44) D_1EM3
  | Vvel0 => sc (i32_at m 48) D_1EM3 | Vvel1 => sc (i32_at m 52) D_1EM3 | Vvel2 => sc (i32_at m 56) D_1EM3
  | VgSpeed => sc (i32_at m 60) D_1EM3 | VheadMot => sc (i32_at m 64) D_1EM5 | VsAcc => sc (u32_at m 68) D_1EM3
  | VheadAcc => sc (u32_at m 72) D_1EM5 | VpDOP => sc (u16_at m 76) D_1EM2 | VheadVeh => sc (i32_at m 84) D_1EM5
  end.
Definition pvtCB (s : ros) (m : list Z) : ros * list pub :=
  let e := r_ecef s in
  let e' := mkEcef (em_fix e) (pvt_d m Vlla0, pvt_d m Vlla1, pvt_d m Vlla2) (em_pos e) (pvt_d m VhAcc) (pvt_d m VvAcc) (em_vel e)
              (pvt_d m VsAcc) in
  let s' := mkRos (u32_at m 0) (r_vel s) (r_pvt s) e' in
  (s', PubPvt (pvt_i m) (pvt_d m) :: (if tows_agree s' then [PubEcef e'] else [])).
(* relposCB ublox_ros.cpp:192-214; accHeading is a uint32 in the message, so the double is converted *)
Definition d2u32 (x : dbl) : outcome Z := let t := dtrunc x in if (0 <=? t) && (t <? 2 ^ 32) then Ok t else UB UB_convert.
Definition rel_d (m : list Z) (f : rpd) : dbl :=
  match f with
  | Rned0 => sc (i32_at m 8) D_1EM2 | Rned1 => sc (i32_at m 12) D_1EM2 | Rned2 => sc (i32_at m 16) D_1EM2
  | Rlen => sc (i32_at m 20) D_1EM2 | Rheading => deg2rad (sc (i32_at m 24) D_1EM5)
  | Rhp0 => sc2 (i8_at m 32) D_1EM3 D_TENTH | Rhp1 => sc2 (i8_at m 33) D_1EM3 D_TENTH | Rhp2 => sc2 (i8_at m 34) D_1EM3 D_TENTH
  | Rhplen => sc2 (i8_at m 35) D_1EM3 D_TENTH
  | Racc0 => sc2 (u32_at m 36) D_1EM3 D_TENTH | Racc1 => sc2 (u32_at m 40) D_1EM3 D_TENTH
  | Racc2 => sc2 (u32_at m 44) D_1EM3 D_TENTH | Racclen => sc2 (u32_at m 48) D_1EM3 D_TENTH
  end.
Definition relposCB (m : list Z) : outcome (list pub) :=
  let* h := d2u32 (deg2rad (sc (u32_at m 52) D_1EM5)) in
  Ok [PubRel (fun f => match f with RrefStationId => u16_at m 2 | RaccHeading => h | Rflags => u32_at m 60 end) (rel_d m)].
(* svinCB ublox_ros.cpp:216-232; NAV_SVIN_t (ubx_defs.h:737-757) declares the means as unsigned *)
Definition svin_i (m : list Z) (f : svi) : Z :=
  match f with Sdur => u32_at m 8 | SmeanAcc => u32_at m 28 | Sobs => u32_at m 32 | Svalid => u8_at m 36 | Sactive => u8_at m 37 end.
Definition svin_d (m : list Z) (f : svd) : dbl :=
  match f with
  | Smean0 => sc (u32_at m 12) D_1EM2 | Smean1 => sc (u32_at m 16) D_1EM2 | Smean2 => sc (u32_at m 20) D_1EM2
  | Shp0 => sc (u8_at m 24) D_1EM3 | Shp1 => sc (u8_at m 25) D_1EM3 | Shp2 => sc (u8_at m 26) D_1EM3
  end.
Definition svinCB (m : list Z) : list pub := [PubSvin (svin_i m) (svin_d m)].
(* posECEFCB ublox_ros.cpp:234-244 *)
Definition posECEFCB (s : ros) (m : list Z) : ros * list pub :=
  let e := r_ecef s in
  let e' := mkEcef (em_fix e) (em_lla e) (d_of_int (i32_at m 4), d_of_int (i32_at m 8), d_of_int (i32_at m 12)) (em_hacc e) (em_vacc e)
              (em_vel e) (em_sacc e) in
  let s' := mkRos (u32_at m 0) (r_vel s) (r_pvt s) e' in
  (s', (if tows_agree s' then [PubEcef e'] else []) ++ [PubEcef e']).
(* velECEFCB ublox_ros.cpp:246-257: velocity[0] is assigned three times *)
Definition velECEFCB (s : ros) (m : list Z) : ros * list pub :=
  let e := r_ecef s in
  let '(_, v1, v2) := em_vel e in
  let vel := (d_of_int (i32_at m 4), v1, v2) in
  let '(_, v1, v2) := vel in let vel := (d_of_int (i32_at m 8), v1, v2) in
  let '(_, v1, v2) := vel in let vel := (d_of_int (i32_at m 12), v1, v2) in
  let e' := mkEcef (em_fix e) (em_lla e) (em_pos e) (em_hacc e) (em_vacc e) vel (em_sacc e) in
  let s' := mkRos (r_pos s) (u32_at m 0) (r_pvt s) e' in
  (s', (if tows_agree s' then [PubEcef e'] else []) ++ [PubEcef e']).
(* obsCB ublox_ros.cpp:259-328.  out.obs is an empty std::vector and is never resized, so the first statement of the loop
   body writes element 0 of an empty vector; the rest of the body is not modelled
   (its choice of signal label and frequency is, below: sigId, obs_freq).  msg.rcvTow * 1e3 is converted to int. *)
Definition d2int (x : option dbl) : outcome Z := match x with Some d => d2i32 (dtrunc d) | None => UB UB_convert end.
Definition obsCB (m : list Z) : outcome (list pub) :=
  let* tow := d2int (option_map (fun r => dmul r D_1E3) (f64_of_bits (u64_at m 0))) in
  let* t := fromGPS (u16_at m 8) tow in
  if 0 <? i8_at m 11 then UB UB_oob_write else Ok [PubObs (rostime t) 0].
(* ephCB ublox_ros.cpp:330-381 *)
Definition eph_sync (f : ifld) : bool :=
  match f with Fiode1 | Fiode2 | Fiode3 | Fgot1 | Fgot2 | Fgot3 => true | _ => false end.
Definition ephCB (e : eph) : list pub :=
  [PubEph (fun f => if eph_sync f then None else Some (ei e f)) (ed e) (rostime (e_toe e)) (rostime (e_toc e))].
(* gephCB ublox_ros.cpp:383-416 *)
Definition geph_sync (f : gfld) : bool := match f with Ggot1 | Ggot2 | Ggot3 | Ggot4 | Gmark => true | _ => false end.
Definition gephCB (g : geph) : list pub :=
  [PubGeph (fun f => if geph_sync f then None else Some (gi g f)) (gd g) (rostime (g_toe g)) (rostime (g_tof g))].

(* got_ubx ublox_ros.cpp:110-140 *)
Definition ros_got_ubx (s : ros) (cls id : Z) (m : list Z) : outcome (ros * list pub) :=
  if cls =? 0x01 then
    if id =? 0x07 then Ok (pvtCB s m)
    else if id =? 0x3C then let* p := relposCB m in Ok (s, p)
    else if id =? 0x01 then Ok (posECEFCB s m)
    else if id =? 0x11 then Ok (velECEFCB s m)
    else if id =? 0x3B then Ok (s, svinCB m)
    else Ok (s, [])
  else if cls =? 0x02 then
    if id =? 0x15 then let* p := obsCB m in Ok (s, p) else Ok (s, [])
  else Ok (s, []).

(* a history of calls of the node's callbacks *)
Inductive rop := RUbx (cls id : Z) (m : list Z) | REph (e : eph) | RGeph (g : geph).
Definition ros_step (s : ros) (o : rop) : outcome (ros * list pub) :=
  match o with RUbx c i m => ros_got_ubx s c i m | REph e => Ok (s, ephCB e) | RGeph g => Ok (s, gephCB g) end.
Fixpoint ros_run (s : ros) (h : list rop) : outcome (ros * list pub) :=
  match h with
  | [] => Ok (s, [])
  | o :: r => let* (s1, p1) := ros_step s o in let* (s2, p2) := ros_run s1 r in Ok (s2, p1 ++ p2)
  end.

(* ---------------------------------------------------------------- the node *)
(* The node is one process: a UBLOX object with its NavParser, and the UBLOX_ROS object.  rid identifies the UBLOX_ROS
   object as a listener and as a callback, nid the parser. *)
Record node := mkNode { nd_u : ublox; nd_nav : nav; nd_ros : ros }.
(* UBLOX_ROS::UBLOX_ROS ublox_ros.cpp:50-108.  subscribe() is called on the node itself, which only fills its own set;
   registerUBXListener, registerEphCallback and registerGephCallback are not called.  The serial port object is a local
   variable of the constructor and is destroyed at its end while the UBLOX object keeps a reference to it; here the port
   is taken to stay alive.  None: the UBLOX constructor threw. *)
Definition node_start (u : uninit) (ru : runinit) (out0 : list Z) (nid : Z) (rx1 rx2 : list Z) (rows0 : rows) (t0 : ros)
  (rtk_type iface : Z) : outcome (option node * list event) :=
  let* (o, e0) := ctor u ru out0 nid rx1 rx2 in
  match o with
  | None => Ok (None, e0)
  | Some s =>
      let* (s', e1) :=
        if Z.land rtk_type 2 =? 0 then Ok (s, [])
        else if rtk_type =? T_ROVER then config_rover s iface
        else if rtk_type =? T_BASE then config_base s iface true
        else Ok (s, []) in
      Ok (Some (mkNode s' (nav_init rows0) t0), e0 ++ e1)
  end.
(* calls that reach the node: UBLOX_ROS::got_ubx, ublox_ros.cpp:110 *)
Definition to_ros (rid : Z) (e : event) : list rop :=
  match e with EvUbx c => if c_lid c =? rid then [RUbx (c_cls c) (c_id c) (c_msg c)] else [] | _ => [] end.
Definition nav_to_ros (rid : Z) (v : nev) : list rop :=
  match v with
  | EvEph c e => if c =? rid then [REph e] else []
  | EvGeph c g => if c =? rid then [RGeph g] else []
  | EvFell _ => []
  end.
(* bytes received on the serial port (the calls of one byte: got_ubx first, then ephemeris callbacks) *)
Fixpoint node_read (junk : list Z) (nid rid : Z) (s : node) (bs : list Z) : outcome (node * list pub) :=
  match bs with
  | [] => Ok (s, [])
  | b :: r =>
      let* (u1, n1, e1, v1) := dev_read junk nid (nd_u s) (nd_nav s) [b] in
      let* (x1, p1) := ros_run (nd_ros s) (flat_map (to_ros rid) e1 ++ flat_map (nav_to_ros rid) v1) in
      let* (s2, p2) := node_read junk nid rid (mkNode u1 n1 x1) r in
      Ok (s2, p1 ++ p2)
  end.

(* ---------------------------------------------------------------- sigId, sysId ubx_defs.h:915-992 *)
Definition sigId (g s : Z) : Z :=
  if (g =? 0) && (s =? 0) then 0 else if (g =? 0) && (s =? 3) then 1 else if (g =? 0) && (s =? 4) then 2
  else if (g =? 2) && (s =? 0) then 3 else if (g =? 2) && (s =? 1) then 4 else if (g =? 2) && (s =? 5) then 5
  else if (g =? 2) && (s =? 6) then 6 else if (g =? 3) && (s =? 0) then 7 else if (g =? 3) && (s =? 1) then 8
  else if (g =? 3) && (s =? 2) then 9 else if (g =? 3) && (s =? 3) then 10 else if (g =? 5) && (s =? 0) then 11
  else if (g =? 6) && (s =? 0) then 12 else if (g =? 6) && (s =? 2) then 13 else -1.
Definition sysId (v : Z) : Z :=
  if (1 <=? v) && (v <=? 32) then 0 else if (33 <=? v) && (v <=? 64) then 3 else if (65 <=? v) && (v <=? 96) then 6
  else if (120 <=? v) && (v <=? 158) then 1 else if (159 <=? v) && (v <=? 163) then 3
  else if (193 <=? v) && (v <=? 197) then 5 else if (211 <=? v) && (v <=? 246) then 2 else if v =? 255 then 6 else -1.
(* the frequency switch of obsCB, ublox_ros.cpp:271-303; the labels are the constants of msg/Observation.msg *)
Inductive ofreq := FqGpsL1 | FqGpsL2 | FqGlo1 | FqGlo2 | FqZero.
Definition obs_freq (signal : Z) : ofreq :=
  if (signal =? 1) || (signal =? 5) || (signal =? 4) || (signal =? 12) then FqGpsL1
  else if (signal =? 2) || (signal =? 3) then FqGpsL2
  else if signal =? 13 then FqGlo1 else if signal =? 14 then FqGlo2 else FqZero.
