(* What the receiver's messages carry (u-blox protocol description), independent of the node, and the published numbers
   expected from them. *)
From Coq Require Import QArith.
From Verif Require Import Base Dbl NavSpec.
Local Open Scope Z_scope.

(* v units of 10^-k; an angle of v units of 10^-k degrees, in radians *)
Definition deci (v k : Z) : Q := (inject_Z v / inject_Z (10 ^ k))%Q.
Definition radians (v k : Z) : Q := (deci v k * pi20 / inject_Z 180)%Q.

Definition b_ok (v : Z) := 0 <= v < 256.
Definition w_ok (v : Z) := 0 <= v < 2 ^ 16.
Definition l_ok (v : Z) := 0 <= v < 2 ^ 32.
Definition sl_ok (v : Z) := - 2 ^ 31 <= v < 2 ^ 31.
Definition sb_ok (v : Z) := - 2 ^ 7 <= v < 2 ^ 7.
(* signed members, two's complement *)
Definition sle32 (v : Z) : list Z := le32 (v mod 2 ^ 32).
Definition sbyte (v : Z) : Z := v mod 256.

(* UBX-NAV-PVT *)
Record pvt := mkPvt { v_itow : Z; v_year : Z; v_month : Z; v_day : Z; v_hour : Z; v_min : Z; v_sec : Z; v_valid : Z; v_tacc : Z;
  v_nano : Z; v_fix : Z; v_flags : Z; v_flags2 : Z; v_numsv : Z; v_lon : Z; v_lat : Z; v_height : Z; v_hmsl : Z; v_hacc : Z; v_vacc : Z;
  v_veln : Z; v_vele : Z; v_veld : Z; v_gspeed : Z; v_headmot : Z; v_sacc : Z; v_headacc : Z; v_pdop : Z; v_headveh : Z }.
Definition pvt_ok (x : pvt) : Prop :=
  l_ok (v_itow x) /\ w_ok (v_year x) /\ l_ok (v_tacc x) /\ sl_ok (v_nano x) /\ sl_ok (v_lon x) /\ sl_ok (v_lat x) /\ sl_ok (v_height x) /\
  sl_ok (v_hmsl x) /\ l_ok (v_hacc x) /\ l_ok (v_vacc x) /\ sl_ok (v_veln x) /\ sl_ok (v_vele x) /\ sl_ok (v_veld x) /\ sl_ok (v_gspeed x) /\
  sl_ok (v_headmot x) /\ l_ok (v_sacc x) /\ l_ok (v_headacc x) /\ w_ok (v_pdop x) /\ sl_ok (v_headveh x).
(* six reserved bytes r between pDOP and headVeh *)
Definition pvt_bytes (x : pvt) (r0 r1 r2 r3 r4 r5 : Z) : list Z :=
  le32 (v_itow x) ++ le16 (v_year x) ++ [v_month x; v_day x; v_hour x; v_min x; v_sec x; v_valid x] ++ le32 (v_tacc x) ++ sle32 (v_nano x) ++
  [v_fix x; v_flags x; v_flags2 x; v_numsv x] ++ sle32 (v_lon x) ++ sle32 (v_lat x) ++ sle32 (v_height x) ++ sle32 (v_hmsl x) ++
  le32 (v_hacc x) ++ le32 (v_vacc x) ++ sle32 (v_veln x) ++ sle32 (v_vele x) ++ sle32 (v_veld x) ++ sle32 (v_gspeed x) ++
  sle32 (v_headmot x) ++ le32 (v_sacc x) ++ le32 (v_headacc x) ++ le16 (v_pdop x) ++ [r0; r1; r2; r3; r4; r5] ++ sle32 (v_headveh x).

(* UBX-NAV-RELPOSNED, version 1; ver, r: version and reserved bytes *)
Record relpos := mkRelpos { p_ref : Z; p_itow : Z; p_n : Z; p_e : Z; p_d : Z; p_len : Z; p_heading : Z; p_hpn : Z; p_hpe : Z; p_hpd : Z;
  p_hplen : Z; p_accn : Z; p_acce : Z; p_accd : Z; p_acclen : Z; p_accheading : Z; p_flags : Z }.
Definition relpos_ok (x : relpos) : Prop :=
  w_ok (p_ref x) /\ l_ok (p_itow x) /\ sl_ok (p_n x) /\ sl_ok (p_e x) /\ sl_ok (p_d x) /\ sl_ok (p_len x) /\ sl_ok (p_heading x) /\
  sb_ok (p_hpn x) /\ sb_ok (p_hpe x) /\ sb_ok (p_hpd x) /\ sb_ok (p_hplen x) /\ l_ok (p_accn x) /\ l_ok (p_acce x) /\ l_ok (p_accd x) /\
  l_ok (p_acclen x) /\ l_ok (p_accheading x) /\ l_ok (p_flags x).
Definition relpos_bytes (x : relpos) (ver r0 r1 r2 r3 r4 q1 q2 q3 q4 : Z) : list Z :=
  [ver; r0] ++ le16 (p_ref x) ++ le32 (p_itow x) ++ sle32 (p_n x) ++ sle32 (p_e x) ++ sle32 (p_d x) ++ sle32 (p_len x) ++ sle32 (p_heading x) ++
  [r1; r2; r3; r4] ++ [sbyte (p_hpn x); sbyte (p_hpe x); sbyte (p_hpd x); sbyte (p_hplen x)] ++ le32 (p_accn x) ++ le32 (p_acce x) ++
  le32 (p_accd x) ++ le32 (p_acclen x) ++ le32 (p_accheading x) ++ [q1; q2; q3; q4] ++ le32 (p_flags x).

(* UBX-NAV-SVIN: the mean position is signed, centimetres and tenths of millimetres *)
Record svin := mkSvin { s_itow : Z; s_dur : Z; s_x : Z; s_y : Z; s_z : Z; s_hx : Z; s_hy : Z; s_hz : Z; s_acc : Z; s_obs : Z;
  s_valid : Z; s_active : Z }.
Definition svin_ok (x : svin) : Prop :=
  l_ok (s_itow x) /\ l_ok (s_dur x) /\ sl_ok (s_x x) /\ sl_ok (s_y x) /\ sl_ok (s_z x) /\ sb_ok (s_hx x) /\ sb_ok (s_hy x) /\ sb_ok (s_hz x) /\
  l_ok (s_acc x) /\ l_ok (s_obs x).
Definition svin_bytes (x : svin) (ver r0 r1 r2 q : Z) : list Z :=
  [ver; r0; r1; r2] ++ le32 (s_itow x) ++ le32 (s_dur x) ++ sle32 (s_x x) ++ sle32 (s_y x) ++ sle32 (s_z x) ++
  [sbyte (s_hx x); sbyte (s_hy x); sbyte (s_hz x); q] ++ le32 (s_acc x) ++ le32 (s_obs x) ++ [s_valid x; s_active x].

(* UBX-NAV-POSECEF and UBX-NAV-VELECEF: time of week, three signed components (cm, cm/s), accuracy *)
Definition ecef_bytes (itow x y z acc : Z) : list Z := le32 itow ++ sle32 x ++ sle32 y ++ sle32 z ++ le32 acc.

(* the history of messages shown by a PosVelEcef publication: x y z as sent *)
Definition triple := (Z * Z * Z)%type.
Definition d3 (t : triple) : dbl * dbl * dbl := let '(x, y, z) := t in (d_of_int x, d_of_int y, d_of_int z).

(* UBX-RXM-RAWX: receiver time of week (eight bytes of a binary64), week, leap seconds, number of measurements *)
Definition rawx_bytes (tow : list Z) (week leap num : Z) : list Z := tow ++ le16 week ++ [leap; num].

(* signals: u-blox gnssId and sigId, the constant of msg/Observation.msg, carrier *)
Inductive signal := GPS_L1CA | GPS_L2CL | GPS_L2CM | GAL_E1C | GAL_E1B | GAL_E5BI | GAL_E5BQ | BDS_B1I_D1 | BDS_B1I_D2 | BDS_B2I_D1
  | BDS_B2I_D2 | QZS_L1CA | GLO_L1 | GLO_L2.
Definition ubx_gnss (s : signal) : Z :=
  match s with GPS_L1CA | GPS_L2CL | GPS_L2CM => 0 | GAL_E1C | GAL_E1B | GAL_E5BI | GAL_E5BQ => 2
  | BDS_B1I_D1 | BDS_B1I_D2 | BDS_B2I_D1 | BDS_B2I_D2 => 3 | QZS_L1CA => 5 | GLO_L1 | GLO_L2 => 6 end.
Definition ubx_sig (s : signal) : Z :=
  match s with GPS_L1CA => 0 | GPS_L2CL => 3 | GPS_L2CM => 4 | GAL_E1C => 0 | GAL_E1B => 1 | GAL_E5BI => 5 | GAL_E5BQ => 6
  | BDS_B1I_D1 => 0 | BDS_B1I_D2 => 1 | BDS_B2I_D1 => 2 | BDS_B2I_D2 => 3 | QZS_L1CA => 0 | GLO_L1 => 0 | GLO_L2 => 2 end.
Definition msg_label (s : signal) : Z :=
  match s with GPS_L1CA => 1 | GPS_L2CL => 2 | GPS_L2CM => 3 | GAL_E1C => 4 | GAL_E1B => 5 | GAL_E5BI => 6 | GAL_E5BQ => 7
  | BDS_B1I_D1 => 8 | BDS_B1I_D2 => 9 | BDS_B2I_D1 => 10 | BDS_B2I_D2 => 11 | QZS_L1CA => 12 | GLO_L1 => 13 | GLO_L2 => 14 end.
