(* The u-blox protocol description (UBX-CFG, UBX-NAV, UBX-RXM, UBX-MON, UBX-ACK payloads), independent of the code: for every
   member its offset in the payload and its type as printed in the manual's tables.  Reserved bytes are left out. *)
From Coq Require Import String List.
From Verif Require Import Base.
Import ListNotations.
Local Open Scope string_scope.
Local Open Scope Z_scope.

(* the manual's types: unsigned, bit field, signed two's complement, IEEE 754 (as bit pattern), character *)
Inductive kind := kU1 | kU2 | kU4 | kX1 | kX2 | kX4 | kI1 | kI2 | kI4 | kR4 | kR8 | kCH.
Definition klen (k : kind) : Z :=
  match k with kU1 | kX1 | kI1 | kCH => 1 | kU2 | kX2 | kI2 => 2 | kU4 | kX4 | kI4 | kR4 => 4 | kR8 => 8 end.
Definition is_signed (k : kind) : bool := match k with kI1 | kI2 | kI4 => true | _ => false end.
(* byte number o of a payload *)
Definition pay (m : list Z) (o : Z) : Z := nth (Z.to_nat o) m 0.
(* n bytes from offset o, least significant first *)
Fixpoint le_sum (m : list Z) (o : Z) (n : nat) : Z :=
  match n with O => 0 | S k => le_sum m o k + pay m (o + Z.of_nat k) * 256 ^ Z.of_nat k end.
Definition doc_value (k : kind) (m : list Z) (o : Z) : Z :=
  let v := le_sum m o (Z.to_nat (klen k)) in
  if is_signed k && (2 ^ (8 * klen k - 1) <=? v) then v - 2 ^ (8 * klen k) else v.

(* The structure and the members are named as in the header (the manual writes baudRate, iTOW, staticHoldThresh,
   staticHoldMaxDist, cnoThreshNumSVs, layers for baudrate, iTow, staticHoldThr, staticHoldMax, cnoThreshNumS, layer).
   Class, id, payload length, members (name, offset, type). *)
Record doc := mkDoc { d_struct : string; d_cls : Z; d_id : Z; d_len : Z; d_rows : list (string * Z * kind) }.

Definition doc_ack_ack : doc := mkDoc "ACK_ACK" 0x05 0x01 2 [("clsID", 0, kU1); ("msgID", 1, kU1)].
Definition doc_ack_nak : doc := mkDoc "ACK_NACK" 0x05 0x00 2 [("clsID", 0, kU1); ("msgID", 1, kU1)].
Definition doc_cfg_msg : doc := mkDoc "CFG_MSG" 0x06 0x01 3 [("msgClass", 0, kU1); ("msgID", 1, kU1); ("rate", 2, kU1)].
Definition doc_cfg_prt : doc := mkDoc "CFG_PRT" 0x06 0x00 20
  [("portID", 0, kU1); ("txReady", 2, kX2); ("mode", 4, kX4); ("baudrate", 8, kU4); ("inProtoMask", 12, kX2);
   ("outProtoMask", 14, kX2); ("flags", 16, kX2)].
Definition doc_cfg_rate : doc := mkDoc "CFG_RATE" 0x06 0x08 6 [("measRate", 0, kU2); ("navRate", 2, kU2); ("timeRef", 4, kU2)].
Definition doc_cfg_nav5 : doc := mkDoc "CFG_NAV5" 0x06 0x24 36
  [("mask", 0, kX2); ("dynModel", 2, kU1); ("fixMode", 3, kU1); ("fixedAlt", 4, kI4); ("fixedAltVar", 8, kU4);
   ("minElev", 12, kI1); ("drLimit", 13, kU1); ("pDop", 14, kU2); ("tDop", 16, kU2); ("pAcc", 18, kU2); ("tAcc", 20, kU2);
   ("staticHoldThr", 22, kU1); ("dgnssTimeout", 23, kU1); ("cnoThreshNumS", 24, kU1); ("cnoThresh", 25, kU1);
   ("staticHoldMax", 28, kU2); ("utcStandard", 30, kU1)].
(* with one key and a value of up to four bytes *)
Definition doc_cfg_valset : doc := mkDoc "CFG_VALSET" 0x06 0x8A 12
  [("version", 0, kU1); ("layer", 1, kX1); ("cfgDataKey", 4, kU4)].
Definition valset_value_at : Z := 8.
Definition doc_cfg_valget : doc := mkDoc "CFG_VALGET" 0x06 0x8B 16 [("version", 0, kU1); ("layer", 1, kU1); ("cfgDataKey", 4, kU4)].
Definition doc_cfg_tmode3 : doc := mkDoc "CFG_TMODE3" 0x06 0x71 40
  [("version", 0, kU1); ("flags", 2, kX2); ("ecefXOrLat", 4, kI4); ("ecefYOrLon", 8, kI4); ("ecefZOrAlt", 12, kI4);
   ("ecefXOrLatHP", 16, kI1); ("ecefYOrLonHP", 17, kI1); ("ecefZOrAltHP", 18, kI1); ("fixedPosAcc", 20, kU4);
   ("svinMinDur", 24, kU4); ("svinAccLimit", 28, kU4)].
Definition doc_nav_pvt : doc := mkDoc "NAV_PVT" 0x01 0x07 92
  [("iTOW", 0, kU4); ("year", 4, kU2); ("month", 6, kU1); ("day", 7, kU1); ("hour", 8, kU1); ("min", 9, kU1); ("sec", 10, kU1);
   ("valid", 11, kX1); ("tAcc", 12, kU4); ("nano", 16, kI4); ("fixType", 20, kU1); ("flags", 21, kX1); ("flags2", 22, kX1);
   ("numSV", 23, kU1); ("lon", 24, kI4); ("lat", 28, kI4); ("height", 32, kI4); ("hMSL", 36, kI4); ("hAcc", 40, kU4);
   ("vAcc", 44, kU4); ("velN", 48, kI4); ("velE", 52, kI4); ("velD", 56, kI4); ("gSpeed", 60, kI4); ("headMot", 64, kI4);
   ("sAcc", 68, kU4); ("headAcc", 72, kU4); ("pDOP", 76, kU2); ("headVeh", 84, kI4); ("magDec", 88, kI2); ("magAcc", 90, kU2)].
Definition doc_nav_posecef : doc := mkDoc "NAV_POSECEF" 0x01 0x01 20
  [("iTOW", 0, kU4); ("ecefX", 4, kI4); ("ecefY", 8, kI4); ("ecefZ", 12, kI4); ("pAcc", 16, kU4)].
Definition doc_nav_velecef : doc := mkDoc "NAV_VELECEF" 0x01 0x11 20
  [("iTOW", 0, kU4); ("ecefVX", 4, kI4); ("ecefVY", 8, kI4); ("ecefVZ", 12, kI4); ("sAcc", 16, kU4)].
Definition doc_nav_relposned : doc := mkDoc "NAV_RELPOSNED" 0x01 0x3C 64
  [("version", 0, kU1); ("refStationId", 2, kU2); ("iTow", 4, kU4); ("relPosN", 8, kI4); ("relPosE", 12, kI4);
   ("relPosD", 16, kI4); ("relPosLength", 20, kI4); ("relPosHeading", 24, kI4); ("relPosHPN", 32, kI1); ("relPosHPE", 33, kI1);
   ("relPosHPD", 34, kI1); ("relPosHPLength", 35, kI1); ("accN", 36, kU4); ("accE", 40, kU4); ("accD", 44, kU4);
   ("accLength", 48, kU4); ("accHeading", 52, kU4); ("flags", 60, kX4)].
(* the seven members of NAV-SVIN other than the mean position, and the mean position *)
Definition doc_nav_svin : doc := mkDoc "NAV_SVIN" 0x01 0x3B 40
  [("version", 0, kU1); ("iTow", 4, kU4); ("dur", 8, kU4); ("meanAcc", 28, kU4); ("obs", 32, kU4); ("valid", 36, kU1);
   ("active", 37, kU1)].
Definition doc_nav_svin_mean : doc := mkDoc "NAV_SVIN" 0x01 0x3B 40
  [("meanX", 12, kI4); ("meanY", 16, kI4); ("meanZ", 20, kI4); ("meanXHP", 24, kI1); ("meanYHP", 25, kI1); ("meanZHP", 26, kI1)].
Definition doc_mon_txbuf : doc := mkDoc "MON_TXBUF" 0x0A 0x08 28
  [("tUsage", 24, kU1); ("tPeakUsage", 25, kU1); ("errors", 26, kX1)].
(* its arrays of six: name, offset of element n, type *)
Definition txbuf_arrays (n : Z) : list (string * Z * kind) := [("pending", 2 * n, kU2); ("usage", 12 + n, kU1); ("peakUsage", 18 + n, kU1)].
(* (d_len of the next three: the bytes before the repeated groups.)
   UBX-RXM-RAWX: 16 bytes and numMeas groups of 32 *)
Definition doc_rxm_rawx : doc := mkDoc "RXM_RAWX" 0x02 0x15 16
  [("rcvTow", 0, kR8); ("week", 8, kU2); ("leapS", 10, kI1); ("recStat", 12, kX1); ("version", 13, kU1)].
Definition rawx_numMeas_at : Z := 11.                       (* U1 *)
Definition rawx_group (n : Z) : Z := 16 + 32 * n.
Definition doc_rawx_group : list (string * Z * kind) :=
  [("prMeas", 0, kR8); ("cpMeas", 8, kR8); ("doMeas", 16, kR4); ("gnssId", 20, kU1); ("svId", 21, kU1); ("sigId", 22, kU1);
   ("freqId", 23, kU1); ("locktime", 24, kU2); ("cno", 26, kU1); ("prStdev", 27, kX1); ("cpStdev", 28, kX1); ("doStdev", 29, kX1);
   ("trkStat", 30, kX1)].
(* UBX-RXM-SFRBX: 8 bytes and numWords words *)
Definition doc_rxm_sfrbx : doc := mkDoc "RXM_SFRBX" 0x02 0x13 8
  [("gnssId", 0, kU1); ("svId", 1, kU1); ("freqId", 3, kU1); ("numWords", 4, kU1); ("chn", 5, kU1); ("version", 6, kU1)].
Definition sfrbx_word (n : Z) : Z := 8 + 4 * n.
(* UBX-MON-COMMS: 8 bytes and nPorts groups of 40 *)
Definition doc_mon_comms : doc := mkDoc "MON_COMM" 0x0A 0x36 8
  [("version", 0, kU1); ("nPorts", 1, kU1); ("txErrors", 2, kX1)].
Definition comms_protid (n : Z) : Z := 4 + n.
Definition comms_group (n : Z) : Z := 8 + 40 * n.
Definition doc_comms_group : list (string * Z * kind) :=
  [("portId", 0, kX2); ("txPending", 2, kU2); ("txBytes", 4, kU4); ("txUsage", 8, kU1); ("txPeakUsage", 9, kU1);
   ("rxPending", 10, kU2); ("rxBytes", 12, kU4); ("rxUsage", 16, kU1); ("rxPeakUsage", 17, kU1); ("overrunErrs", 18, kU2);
   ("skipped", 36, kU4)].
(* UBX-MON-VER: software version (30 characters), hardware version (10), extension strings of 30 characters each *)
Definition ver_sw (c : Z) : Z := c.
Definition ver_hw (c : Z) : Z := 30 + c.
Definition ver_ext (n c : Z) : Z := 40 + 30 * n + c.

Definition documented : list doc :=
  [doc_ack_ack; doc_ack_nak; doc_cfg_msg; doc_cfg_prt; doc_cfg_rate; doc_cfg_nav5; doc_cfg_valset; doc_cfg_valget; doc_cfg_tmode3;
   doc_nav_pvt; doc_nav_posecef; doc_nav_velecef; doc_nav_relposned; doc_nav_svin; doc_mon_txbuf; doc_rxm_rawx; doc_rxm_sfrbx;
   doc_mon_comms].
(* those of fixed length *)
Definition fixed_length : list doc :=
  [doc_ack_ack; doc_ack_nak; doc_cfg_msg; doc_cfg_prt; doc_cfg_rate; doc_cfg_nav5; doc_cfg_tmode3; doc_nav_pvt; doc_nav_posecef;
   doc_nav_velecef; doc_nav_relposned; doc_nav_svin; doc_mon_txbuf].

(* ---------------------------------------------------------------- satellite numbering (u-blox manual, appendix) *)
(* a satellite of a constellation by its number there, and its single-number identifier *)
Inductive satellite := GPS (n : Z) | SBAS (n : Z) | GAL (n : Z) | BDS (n : Z) | QZS (n : Z) | GLO (n : Z) | GLO_unknown.
Definition sat_ok (s : satellite) : Prop :=
  match s with
  | GPS n => 1 <= n <= 32 | SBAS n => 120 <= n <= 158 | GAL n => 1 <= n <= 36 | BDS n => 1 <= n <= 37 | QZS n => 1 <= n <= 5
  | GLO n => 1 <= n <= 32 | GLO_unknown => True
  end.
Definition sat_number (s : satellite) : Z :=
  match s with
  | GPS n => n | SBAS n => n | GAL n => 210 + n | BDS n => if n <=? 5 then 158 + n else 27 + n | QZS n => 192 + n | GLO n => 64 + n
  | GLO_unknown => 255
  end.
Definition gnss_id (s : satellite) : Z :=
  match s with GPS _ => 0 | SBAS _ => 1 | GAL _ => 2 | BDS _ => 3 | QZS _ => 5 | GLO _ | GLO_unknown => 6 end.
