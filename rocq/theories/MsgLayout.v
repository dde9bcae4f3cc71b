(* The message structures of include/UBLOX/parsers/ubx_defs.h:199-1029, declaration by declaration (transcribed
   mechanically from the header), and the layout rules the compiler applies to them (GCC, System V ABI: packed structures
   have no padding; the structures nested in them are not declared packed, so they are padded by their own alignment;
   little-endian target; char as a raw byte, float and double as their bit patterns). *)
From Coq Require Import String List.
From Verif Require Import Base UbxTx.
Import ListNotations.
Local Open Scope string_scope.
Local Open Scope Z_scope.

Inductive scalar := U8 | U16 | U32 | U64 | I8 | I16 | I32 | F32 | F64 | CH.
Inductive ctype :=
| Sc (s : scalar)
| Arr (n : Z) (t : ctype)
| Str (packed : bool) (fs : list (string * ctype))
| Uni (fs : list (string * ctype)).

Definition width (s : scalar) : Z :=
  match s with U8 | I8 | CH => 1 | U16 | I16 => 2 | U32 | I32 | F32 => 4 | U64 | F64 => 8 end.
Definition round_up (a o : Z) : Z := (o + a - 1) / a * a.
(* alignment and size of a type; scalars are aligned to their width *)
Fixpoint alignof (t : ctype) : Z :=
  match t with
  | Sc s => width s
  | Arr _ e => alignof e
  | Str true _ => 1
  | Str false fs | Uni fs => (fix go l := match l with [] => 1 | f :: r => Z.max (alignof (snd f)) (go r) end) fs
  end.
Fixpoint sizeof (t : ctype) : Z :=
  match t with
  | Sc s => width s
  | Arr n e => n * sizeof e
  | Str true fs => (fix go l := match l with [] => 0 | f :: r => sizeof (snd f) + go r end) fs
  | Str false fs =>
      round_up (alignof t)
        ((fix go l o := match l with [] => o | f :: r => go r (round_up (alignof (snd f)) o + sizeof (snd f)) end) fs 0)
  | Uni fs => round_up (alignof t) ((fix go l := match l with [] => 0 | f :: r => Z.max (sizeof (snd f)) (go r) end) fs)
  end.
(* offset and type of a member *)
Fixpoint in_struct (packed : bool) (fs : list (string * ctype)) (o : Z) (f : string) : option (Z * ctype) :=
  match fs with
  | [] => None
  | (g, t) :: r =>
      let o' := if packed then o else round_up (alignof t) o in
      if String.eqb f g then Some (o', t) else in_struct packed r (o' + sizeof t) f
  end.
Fixpoint in_union (fs : list (string * ctype)) (f : string) : option (Z * ctype) :=
  match fs with [] => None | (g, t) :: r => if String.eqb f g then Some (0, t) else in_union r f end.
(* x.f and x[i] *)
Inductive sel := F (f : string) | I (i : Z).
Fixpoint locate (t : ctype) (p : list sel) : option (Z * scalar) :=
  match p with
  | [] => match t with Sc s => Some (0, s) | _ => None end
  | a :: r =>
      let step := match a, t with
                  | F f, Str pk fs => in_struct pk fs 0 f
                  | F f, Uni fs => in_union fs f
                  | I i, Arr n e => if (0 <=? i) && (i <? n) then Some (i * sizeof e, e) else None
                  | _, _ => None
                  end in
      match step with
      | Some (o, t') => match locate t' r with Some (o', s) => Some (o + o', s) | None => None end
      | None => None
      end
  end.

(* ---------------------------------------------------------------- the declarations *)
(* ACK_ACK_t ubx_defs.h:199-203 *)
Definition ACK_ACK : ctype := Str true [("clsID", Sc U8); ("msgID", Sc U8)].
(* ACK_NACK_t ubx_defs.h:205-209 *)
Definition ACK_NACK : ctype := Str true [("clsID", Sc U8); ("msgID", Sc U8)].
(* CFG_MSG_t ubx_defs.h:211-216 *)
Definition CFG_MSG : ctype := Str true [("msgClass", Sc U8); ("msgID", Sc U8); ("rate", Sc U8)].
(* CFG_NAV5_t ubx_defs.h:218-286 *)
Definition CFG_NAV5 : ctype := Str true [("mask", Sc U16); ("dynModel", Sc U8); ("fixMode", Sc U8); ("fixedAlt", Sc I32);
  ("fixedAltVar", Sc U32); ("minElev", Sc I8); ("drLimit", Sc U8); ("pDop", Sc U16); ("tDop", Sc U16); ("pAcc", Sc U16);
  ("tAcc", Sc U16); ("staticHoldThr", Sc U8); ("dgnssTimeout", Sc U8); ("cnoThreshNumS", Sc U8); ("cnoThresh", Sc U8);
  ("reserved1", Arr 2 (Sc U8)); ("staticHoldMax", Sc U16); ("utcStandard", Sc U8); ("reserved2", Arr 5 (Sc U8))].
(* CFG_PRT_t ubx_defs.h:288-326 *)
Definition CFG_PRT : ctype := Str true [("portID", Sc U8); ("reserved1", Sc U8); ("txReady", Sc U16); ("mode", Sc U32);
  ("baudrate", Sc U32); ("inProtoMask", Sc U16); ("outProtoMask", Sc U16); ("flags", Sc U16); ("reserved2", Arr 2 (Sc U8))].
(* CFG_TMODE3_t ubx_defs.h:328-352 *)
Definition CFG_TMODE3 : ctype := Str true [("version", Sc U8); ("reserved", Sc U8); ("flags", Sc U16);
  ("ecefXOrLat", Sc I32); ("ecefYOrLon", Sc I32); ("ecefZOrAlt", Sc I32); ("ecefXOrLatHP", Sc I8); ("ecefYOrLonHP", Sc I8);
  ("ecefZOrAltHP", Sc I8); ("reserved2", Sc U8); ("fixedPosAcc", Sc U32); ("svinMinDur", Sc U32); ("svinAccLimit", Sc U32);
  ("reserved3", Arr 8 (Sc U8))].
(* CFG_VALGET_t ubx_defs.h:354-481 *)
Definition CFG_VALGET : ctype := Str true [("version", Sc U8); ("layer", Sc U8); ("reserved1", Arr 2 (Sc U8));
  ("cfgDataKey", Sc U32); ("cfgData", Sc U64)].
(* CFG_VALSET_t ubx_defs.h:483-617 *)
Definition CFG_VALSET : ctype := Str true [("version", Sc U8); ("layer", Sc U8); ("reserved1", Arr 2 (Sc U8));
  ("cfgDataKey", Sc U32); ("cfgData", Uni [("bytes", Arr 4 (Sc U8)); ("half_word", Arr 2 (Sc U16)); ("word", Sc U32)])].
(* CFG_RATE_t ubx_defs.h:619-634 *)
Definition CFG_RATE : ctype := Str true [("measRate", Sc U16); ("navRate", Sc U16); ("timeRef", Sc U16)].
(* NAV_PVT_t ubx_defs.h:636-696 *)
Definition NAV_PVT : ctype := Str true [("iTOW", Sc U32); ("year", Sc U16); ("month", Sc U8); ("day", Sc U8);
  ("hour", Sc U8); ("min", Sc U8); ("sec", Sc U8); ("valid", Sc U8); ("tAcc", Sc U32); ("nano", Sc I32); ("fixType", Sc U8);
  ("flags", Sc U8); ("flags2", Sc U8); ("numSV", Sc U8); ("lon", Sc I32); ("lat", Sc I32); ("height", Sc I32);
  ("hMSL", Sc I32); ("hAcc", Sc U32); ("vAcc", Sc U32); ("velN", Sc I32); ("velE", Sc I32); ("velD", Sc I32);
  ("gSpeed", Sc I32); ("headMot", Sc I32); ("sAcc", Sc U32); ("headAcc", Sc U32); ("pDOP", Sc U16);
  ("reserved1", Arr 6 (Sc U8)); ("headVeh", Sc I32); ("magDec", Sc I16); ("magAcc", Sc U16)].
(* NAV_RELPOSNED_t ubx_defs.h:698-735 *)
Definition NAV_RELPOSNED : ctype := Str true [("version", Sc U8); ("reserved1", Sc U8); ("refStationId", Sc U16);
  ("iTow", Sc U32); ("relPosN", Sc I32); ("relPosE", Sc I32); ("relPosD", Sc I32); ("relPosLength", Sc I32);
  ("relPosHeading", Sc I32); ("reserved2", Arr 4 (Sc U8)); ("relPosHPN", Sc I8); ("relPosHPE", Sc I8); ("relPosHPD", Sc I8);
  ("relPosHPLength", Sc I8); ("accN", Sc U32); ("accE", Sc U32); ("accD", Sc U32); ("accLength", Sc U32);
  ("accHeading", Sc U32); ("reserved3", Arr 4 (Sc U8)); ("flags", Sc U32)].
(* NAV_SVIN_t ubx_defs.h:737-757 *)
Definition NAV_SVIN : ctype := Str true [("version", Sc U8); ("reserved1", Arr 3 (Sc U8)); ("iTow", Sc U32);
  ("dur", Sc U32); ("meanX", Sc U32); ("meanY", Sc U32); ("meanZ", Sc U32); ("meanXHP", Sc U8); ("meanYHP", Sc U8);
  ("meanZHP", Sc U8); ("reserved2", Sc U8); ("meanAcc", Sc U32); ("obs", Sc U32); ("valid", Sc U8); ("active", Sc U8);
  ("reserved3", Arr 2 (Sc U8))].
(* NAV_POSECEF_t ubx_defs.h:759-767 *)
Definition NAV_POSECEF : ctype := Str true [("iTOW", Sc U32); ("ecefX", Sc I32); ("ecefY", Sc I32); ("ecefZ", Sc I32);
  ("pAcc", Sc U32)].
(* NAV_VELECEF_t ubx_defs.h:769-777 *)
Definition NAV_VELECEF : ctype := Str true [("iTOW", Sc U32); ("ecefVX", Sc I32); ("ecefVY", Sc I32); ("ecefVZ", Sc I32);
  ("sAcc", Sc U32)].
(* MON_TXBUF_t ubx_defs.h:779-795 *)
Definition MON_TXBUF : ctype := Str true [("pending", Arr 6 (Sc U16)); ("usage", Arr 6 (Sc U8));
  ("peakUsage", Arr 6 (Sc U8)); ("tUsage", Sc U8); ("tPeakUsage", Sc U8); ("errors", Sc U8); ("reserved", Sc U8)].
(* MON_COMMS_t ubx_defs.h:797-830 *)
Definition MON_COMMS : ctype := Str true [("version", Sc U8); ("nPorts", Sc U8); ("txErrors", Sc U8); ("reserved", Sc U8);
  ("portIds", Arr 4 (Sc U8));
  ("blocks", Arr 5 (Str false [("portId", Sc U16); ("txPending", Sc U16); ("txBytes", Sc U32); ("txUsage", Sc U8);
    ("txPeakUsage", Sc U8); ("rxPending", Sc U16); ("rxBytes", Sc U32); ("rxUsage", Sc U8); ("rxPeakUsage", Sc U8);
    ("overrunErrs", Sc U16); ("msgs", Arr 4 (Sc U16)); ("reserved", Arr 8 (Sc U8)); ("skipped", Sc U32)]))].
(* MON_VER_t ubx_defs.h:832-837 *)
Definition MON_VER : ctype := Str true [("swVersion", Arr 30 (Sc CH)); ("hwVersion", Arr 10 (Sc CH));
  ("extension", Arr 30 (Arr 10 (Sc CH)))].
(* RXM_RAWX_t ubx_defs.h:849-903 *)
Definition RXM_RAWX : ctype := Str true [("rcvTow", Sc F64); ("week", Sc U16); ("leapS", Sc I8); ("numMeas", Sc I8);
  ("recStat", Sc U8); ("version", Sc U8); ("reserved1", Arr 2 (Sc U8));
  ("meas", Arr 30 (Str false [("prMeas", Sc F64); ("cpMeas", Sc F64); ("doMeas", Sc F32); ("gnssId", Sc U8);
    ("svId", Sc U8); ("sigId", Sc U8); ("freqId", Sc U8); ("locktime", Sc U16); ("cno", Sc U8); ("prStdev", Sc U8);
    ("cpStdev", Sc U8); ("doStdev", Sc U8); ("trkStat", Sc U8); ("reserved", Sc U8)]))].
(* RXM_SFRBX_t ubx_defs.h:994-1005 *)
Definition RXM_SFRBX : ctype := Str true [("gnssId", Sc U8); ("svId", Sc U8); ("reserved1", Sc U8); ("freqId", Sc U8);
  ("numWords", Sc U8); ("chn", Sc U8); ("version", Sc U8); ("reserved2", Sc U8); ("dwrd", Arr 10 (Sc U32))].
(* UBX_message_t ubx_defs.h:1007-1029; BUFFER_SIZE is 2048 (ubx_defs.h:29) *)
Definition UBX_message : ctype := Uni [("buffer", Arr 2048 (Sc U8)); ("ACK_ACK", ACK_ACK); ("ACK_NACK", ACK_NACK);
  ("CFG_MSG", CFG_MSG); ("CFG_PRT", CFG_PRT); ("CFG_RATE", CFG_RATE); ("CFG_NAV5", CFG_NAV5); ("CFG_VALSET", CFG_VALSET);
  ("CFG_VALGET", CFG_VALGET); ("NAV_PVT", NAV_PVT); ("NAV_POSECEF", NAV_POSECEF); ("NAV_VELECEF", NAV_VELECEF);
  ("NAV_RELPOSNED", NAV_RELPOSNED); ("RXM_RAWX", RXM_RAWX); ("RXM_SFRBX", RXM_SFRBX); ("NAV_SVIN", NAV_SVIN);
  ("MON_TXBUF", MON_TXBUF); ("MON_VER", MON_VER); ("MON_COMM", MON_COMMS); ("CFG_TMODE3", CFG_TMODE3)].


(* reading a scalar member of the message object m (an expression such as msg.NAV_PVT.lon); None: no such member, or an
   index outside the declared array *)
Definition value (s : scalar) (bs : list Z) : Z :=
  match s with
  | I8 | I16 | I32 => sgn (8 * width s) (of_le bs)
  | _ => of_le bs
  end.
Definition member (m : list Z) (p : list sel) : option Z :=
  match locate UBX_message p with
  | Some (o, s) => Some (value s (firstn (Z.to_nat (width s)) (skipn (Z.to_nat o) m)))
  | None => None
  end.
(* assigning it: the value is converted to the member's type (modulo 2^bits) and stored *)
Fixpoint to_le (n : nat) (v : Z) : list Z := match n with O => [] | S k => (v mod 256) :: to_le k (v / 256) end.
Definition assign (m : list Z) (p : list sel) (v : Z) : outcome (list Z) :=
  match locate UBX_message p with
  | Some (o, s) => put m o (to_le (Z.to_nat (width s)) v)
  | None => UB UB_oob_write
  end.

(* the class and message constants under which the structures are sent and received, ubx_defs.h:47-182 *)
Definition class_id (name : string) : option (Z * Z) :=
  let is := String.eqb name in
  if is "ACK_ACK" then Some (0x05, 0x01) else if is "ACK_NACK" then Some (0x05, 0x00)
  else if is "CFG_MSG" then Some (0x06, 0x01) else if is "CFG_NAV5" then Some (0x06, 0x24)
  else if is "CFG_PRT" then Some (0x06, 0x00) else if is "CFG_RATE" then Some (0x06, 0x08)
  else if is "CFG_TMODE3" then Some (0x06, 0x71) else if is "CFG_VALGET" then Some (0x06, 0x8B)
  else if is "CFG_VALSET" then Some (0x06, 0x8A)
  else if is "NAV_POSECEF" then Some (0x01, 0x01) else if is "NAV_PVT" then Some (0x01, 0x07)
  else if is "NAV_RELPOSNED" then Some (0x01, 0x3C) else if is "NAV_SVIN" then Some (0x01, 0x3B)
  else if is "NAV_VELECEF" then Some (0x01, 0x11)
  else if is "MON_COMM" then Some (0x0A, 0x36) else if is "MON_TXBUF" then Some (0x0A, 0x08)
  else if is "MON_VER" then Some (0x0A, 0x04)
  else if is "RXM_RAWX" then Some (0x02, 0x15) else if is "RXM_SFRBX" then Some (0x02, 0x13) else None.
