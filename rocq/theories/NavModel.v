(* Model of class NavParser: src/parsers/nav.cpp, include/UBLOX/parsers/nav.h.
   (decodeGalileoSubframe0..5, nav.cpp:450-465, are unused stubs and are left out.  The DBG/printf/cout output is modelled
   in NavErr.v and NavShow.v.  Reading dwrd through a uint32_t pointer, nav.cpp:198, ignores alignment rules; not modelled.) *)
From Verif Require Import Base BitModel CrcModel UtcModel Dbl.

(* ---------------------------------------------------------------- records *)
(* integer members of Ephemeris (nav.h:33-118); the three flags are 0/1 *)
Inductive ifld := Fsat | FgnssID | Ftow | Fiodc | Fiode | Fweek | Ftoes | Ftocs | Fhealth | Falert | Fspoof | FcodeL2
  | Fura | FL2P | Ffit | Faodo | Fiode1 | Fiode2 | Fiode3 | Fgot1 | Fgot2 | Fgot3.
Scheme Equality for ifld.
(* double members (nav.h:58-110) *)
Inductive dfld := Ftgd0 | Ftgd1 | Ftgd2 | Ftgd3 | Faf2 | Faf1 | Faf0 | Fm0 | Fdeltan | Fecc | Fsqrta | Fomega0 | Fi0 | Fw
  | Fomegadot | Fidot | Fcuc | Fcus | Fcrc | Fcrs | Fcic | Fcis.
Scheme Equality for dfld.
Record eph := mkEph { ei : ifld -> Z; ed : dfld -> dbl; e_toe : utc; e_toc : utc }.
Definition seti (f : ifld) (v : Z) (e : eph) : eph :=
  mkEph (fun g => if ifld_beq g f then v else ei e g) (ed e) (e_toe e) (e_toc e).
Definition setd (f : dfld) (v : dbl) (e : eph) : eph :=
  mkEph (ei e) (fun g => if dfld_beq g f then v else ed e g) (e_toe e) (e_toc e).
Definition set_toe (t : utc) (e : eph) : eph := mkEph (ei e) (ed e) t (e_toc e).
Definition set_toc (t : utc) (e : eph) : eph := mkEph (ei e) (ed e) (e_toe e) t.
(* emplace_back() value-initialises: all members zero (nav.h:111-117, 140-145 initialisers are zero too) *)
Definition eph_new : eph := mkEph (fun _ => 0) (fun _ => d0) (mkUtc 0 0) (mkUtc 0 0).

(* members of GlonassEphemeris (nav.h:121-146) *)
Inductive gfld := Gsat | GgnssID | Giode | Gfrq | Gsvh | Gsva | Gage | Ggot1 | Ggot2 | Ggot3 | Ggot4 | Gmark.
Scheme Equality for gfld.
Inductive gdfld := Gpos0 | Gpos1 | Gpos2 | Gvel0 | Gvel1 | Gvel2 | Gacc0 | Gacc1 | Gacc2 | Gtaun | Ggamn | Gdtaun.
Scheme Equality for gdfld.
Record geph := mkGeph { gi : gfld -> Z; gd : gdfld -> dbl; g_toe : utc; g_tof : utc }.
Definition gseti (f : gfld) (v : Z) (e : geph) : geph :=
  mkGeph (fun g => if gfld_beq g f then v else gi e g) (gd e) (g_toe e) (g_tof e).
Definition gsetd (f : gdfld) (v : dbl) (e : geph) : geph :=
  mkGeph (gi e) (fun g => if gdfld_beq g f then v else gd e g) (g_toe e) (g_tof e).
Definition gset_toe (t : utc) (e : geph) : geph := mkGeph (gi e) (gd e) t (g_tof e).
Definition gset_tof (t : utc) (e : geph) : geph := mkGeph (gi e) (gd e) (g_toe e) t.
Definition geph_new : geph := mkGeph (fun _ => 0) (fun _ => d0) (mkUtc 0 0) (mkUtc 0 0).

(* what the outside sees: callback calls (callback number, copy of the record), and value-returning functions left
   without a return statement (numbers below); after the latter execution continues with an arbitrary result, as with
   GCC at -O0 *)
Inductive nev := EvEph (cb : Z) (e : eph) | EvGeph (cb : Z) (g : geph) | EvFell (fn : Z).
Definition FN_CONVERT := 1. Definition FN_BEIDOU := 2. Definition FN_GLOFRAME := 3. Definition FN_PRINT := 4.

(* scaled fields: an integer times one or two constants, nav.cpp:122-186, 467-600 *)
Definition sc (raw : Z) (k : dbl) : dbl := dmul (d_of_int raw) k.
Definition sc2 (raw : Z) (k l : dbl) : dbl := dmul (sc raw k) l.

(* ---------------------------------------------------------------- GPS *)
(* decodeGPSSubframe1 nav.cpp:122-149 *)
Definition gps_sf1 (buf : list Z) (e : eph) : outcome eph :=
  let* week := getBit 10 buf 48 in
  let* v := getBit 2 buf 58 in let e := seti FcodeL2 (u8 v) e in
  let* v := getBit 4 buf 60 in let e := seti Fura (u8 v) e in
  let* v := getBit 6 buf 64 in let e := seti Fhealth (u8 v) e in
  let* iodc0 := getBit 2 buf 70 in
  let* v := getBit 1 buf 72 in let e := seti FL2P (u8 v) e in
  let* tgd := getBitS 8 buf 160 in
  let* v := getBit 8 buf 168 in let e := seti Fiode (u8 v) e in
  let* v := getBit 16 buf 176 in let e := seti Ftocs (u32 (v * 16)) e in
  let* v := getBitS 8 buf 192 in let e := setd Faf2 (sc v P2_55) e in
  let* v := getBitS 16 buf 200 in let e := setd Faf1 (sc v P2_43) e in
  let* v := getBitS 22 buf 216 in let e := setd Faf0 (sc v P2_31) e in
  let e := seti Falert 0 e in
  let e := setd Ftgd0 (if tgd =? -128 then d0 else sc tgd P2_31) e in
  let e := setd Ftgd3 d0 e in let e := setd Ftgd2 d0 e in let e := setd Ftgd1 d0 e in
  let e := seti Fiodc (u16 (Z.shiftl iodc0 8 + ei e Fiode)) e in
  let e := seti Fweek (u16 (week + 2048)) e in
  let e := seti Fiode1 (ei e Fiode) e in
  Ok (seti Fgot1 1 e).

(* decodeGPSSubframe2 nav.cpp:151-168 *)
Definition gps_sf2 (buf : list Z) (e : eph) : outcome eph :=
  let* v := getBit 8 buf 48 in let e := seti Fiode (u8 v) e in
  let* v := getBitS 16 buf 56 in let e := setd Fcrs (sc v P2_5) e in
  let* v := getBitS 16 buf 72 in let e := setd Fdeltan (sc2 v P2_43 D_PI) e in
  let* v := getBitS 32 buf 88 in let e := setd Fm0 (sc2 v P2_31 D_PI) e in
  let* v := getBitS 16 buf 120 in let e := setd Fcuc (sc v P2_29) e in
  let* v := getBit 32 buf 136 in let e := setd Fecc (sc v P2_33) e in
  let* v := getBitS 16 buf 168 in let e := setd Fcus (sc v P2_29) e in
  let* v := getBit 32 buf 184 in let e := setd Fsqrta (sc v P2_19) e in
  let* v := getBit 16 buf 216 in let e := seti Ftoes (u32 (v * 16)) e in
  let* v := getBit 1 buf 232 in let e := seti Ffit (if v =? 0 then 4 else 0) e in
  let e := seti Fiode2 (ei e Fiode) e in
  Ok (seti Fgot2 1 e).

(* decodeGPSSubframe3 nav.cpp:170-186; the received issue number is overwritten by line 182 *)
Definition gps_sf3 (buf : list Z) (e : eph) : outcome eph :=
  let* v := getBitS 16 buf 48 in let e := setd Fcic (sc v P2_29) e in
  let* v := getBitS 32 buf 64 in let e := setd Fomega0 (sc2 v P2_31 D_PI) e in
  let* v := getBitS 16 buf 96 in let e := setd Fcis (sc v P2_29) e in
  let* v := getBitS 32 buf 112 in let e := setd Fi0 (sc2 v P2_31 D_PI) e in
  let* v := getBitS 16 buf 144 in let e := setd Fcrc (sc v P2_5) e in
  let* v := getBitS 32 buf 160 in let e := setd Fw (sc2 v P2_31 D_PI) e in
  let* v := getBitS 24 buf 192 in let e := setd Fomegadot (sc2 v P2_43 D_PI) e in
  let* v := getBit 8 buf 216 in let e := seti Fiode3 (u8 v) e in
  let* v := getBitS 14 buf 224 in let e := setd Fidot (sc2 v P2_43 D_PI) e in
  let e := seti Fiode3 (ei e Fiode) e in
  Ok (seti Fgot3 1 e).

(* the ten uint32_t words of a message, from its 40 bytes *)
Definition word (dw : list Z) (i : Z) : Z := of_le (firstn 4 (skipn (Z.to_nat (4 * i)) dw)).
(* nav.cpp:194-200; junk: the uninitialised subfrm[30] *)
Fixpoint gps_strip (is : list Z) (dw sub : list Z) : outcome (list Z) :=
  match is with
  | [] => Ok sub
  | i :: r => let* s := setBit 24 sub (i * 24) (Z.shiftr (word dw i) 6) in gps_strip r dw s
  end.
Definition ten : list Z := [0; 1; 2; 3; 4; 5; 6; 7; 8; 9].

(* decodeGPS nav.cpp:188-245.  Result: record, Some time if the callbacks were called (the new GPS_time_) together with
   the record they got, the returned bool. *)
(* nav.cpp:226-227 *)
Definition gps_complete (e : eph) : bool :=
  (ei e Fgot1 =? 1) && (ei e Fgot2 =? 1) && (ei e Fgot3 =? 1) && (ei e Fiode1 =? ei e Fiode2) &&
  (ei e Fiode1 =? ei e Fiode3) && (ei e Fiode =? Z.land (ei e Fiodc) 0xFF).
(* nav.cpp:226-244 *)
Definition gps_finish (e : eph) : outcome (eph * option eph * bool) :=
  if gps_complete e then
    let* toe := fromGPS (ei e Fweek) (i32 (u32 (ei e Ftoes * 1000))) in
    let* toc := fromGPS (ei e Fweek) (i32 (u32 (ei e Ftocs * 1000))) in
    let e := set_toc toc (set_toe toe e) in
    Ok (seti Fgot3 0 (seti Fgot2 0 (seti Fgot1 0 e)), Some e, false)
  else Ok (e, None, false).
(* nav.cpp:188-223 *)
Definition decodeGPS (junk dw : list Z) (e : eph) : outcome (eph * option eph * bool) :=
  let e := seti FgnssID 0 e in
  let* sub := gps_strip ten dw junk in
  let* b5 := aget sub 5 in
  let id := Z.land (Z.shiftr b5 2) 7 in
  if (id <? 1) || (5 <? id) then Ok (e, None, true)
  else if id =? 1 then let* e := gps_sf1 sub e in gps_finish e
  else if id =? 2 then let* e := gps_sf2 sub e in gps_finish e
  else if id =? 3 then let* e := gps_sf3 sub e in gps_finish e
  else Ok (e, None, false).

(* ---------------------------------------------------------------- GLONASS *)
(* gloTest nav.cpp:247-281 *)
Definition xor8 : list Z :=
  [0; 1; 1; 0; 1; 0; 0; 1; 1; 0; 0; 1; 0; 1; 1; 0; 1; 0; 0; 1; 0; 1; 1; 0; 0; 1; 1; 0; 1; 0; 0; 1; 1; 0; 0; 1; 0;
   1; 1; 0; 0; 1; 1; 0; 1; 0; 0; 1; 0; 1; 1; 0; 1; 0; 0; 1; 1; 0; 0; 1; 0; 1; 1; 0; 1; 0; 0; 1; 0; 1; 1; 0; 0; 1;
   1; 0; 1; 0; 0; 1; 0; 1; 1; 0; 1; 0; 0; 1; 1; 0; 0; 1; 0; 1; 1; 0; 0; 1; 1; 0; 1; 0; 0; 1; 1; 0; 0; 1; 0; 1; 1;
   0; 1; 0; 0; 1; 0; 1; 1; 0; 0; 1; 1; 0; 1; 0; 0; 1; 1; 0; 0; 1; 0; 1; 1; 0; 0; 1; 1; 0; 1; 0; 0; 1; 0; 1; 1; 0;
   1; 0; 0; 1; 1; 0; 0; 1; 0; 1; 1; 0; 0; 1; 1; 0; 1; 0; 0; 1; 1; 0; 0; 1; 0; 1; 1; 0; 1; 0; 0; 1; 0; 1; 1; 0; 0;
   1; 1; 0; 1; 0; 0; 1; 0; 1; 1; 0; 1; 0; 0; 1; 1; 0; 0; 1; 0; 1; 1; 0; 1; 0; 0; 1; 0; 1; 1; 0; 0; 1; 1; 0; 1; 0;
   0; 1; 1; 0; 0; 1; 0; 1; 1; 0; 0; 1; 1; 0; 1; 0; 0; 1; 0; 1; 1; 0; 1; 0; 0; 1; 1; 0; 0; 1; 0; 1; 1; 0].
(* nav.cpp:258-266 *)
Definition hamming_mask : list (list Z) :=
  [[0x55; 0x55; 0x5A; 0xAA; 0xAA; 0xAA; 0xB5; 0x55; 0x6A; 0xD8; 0x08];
   [0x66; 0x66; 0x6C; 0xCC; 0xCC; 0xCC; 0xD9; 0x99; 0xB3; 0x68; 0x10];
   [0x87; 0x87; 0x8F; 0x0F; 0x0F; 0x0F; 0x1E; 0x1E; 0x3C; 0x70; 0x20];
   [0x07; 0xF8; 0x0F; 0xF0; 0x0F; 0xF0; 0x1F; 0xE0; 0x3F; 0x80; 0x40];
   [0xF8; 0x00; 0x0F; 0xFF; 0xF0; 0x00; 0x1F; 0xFF; 0xC0; 0x00; 0x80];
   [0x00; 0x00; 0x0F; 0xFF; 0xFF; 0xFF; 0xE0; 0x00; 0x00; 0x01; 0x00];
   [0xFF; 0xFF; 0xF0; 0x00; 0x00; 0x00; 0x00; 0x00; 0x00; 0x02; 0x00];
   [0xFF; 0xFF; 0xFF; 0xFF; 0xFF; 0xFF; 0xFF; 0xFF; 0xFF; 0xFF; 0xF8]].
(* the inner loop, nav.cpp:273-276 *)
Fixpoint glo_crc (buf mask : list Z) (crc : Z) : outcome Z :=
  match mask with
  | [] => Ok crc
  | m :: mr =>
      match buf with
      | [] => UB UB_oob_read
      | b :: br => let* x := aget xor8 (Z.land b m) in glo_crc br mr (Z.lxor crc x)
      end
  end.
(* the outer loop, nav.cpp:270-279: number of odd sums, last sum *)
Fixpoint glo_count (buf : list Z) (masks : list (list Z)) (n crc : Z) : outcome (Z * Z) :=
  match masks with
  | [] => Ok (n, crc)
  | m :: r => let* c := glo_crc buf m 0 in glo_count buf r (if c =? 0 then n else n + 1) c
  end.
(* nav.cpp:247-281 *)
Definition gloTest (buf : list Z) : outcome bool :=
  let* (n, crc) := glo_count buf hamming_mask 0 0 in
  Ok ((n =? 0) || ((n =? 2) && negb (crc =? 0))).

(* decodeGlonassFrame1..4 nav.cpp:283-340 (they have no return statement: EvFell FN_GLOFRAME in decodeGlonassString).
   int arithmetic stays below 2^31. *)
Definition glo_f1 (now : utc) (buf : list Z) (g : geph) : outcome geph :=
  let* tk_h := getBit 5 buf 9 in
  let* tk_m := getBit 6 buf 14 in
  let* tk_s := getBit 1 buf 20 in
  let* v := getBitGlo 24 buf 21 in let g := gsetd Gvel0 (sc2 v P2_20 D_1E3) g in
  let* v := getBitGlo 5 buf 45 in let g := gsetd Gacc0 (sc2 v P2_30 D_1E3) g in
  let* v := getBitGlo 27 buf 50 in let g := gsetd Gpos0 (sc2 v P2_11 D_1E3) g in
  let* t := fromGlonassTimeOfDay now ((tk_h * 3600 + tk_m * 60 + tk_s * 30) * 1000) in
  Ok (gseti Ggot1 1 (gset_tof t g)).
(* decodeGlonassFrame2, nav.cpp:301-316 *)
Definition glo_f2 (now : utc) (buf : list Z) (g : geph) : outcome geph :=
  let* v := getBit 3 buf 5 in let g := gseti Gsvh v g in
  let* tb := getBit 7 buf 9 in let g := gseti Giode tb g in
  let* v := getBitGlo 24 buf 21 in let g := gsetd Gvel1 (sc2 v P2_20 D_1E3) g in
  let* v := getBitGlo 5 buf 45 in let g := gsetd Gacc1 (sc2 v P2_30 D_1E3) g in
  let* v := getBitGlo 27 buf 50 in let g := gsetd Gpos1 (sc2 v P2_11 D_1E3) g in
  let* t := fromGlonassTimeOfDay now (tb * 60 * 15 * 1000) in
  Ok (gseti Ggot2 1 (gset_toe t g)).
Definition glo_f3 (buf : list Z) (g : geph) : outcome geph :=
  let* v := getBitGlo 11 buf 6 in let g := gsetd Ggamn (sc v P2_40) g in
  let* v := getBitGlo 24 buf 21 in let g := gsetd Gvel2 (sc2 v P2_20 D_1E3) g in
  let* v := getBitGlo 5 buf 45 in let g := gsetd Gacc2 (sc2 v P2_30 D_1E3) g in
  let* v := getBitGlo 27 buf 50 in let g := gsetd Gpos2 (sc2 v P2_11 D_1E3) g in
  Ok (gseti Ggot3 1 g).
Definition glo_f4 (buf : list Z) (g : geph) : outcome geph :=
  let* v := getBitGlo 22 buf 5 in let g := gsetd Gtaun (sc v P2_30) g in
  let* v := getBitGlo 5 buf 27 in let g := gsetd Gdtaun (sc v P2_30) g in
  let* v := getBit 5 buf 32 in let g := gseti Gage v g in
  let* v := getBit 4 buf 52 in let g := gseti Gsva v g in
  Ok (gseti Ggot4 1 g).

(* the day correction nav.cpp:382-390, for toe and for tof *)
Definition day_fix (now t : utc) : outcome utc :=
  let* d := utc_sub now t in
  if dlt (d_of_int 43200) (toSec d) then utc_pluseq_int t 86400
  else if dlt (toSec d) (d_of_int (-43200)) then utc_minuseq_int t 86400
  else Ok t.

(* decodeGlonassString nav.cpp:342-393: record, events, result *)
Definition glo_string (now : utc) (buf : list Z) (g : geph) : outcome (geph * list nev * bool) :=
  let* f := getBit 4 buf 1 in
  if (f <? 1) || (4 <? f) then Ok (g, [], false)
  else
    let* g := (if f =? 1 then glo_f1 now buf g else if f =? 2 then glo_f2 now buf g else if f =? 3 then glo_f3 buf g else glo_f4 buf g) in
    if (gi g Ggot1 =? 0) || (gi g Ggot2 =? 0) || (gi g Ggot3 =? 0) || (gi g Ggot4 =? 0) || negb (f =? 4)
    then Ok (g, [EvFell FN_GLOFRAME], false)
    else
      let* toe := day_fix now (g_toe g) in
      let* tof := day_fix now (g_tof g) in
      Ok (gset_tof tof (gset_toe toe g), [EvFell FN_GLOFRAME], true).

(* nav.cpp:408-416: the four words with their bytes in reverse order.  (buf[64]; only the first 16 bytes are written
   and, as the bounds of this list show, read.) *)
Definition swap_words (n : nat) (dw : list Z) : list Z :=
  flat_map (fun i => [nth (4 * i + 3) dw 0; nth (4 * i + 2) dw 0; nth (4 * i + 1) dw 0; nth (4 * i) dw 0]) (List.seq 0 n).

(* decodeGlonass nav.cpp:395-443; cbs: registered callbacks *)
Definition decodeGlonass (cbs : list Z) (now : utc) (gnss sv freq : Z) (dw : list Z) (g : geph)
  : outcome (geph * list nev * bool) :=
  if sv =? 255 then Ok (g, [], false)
  else if utc_eq now (mkUtc 0 0) then Ok (g, [], false)
  else
    let buf := swap_words 4 dw in
    let* ok := gloTest buf in
    if negb ok then Ok (g, [], true)
    else
      let* b12 := aget buf 12 in
      let* b13 := aget buf 13 in
      let mark := Z.lor (u16 (Z.shiftl b12 8)) b13 in
      let g := if mark =? gi g Gmark then g else gseti Ggot1 0 (gseti Ggot2 0 (gseti Ggot3 0 (gseti Ggot4 0 g))) in
      let g := gseti Gmark mark g in
      let* (g, ev, r) := glo_string now buf g in
      if negb r then Ok (g, ev, false)
      else
        let g := gseti GgnssID gnss (gseti Gsat sv (gseti Gfrq (freq - 7) g)) in
        Ok (g, ev ++ map (fun c => EvGeph c g) cbs, true).

(* ---------------------------------------------------------------- Galileo *)
(* decode_gal_inav nav.cpp:467-600.  buff: the 112 bytes of words 0-6.  svid, the health bits and sqrtA's late
   assignment as in the source. *)
Definition gal_inav (buff : list Z) (e : eph) : outcome (eph * bool) :=
  let* type0 := getBitRt buff 0 6 in
  let* time_f := getBitRt buff 6 2 in
  let* week := getBitRt buff 96 12 in
  let* tow := getBitRt buff 108 20 in
  let* type1 := getBitRt buff 128 6 in
  let* iod0 := getBitRt buff 134 10 in
  let* v := getBitRt buff 144 14 in let e := seti Ftoes (u32 (v * 60)) e in
  let* v := getBitRtS buff 158 32 in let e := setd Fm0 (sc2 v P2_31 D_PI) e in
  let* v := getBitRt buff 190 32 in let e := setd Fecc (sc v P2_33) e in
  let* sqrtA := getBitRt buff 222 32 in
  let* type2 := getBitRt buff 256 6 in
  let* iod1 := getBitRt buff 262 10 in
  let* v := getBitRtS buff 272 32 in let e := setd Fomega0 (sc2 v P2_31 D_PI) e in
  let* v := getBitRtS buff 304 32 in let e := setd Fi0 (sc2 v P2_31 D_PI) e in
  let* v := getBitRtS buff 336 32 in let e := setd Fw (sc2 v P2_31 D_PI) e in
  let* v := getBitRtS buff 368 14 in let e := setd Fidot (sc2 v P2_43 D_PI) e in
  let* type3 := getBitRt buff 384 6 in
  let* iod2 := getBitRt buff 390 10 in
  let* v := getBitRtS buff 400 24 in let e := setd Fomegadot (sc2 v P2_43 D_PI) e in
  let* v := getBitRtS buff 424 16 in let e := setd Fdeltan (sc2 v P2_43 D_PI) e in
  let* v := getBitRtS buff 440 16 in let e := setd Fcuc (sc v P2_29) e in
  let* v := getBitRtS buff 456 16 in let e := setd Fcus (sc v P2_29) e in
  let* v := getBitRtS buff 472 16 in let e := setd Fcrc (sc v P2_5) e in
  let* v := getBitRtS buff 488 16 in let e := setd Fcrs (sc v P2_5) e in
  let* type4 := getBitRt buff 512 6 in
  let* iod3 := getBitRt buff 518 10 in
  let* svid := getBitRt buff 528 6 in
  let* v := getBitRtS buff 534 16 in let e := setd Fcic (sc v P2_29) e in
  let* v := getBitRtS buff 550 16 in let e := setd Fcis (sc v P2_29) e in
  let* toc := getBitRt buff 566 14 in
  let* v := getBitRtS buff 580 31 in let e := setd Faf0 (sc v P2_34) e in
  let* v := getBitRtS buff 611 21 in let e := setd Faf1 (sc v P2_46) e in
  let* v := getBitRtS buff 632 6 in let e := setd Faf2 (sc v P2_59) e in
  let* type5 := getBitRt buff 640 6 in
  let* v := getBitRtS buff 687 10 in let e := setd Ftgd0 (sc v P2_32) e in
  let* v := getBitRtS buff 697 10 in let e := setd Ftgd1 (sc v P2_32) e in
  if negb (type0 =? 0) || negb (type1 =? 1) || negb (type2 =? 2) || negb (type3 =? 3) || negb (type4 =? 4) then Ok (e, false)
  else if negb (time_f =? 2) then Ok (e, false)
  else if negb (iod0 =? iod1) || negb (iod0 =? iod2) || negb (iod0 =? iod3) then Ok (e, false)
  else
    let e := setd Fsqrta (sc sqrtA P2_19) e in
    let e := seti Fiodc (u16 iod0) e in
    let e := seti Fiode (u8 (ei e Fiodc)) e in
    (* all the time arguments are products of integers below 2^20 and 1000, exact in double and in int *)
    let* ttr := fromGPS week (tow * 1000) in
    let* t1 := fromGPS week (ei e Ftoes * 1000) in
    let* dt := utc_sub t1 ttr in
    let week := if dlt (d_of_int 302400) (toSec dt) then week - 1
                else if dlt (toSec dt) (d_of_int (-302400)) then week + 1 else week in
    let week := week + 1024 in
    let* toe := fromGPS week (i32 (u32 (ei e Ftoes * 1000))) in
    let* tocv := fromGPS week (toc * 60 * 1000) in
    Ok (seti Fweek (u16 week) (set_toc tocv (set_toe toe e)), true).

(* nav.cpp:641-653: bytes moved into crc_buff with setBit<8> *)
Fixpoint gal_put (bs : list Z) (dst : list Z) (j : Z) : outcome (list Z) :=
  match bs with [] => Ok dst | b :: r => let* d := setBit 8 dst j b in gal_put r d (j + 8) end.
(* nav.cpp:674-688: n bytes taken at bit offset 2 *)
Fixpoint gal_take (n : nat) (src : list Z) (j : Z) : outcome (list Z) :=
  match n with O => Ok [] | S m => let* b := getBit 8 src j in let* r := gal_take m src (j + 8) in Ok (b :: r) end.

(* decodeGalileo nav.cpp:604-728.  row i: the static array subfrm[i] (nav.cpp:602), 380 bytes; an index outside 0..254
   is out of bounds.  cbs: registered callbacks. *)
Definition rows := Z -> list Z.
Definition rset (st : rows) (i : Z) (r : list Z) : rows := fun k => if k =? i then r else st k.
(* overwrite bytes k.. of a row *)
Definition splice (row : list Z) (k : Z) (bs : list Z) : list Z :=
  firstn (Z.to_nat k) row ++ bs ++ skipn (Z.to_nat k + length bs) row.
(* nav.cpp:641-654 *)
Definition gal_crc_ok (buff : list Z) : outcome bool :=
  let* c1 := gal_put (firstn 15 buff) (repeat 0 26) 4 in
  let* c2 := gal_put (firstn 11 (skipn 16 buff)) c1 118 in
  let* c := crc24 c2 25 in
  let* w := getBit 24 (skipn 16 buff) 82 in
  Ok (c =? w).
(* nav.cpp:604-728 *)
Definition decodeGalileo (cbs : list Z) (st : rows) (dw : list Z) (e : eph) : outcome (rows * eph * list nev * bool) :=
  let sat := ei e Fsat in
  let buff := swap_words 8 dw in
  let* part1 := getBit 1 buff 0 in
  let* page1 := getBit 1 buff 1 in
  let* part2 := getBit 1 (skipn 16 buff) 0 in
  let* page2 := getBit 1 (skipn 16 buff) 1 in
  if (page1 =? 1) || (page2 =? 1) then Ok (st, e, [], false)
  else if negb (part1 =? 0) || negb (part2 =? 1) then Ok (st, e, [], false)
  else
    let* ok := gal_crc_ok buff in
    if negb ok then Ok (st, e, [], false)
    else
      let* type := getBit 6 buff 2 in
      if 6 <? type then Ok (st, e, [], false)
      else if negb ((0 <=? sat - 1) && (sat - 1 <? 255)) then UB UB_oob_write
      else
        let row := st (sat - 1) in
        let row := if type =? 2 then splice row 112 [0] else row in
        let* w1 := gal_take 14 buff 2 in
        let* w2 := gal_take 2 (skipn 16 buff) 2 in
        let row := splice row (type * 16) (w1 ++ w2) in
        let flags := u8 (Z.lor (nth 112 row 0) (Z.shiftl 1 type)) in
        let row := splice row 112 [flags] in
        let st := rset st (sat - 1) row in
        if negb (flags =? 0x7F) then Ok (st, e, [], false)
        else
          let* (e, ok) := gal_inav row e in
          if negb ok then Ok (st, e, [], false)
          else Ok (st, e, EvFell FN_PRINT :: map (fun c => EvEph c e) cbs, true).

(* ---------------------------------------------------------------- the parser object *)
(* RXM_SFRBX_t ubx_defs.h:994-1005 *)
Record sfrbx := mkSf { sf_gnss : Z; sf_sv : Z; sf_freq : Z; sf_dw : list Z }.
(* the structure overlaid on a message buffer *)
Definition sfrbx_of (msg : list Z) : sfrbx := mkSf (nth 0 msg 0) (nth 1 msg 0) (nth 3 msg 0) (firstn 40 (skipn 8 msg)).

Record nav := mkNav { n_eph : list eph; n_geph : list geph; n_time : utc; n_ecb : list Z; n_gcb : list Z; n_rows : rows }.
Definition nav_init (st : rows) : nav := mkNav [] [] (mkUtc 0 0) [] [] st.
(* registerCallback nav.cpp:58-67, setGPSTime nav.h:194 *)
Definition nav_ecb (s : nav) (c : Z) : nav := mkNav (n_eph s) (n_geph s) (n_time s) (n_ecb s ++ [c]) (n_gcb s) (n_rows s).
Definition nav_gcb (s : nav) (c : Z) : nav := mkNav (n_eph s) (n_geph s) (n_time s) (n_ecb s) (n_gcb s ++ [c]) (n_rows s).
Definition nav_settime (s : nav) (t : utc) : nav := mkNav (n_eph s) (n_geph s) t (n_ecb s) (n_gcb s) (n_rows s).

(* the search loops nav.cpp:79-83, 96-100: the last entry with this satellite number *)
Fixpoint last_match {A} (p : A -> bool) (l : list A) (i : nat) (acc : option nat) : option nat :=
  match l with [] => acc | x :: r => last_match p r (S i) (if p x then Some i else acc) end.
Definition slot {A} (p : A -> bool) (new : A) (l : list A) : list A * nat :=
  match last_match p l 0 None with Some i => (l, i) | None => (l ++ [new], length l) end.
Definition put {A} (l : list A) (i : nat) (x : A) : list A := firstn i l ++ x :: skipn (S i) l.

(* convertUBX nav.cpp:73-120; junk: uninitialised memory of decodeGPS.  Result None: no value returned. *)
Definition convertUBX (junk : list Z) (s : nav) (m : sfrbx) : outcome (nav * list nev * option bool) :=
  if sf_gnss m =? 6 then
    let (l, i) := slot (fun g => gi g Gsat =? sf_sv m) (gseti Gsat (sf_sv m) geph_new) (n_geph s) in
    let* (g, ev, r) := decodeGlonass (n_gcb s) (n_time s) (sf_gnss m) (sf_sv m) (sf_freq m) (sf_dw m) (nth i l geph_new) in
    Ok (mkNav (n_eph s) (put l i g) (n_time s) (n_ecb s) (n_gcb s) (n_rows s), ev, Some r)
  else
    let (l, i) := slot (fun e => ei e Fsat =? sf_sv m) eph_new (n_eph s) in
    let e := seti FgnssID (sf_gnss m) (seti Fsat (sf_sv m) (nth i l eph_new)) in
    if sf_gnss m =? 0 then
      let* (e, d, r) := decodeGPS junk (sf_dw m) e in
      let t := match d with Some e1 => e_toe e1 | None => n_time s end in
      let ev := match d with Some e1 => map (fun c => EvEph c e1) (n_ecb s) | None => [] end in
      Ok (mkNav (put l i e) (n_geph s) t (n_ecb s) (n_gcb s) (n_rows s), ev, Some r)
    else if sf_gnss m =? 2 then
      let* (st, e, ev, r) := decodeGalileo (n_ecb s) (n_rows s) (sf_dw m) e in
      Ok (mkNav (put l i e) (n_geph s) (n_time s) (n_ecb s) (n_gcb s) st, ev, Some r)
    else if sf_gnss m =? 3 then
      Ok (mkNav (put l i e) (n_geph s) (n_time s) (n_ecb s) (n_gcb s) (n_rows s), [EvFell FN_BEIDOU], None)
    else
      Ok (mkNav (put l i e) (n_geph s) (n_time s) (n_ecb s) (n_gcb s) (n_rows s), [EvFell FN_CONVERT], None).

(* a history of calls *)
Inductive nop := NMsg (m : sfrbx) | NTime (t : utc) | NEcb (c : Z) | NGcb (c : Z).
Definition nav_step (junk : list Z) (s : nav) (o : nop) : outcome (nav * list nev) :=
  match o with
  | NMsg m => let* (s', ev, _) := convertUBX junk s m in Ok (s', ev)
  | NTime t => Ok (nav_settime s t, [])
  | NEcb c => Ok (nav_ecb s c, [])
  | NGcb c => Ok (nav_gcb s c, [])
  end.
Fixpoint nav_run (junk : list Z) (s : nav) (h : list nop) : outcome (nav * list nev) :=
  match h with
  | [] => Ok (s, [])
  | o :: r =>
      let* (s1, e1) := nav_step junk s o in
      let* (s2, e2) := nav_run junk s1 r in
      Ok (s2, e1 ++ e2)
  end.
