(* Model of include/UBLOX/bit_tools.h (byteOrder = SwitchByteOrder, the only order used in the code base). *)
From Verif Require Import Base.

(* TypeHelper<.., len>, bit_tools.h:33-45: width in bits of the type chosen for len; no type above 64 (compile error) *)
Definition type_width (len : Z) : Z :=
  if len <=? 8 then 8 else if len <=? 16 then 16 else if len <=? 32 then 32 else 64.

(* a value stored in a w-bit unsigned type *)
Definition uw (w x : Z) : Z := x mod 2 ^ w.

(* bit_tools.h:64-68 / 109-113: for (i = 8 - (pos & 7); i < len; i += 8) { tmp <<= 8; tmp |= *(++p); }
   w = width of tempType; p = index of the current byte; fuel >= number of iterations. *)
Fixpoint gb_loop (fuel : nat) (w : Z) (buf : list Z) (len i p tmp : Z) : outcome Z :=
  match fuel with
  | O => Ok tmp
  | S f =>
      if i <? len then
        let* b := aget buf (p + 1) in
        gb_loop f w buf len (i + 8) (p + 1) (Z.lor (uw w (Z.shiftl tmp 8)) b)
      else Ok tmp
  end.

(* bit_tools.h:54-70 / 99-115, without the sign handling; pos >= 0 *)
Definition get_raw (w : Z) (buf : list Z) (pos len : Z) : outcome Z :=
  let last_bit := pos + len - 1 in
  let* b0 := aget buf (pos / 8) in
  let* tmp := gb_loop (Z.to_nat len) w buf len (8 - Z.land pos 7) (pos / 8) b0 in
  Ok (Z.land (Z.shiftr tmp (7 - Z.land last_bit 7)) (Z.shiftl 1 len - 1)).

(* bit_tools.h:80-89 / 125-134: ret | (~zero << len), converted to a signed type of r bits.
   w is tempType's width (for len <= 8 the shift is done in int; the low r bits are the same; C++17 leaves a left
   shift of a negative int undefined, GCC/Clang define it as here). *)
Definition sign_extend (w r len ret : Z) : Z :=
  if Z.land ret (Z.shiftl 1 (len - 1)) =? 0 then ret
  else sgn r (Z.lor ret (uw w (Z.shiftl (2 ^ w - 1) len))).

(* getBit<len>(buf,pos), bit_tools.h:48-91, Sign = Unsigned *)
Definition getBit (len : Z) (buf : list Z) (pos : Z) : outcome Z :=
  let* r := get_raw (type_width (len + 8)) buf pos len in Ok (uw (type_width len) r).
(* getBit<len, Signed>(buf,pos), bit_tools.h:48-91 *)
Definition getBitS (len : Z) (buf : list Z) (pos : Z) : outcome Z :=
  let* r := getBit len buf pos in Ok (sign_extend (type_width (len + 8)) (type_width len) len r).

(* run-time getBit(buf,pos,len), bit_tools.h:93-136: 64-bit tempType, 32-bit result *)
Definition getBitRt (buf : list Z) (pos len : Z) : outcome Z :=
  let* r := get_raw 64 buf pos len in Ok (uw 32 r).
Definition getBitRtS (buf : list Z) (pos len : Z) : outcome Z :=
  let* r := getBitRt buf pos len in Ok (sign_extend 64 32 len r).

(* bit_tools.h:152-159 / 176-183: ( *p &= wmask) |= m, then towards lower addresses *)
Fixpoint sb_loop (fuel : nat) (buf : list Z) (len i p m wmask : Z) : outcome (list Z) :=
  match fuel with
  | O => Ok buf
  | S f =>
      if i <? len then
        let m := Z.shiftr m 8 in
        let wmask := Z.shiftr wmask 8 in
        let* b := aget buf (p - 1) in
        let* buf := aset buf (p - 1) (u8 (Z.lor (u8 (Z.land b wmask)) m)) in
        sb_loop f buf len (i + 8) (p - 1) m wmask
      else Ok buf
  end.

(* bit_tools.h:138-160 / 162-184 with tempType width w; data is a 32-bit unsigned *)
Definition set_raw (w : Z) (buf : list Z) (pos data len : Z) : outcome (list Z) :=
  let last_bit := pos + len - 1 in
  let mask := uw w (Z.shiftl 1 len - 1) in
  let k := 7 - Z.land last_bit 7 in
  let m := uw w (Z.shiftl (uw w (Z.land data mask)) k) in
  let wmask := uw w (Z.lnot (Z.shiftl mask k)) in
  let p := last_bit / 8 in
  let* b := aget buf p in
  let* buf := aset buf p (u8 (Z.lor (u8 (Z.land b wmask)) m)) in
  sb_loop (Z.to_nat len) buf len (Z.land last_bit 7 + 1) p m wmask.

(* setBit<len>(buff,pos,data) bit_tools.h:138-160; setBit(buff,pos,data,len) bit_tools.h:162-184 *)
Definition setBit (len : Z) (buf : list Z) (pos data : Z) : outcome (list Z) :=
  set_raw (type_width (len + 8)) buf pos (u32 data) len.
Definition setBitRt (buf : list Z) (pos data len : Z) : outcome (list Z) :=
  set_raw 64 buf pos (u32 data) len.

(* getBitGlo<len>, bit_tools.h:186-191.  The double result is represented by the integer it denotes (len-1 <= 53 makes it
   exact); minus zero is identified with zero. *)
Definition getBitGlo (len : Z) (buf : list Z) (pos : Z) : outcome Z :=
  let* v := getBit (len - 1) buf (pos + 1) in
  let* s := getBit 1 buf pos in
  Ok (if s =? 0 then v else - v).
