(* Model of include/UBLOX/bitfield.h (template BitField<firstBit, bitSize, byteOrder>), 1 <= bitSize <= 64.
   `mem` is the storage the field is laid over, from the field's own address on (selfArray(), bitfield.h:44-45); indices
   outside it are out-of-range accesses.  The enumerators lastBit and mask (bitfield.h:38-42) are firstBit+bitSize-1 and
   2^bitSize-1, 0xFFFFFFFF at 64 (after promotion of type int up to 31, unsigned int at 32 and 64, 64-bit long in between). *)
From Verif Require Import Base BitModel.

(* bitfield.h:26-30 *)
Inductive border := SwitchByteOrder | KeepByteOrder.

(* the enumerators of bitfield.h:40-41 *)
Definition bf_mask (size : Z) : Z := if size =? 64 then 0xFFFFFFFF else Z.shiftl 1 size - 1.
Definition bf_last (first size : Z) : Z := first + size - 1.

(* bitfield.h:57-62: while (i < bitSize) { ret <<= 8; ret |= *(++p); i += 8; } *)
Fixpoint bf_sw (fuel : nat) (mem : list Z) (size i p ret : Z) : outcome Z :=
  match fuel with
  | O => Ok ret
  | S f => if i <? size then let* b := aget mem (p + 1) in bf_sw f mem size (i + 8) (p + 1) (Z.lor (u32 (Z.shiftl ret 8)) b)
           else Ok ret
  end.
(* bitfield.h:69-73: while (i < bitSize) { ret |= ( *(++p) << (i + 8)); i += 8; }; the shifted byte is an int, a shift by 32
   or more is undefined (UB_overflow) *)
Fixpoint bf_kp (fuel : nat) (mem : list Z) (size i p ret : Z) : outcome Z :=
  match fuel with
  | O => Ok ret
  | S f =>
      if i <? size then
        let* b := aget mem (p + 1) in
        if i + 8 <? 32 then bf_kp f mem size (i + 8) (p + 1) (Z.lor ret (u32 (Z.shiftl b (i + 8)))) else UB UB_overflow
      else Ok ret
  end.
(* operator unsigned, bitfield.h:49-76 *)
Definition bf_read (o : border) (first size : Z) (mem : list Z) : outcome Z :=
  let p := first / 8 in
  match o with
  | SwitchByteOrder =>
      let* b := aget mem p in
      let* ret := bf_sw (Z.to_nat size) mem size (8 - Z.land first 7) p b in
      Ok (Z.land (Z.shiftr ret (7 - Z.land (bf_last first size) 7)) (bf_mask size))
  | KeepByteOrder =>
      let* b := aget mem p in
      let* ret := bf_kp (Z.to_nat size) mem size 0 p b in
      Ok (Z.land (Z.shiftr ret (first mod 8)) (bf_mask size))
  end.

(* bitfield.h:88-94: while (i < bitSize) { m >>= 8; wmask >>= 8; ( *(--p) &= wmask) |= m; i += 8; } *)
Fixpoint bf_wr (fuel : nat) (mem : list Z) (size i p m wmask : Z) : outcome (list Z) :=
  match fuel with
  | O => Ok mem
  | S f =>
      if i <? size then
        let m := Z.shiftr m 8 in
        let wmask := Z.shiftr wmask 8 in
        let* b := aget mem (p - 1) in
        let* mem := aset mem (p - 1) (u8 (Z.lor (u8 (Z.land b wmask)) m)) in
        bf_wr f mem size (i + 8) (p - 1) m wmask
      else Ok mem
  end.
(* operator=(unsigned), bitfield.h:79-96; the byte order is not looked at.  Line 83: mask << k in int when bitSize <= 31:
   undefined unless below 2^32 (C++17); in long from 33 to 63: undefined unless below 2^64 *)
Definition bf_write (first size m : Z) (mem : list Z) : outcome (list Z) :=
  let k := 7 - Z.land (bf_last first size) 7 in
  if (size <=? 31) && (2 ^ 32 <=? Z.shiftl (bf_mask size) k) then UB UB_overflow else
  if (33 <=? size) && (size <=? 63) && (2 ^ 64 <=? Z.shiftl (bf_mask size) k) then UB UB_overflow else
  let m := u32 (Z.shiftl (Z.land (u32 m) (bf_mask size)) k) in
  let wmask := u32 (Z.lnot (Z.shiftl (bf_mask size) k)) in
  let p := bf_last first size / 8 in
  let* b := aget mem p in
  let* mem := aset mem p (u8 (Z.lor (u8 (Z.land b wmask)) m)) in
  bf_wr (Z.to_nat size) mem size (Z.land (bf_last first size) 7 + 1) p m wmask.

(* the operators of bitfield.h:98-156: *this = *this op m, in unsigned arithmetic *)
Inductive bfop := OpAdd | OpSub | OpMul | OpDiv | OpMod | OpShl | OpShr | OpOr | OpAnd | OpXor.
Definition bf_op (op : bfop) (v m : Z) : outcome Z :=
  match op with
  | OpAdd => Ok (u32 (v + m)) | OpSub => Ok (u32 (v - m)) | OpMul => Ok (u32 (v * m))
  | OpDiv => if m =? 0 then UB UB_overflow else Ok (v / m)
  | OpMod => if m =? 0 then UB UB_overflow else Ok (v mod m)
  | OpShl => if 32 <=? m then UB UB_overflow else Ok (u32 (Z.shiftl v m))
  | OpShr => if 32 <=? m then UB UB_overflow else Ok (Z.shiftr v m)
  | OpOr => Ok (Z.lor v m) | OpAnd => Ok (Z.land v m) | OpXor => Ok (Z.lxor v m)
  end.
(* bitfield.h:98-156: *this = *this op m *)
Definition bf_update (op : bfop) (o : border) (first size m : Z) (mem : list Z) : outcome (list Z) :=
  let* v := bf_read o first size mem in
  let* r := bf_op op v m in
  bf_write first size r mem.
