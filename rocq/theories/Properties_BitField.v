(* C66: the BitField overlay.  mem: the bytes the field is laid over; bit k of mem is most significant first (BitSpec),
   lbit k least significant first; field / lfield: the numbers made of such bits; spans: number of bytes touched. *)
From Verif Require Import Base BitSpec BitModel BitProofs BitField BitFieldProofs.

(* SwitchByteOrder fields within four bytes are big-endian bit fields; one in five bytes or more (necessarily over 25 bits)
   loses the bits before its last 25 + (last bit mod 8): the value is collected in 32 bits *)
Theorem C66_switched_read first size mem : bytes_ok mem -> 0 <= first -> 1 <= size <= 64 ->
  bf_read SwitchByteOrder first size mem =
    if first + size <=? 8 * Zlen mem
    then Ok (if spans first size <=? 4 then field mem first (Z.to_nat size)
             else field mem first (Z.to_nat size) mod 2 ^ (25 + (first + size - 1) mod 8))
    else UB UB_oob_read.
Proof.
  intros Hb Hf Hs. destruct (Z.leb_spec (spans first size) 4).
  - apply (read_switch_ok first size mem Hb Hf); [unfold spans in *; lia|exact H].
  - apply read_switch_five; [exact Hb|exact Hf|exact Hs|lia].
Qed.
Print Assumptions C66_switched_read.

(* fields in the default byte order: little-endian bit fields up to 24 bits, and always one byte more is read than
   size/8 rounded up, even when no bit of it belongs to the field; over 24 bits always undefined *)
Theorem C66_default_read first size mem : bytes_ok mem -> 0 <= first -> 1 <= size <= 64 ->
  (size <= 24 -> bf_read KeepByteOrder first size mem =
     if first / 8 + (size + 7) / 8 <? Zlen mem then Ok (lfield mem first (Z.to_nat size)) else UB UB_oob_read) /\
  (25 <= size -> exists k, bf_read KeepByteOrder first size mem = UB k).
Proof.
  intros Hb Hf Hs. split; intros H.
  - exact (read_keep_ok first size mem Hb Hf (conj (proj1 Hs) H)).
  - exact (read_keep_wide first size mem Hb Hf (conj H (proj2 Hs))).
Qed.
Print Assumptions C66_default_read.

(* so a field in the last bytes of its object (all its bytes counted, no byte more than its size needs) cannot be read
   without leaving the object *)
Theorem C66_last_field_reads_outside first size mem : bytes_ok mem -> 0 <= first -> 1 <= size <= 24 ->
  spans first size = (size + 7) / 8 -> (first + size - 1) / 8 = Zlen mem - 1 ->
  bf_read KeepByteOrder first size mem = UB UB_oob_read.
Proof.
  intros Hb Hf Hs H1 H2. rewrite (proj1 (C66_default_read first size mem Hb Hf ltac:(lia)) ltac:(lia)).
  unfold spans in H1. replace (first / 8 + (size + 7) / 8 <? Zlen mem) with false by lia. reflexivity.
Qed.
Print Assumptions C66_last_field_reads_outside.

(* assignment (whatever the byte order) sets exactly the bits of the big-endian field; a SwitchByteOrder field then
   reads back the value modulo 2^size and every field disjoint from it reads as before *)
Theorem C66_assignment first size m mem : bytes_ok mem -> 0 <= first -> 1 <= size <= 32 -> spans first size <= 4 -> first + size <= 8 * Zlen mem ->
  exists mem', bf_write first size m mem = Ok mem' /\ Zlen mem' = Zlen mem /\ bytes_ok mem' /\
    (forall k, 0 <= k -> bit mem' k = if (first <=? k) && (k <? first + size) then Z.testbit (m mod 2 ^ 32) (first + size - 1 - k) else bit mem k) /\
    (0 <= m < 2 ^ 32 -> bf_read SwitchByteOrder first size mem' = Ok (m mod 2 ^ size)) /\
    (forall f2 s2, 0 <= f2 -> 1 <= s2 <= 32 -> spans f2 s2 <= 4 -> f2 + s2 <= first \/ first + size <= f2 ->
       bf_read SwitchByteOrder f2 s2 mem' = bf_read SwitchByteOrder f2 s2 mem).
Proof. exact (round_trip first size m mem). Qed.
Print Assumptions C66_assignment.

(* a field over five bytes: undefined up to 31 bits; at 32 bits the whole first byte is cleared, neighbours included *)
Theorem C66_assignment_over_five_bytes first size m mem : bytes_ok mem -> 0 <= first -> spans first size = 5 ->
  (1 <= size <= 31 -> bf_write first size m mem = UB UB_overflow) /\
  (size = 32 -> first + size <= 8 * Zlen mem -> exists mem', bf_write first size m mem = Ok mem' /\ nth (Z.to_nat (first / 8)) mem' 0 = 0).
Proof.
  intros Hb Hf Hc. split.
  - intros Hs. exact (write_five_narrow first size m mem Hf Hs Hc).
  - intros -> Hin. apply write_five_wide; [exact Hb|exact Hf|unfold spans in Hc; lia|exact Hin].
Qed.
Print Assumptions C66_assignment_over_five_bytes.

(* fields of 32 to 64 bits over five bytes or more: undefined from 33 to 63 bits when size > 57 + (last bit mod 8); otherwise the last 25 + (last bit mod 8)
   bits take the low bits of m, and every bit before them is cleared down to the beginning of the byte in which the field begins, which
   may belong to a neighbour; a SwitchByteOrder field reads back those low bits *)
Theorem C66_wide_assignment first size m mem : bytes_ok mem -> 0 <= first -> 32 <= size <= 64 -> 5 <= spans first size -> first + size <= 8 * Zlen mem ->
  let kept := 25 + (first + size - 1) mod 8 in
  if (size <? 64) && (57 + (first + size - 1) mod 8 <? size) then bf_write first size m mem = UB UB_overflow
  else exists mem', bf_write first size m mem = Ok mem' /\ Zlen mem' = Zlen mem /\ bytes_ok mem' /\
    (forall k, 0 <= k -> bit mem' k =
       if k <? 8 * (first / 8) then bit mem k else if k <? first + size - kept then false
       else if k <? first + size then Z.testbit m (first + size - 1 - k) else bit mem k) /\
    bf_read SwitchByteOrder first size mem' = Ok (m mod 2 ^ kept).
Proof. exact (wide_assignment first size m mem). Qed.
Print Assumptions C66_wide_assignment.
Example C66_wide_case :
  bf_write 4 40 0x12345678 [0xFF; 0xFF; 0xFF; 0xFF; 0xFF; 0xFF; 0xFF] = Ok [0; 0; 0x23; 0x45; 0x67; 0x8F; 0xFF] /\
  bf_read SwitchByteOrder 4 40 [0; 0; 0x23; 0x45; 0x67; 0x8F; 0xFF] = Ok 0x2345678 /\
  bf_write 0 64 0x12345678 (repeat 0xFF 8) = Ok [0; 0; 0; 0; 0x12; 0x34; 0x56; 0x78] /\ bf_write 0 63 1 (repeat 0xFF 8) = Ok [0; 0; 0; 0; 0; 0; 0; 3] /\
  bf_write 2 63 1 (repeat 0xFF 9) = UB UB_overflow.
Proof. repeat split; vm_compute; reflexivity. Qed.

(* in the default byte order reading returns what was assigned exactly when the field lies symmetrically in one byte *)
Theorem C66_default_order_round_trip first size : 0 <= first -> 1 <= size <= 24 -> spans first size <= 4 ->
  (forall mem m mem', bytes_ok mem -> first / 8 + (size + 7) / 8 < Zlen mem -> first + size <= 8 * Zlen mem -> 0 <= m < 2 ^ size ->
     bf_write first size m mem = Ok mem' -> bf_read KeepByteOrder first size mem' = Ok m) <->
  (first / 8 = (first + size - 1) / 8 /\ first mod 8 + (first + size - 1) mod 8 = 7).
Proof. exact (keep_round_trip first size). Qed.
Print Assumptions C66_default_order_round_trip.

(* x op= m *)
Theorem C66_compound_assignment op first size m mem :
  bytes_ok mem -> 0 <= first -> 1 <= size <= 32 -> spans first size <= 4 -> first + size <= 8 * Zlen mem -> 0 <= m < 2 ^ 32 ->
  match spec_op op (field mem first (Z.to_nat size)) m with
  | Some x => exists mem', bf_update op SwitchByteOrder first size m mem = Ok mem' /\ Zlen mem' = Zlen mem /\ bytes_ok mem' /\
      field mem' first (Z.to_nat size) = x mod 2 ^ size /\ (forall k, 0 <= k -> ~ (first <= k < first + size) -> bit mem' k = bit mem k)
  | None => bf_update op SwitchByteOrder first size m mem = UB UB_overflow
  end.
Proof. exact (update_spec op first size m mem). Qed.
Print Assumptions C66_compound_assignment.

(* src/test/test_bitfield.cpp: the values its tests expect, and the two fields whose reads leave the 8-byte union *)
Definition test_mem : list Z := [0x67; 0x45; 0x23; 0x01; 0xF0; 0xDE; 0xBC; 0x8A].
Example C66_case :
  bf_read KeepByteOrder 0 8 test_mem = Ok 0x67 /\ bf_read KeepByteOrder 8 16 test_mem = Ok 0x2345 /\
  bf_read KeepByteOrder 32 16 test_mem = Ok 0xDEF0 /\ bf_read KeepByteOrder 48 16 test_mem = UB UB_oob_read /\
  bf_read KeepByteOrder 61 3 test_mem = UB UB_oob_read /\ bf_read KeepByteOrder 61 3 (test_mem ++ [0]) = Ok (0x8A / 32) /\
  bf_read KeepByteOrder 4 15 test_mem = Ok ((0x01234567 / 16) mod 0x8000) /\
  bf_read KeepByteOrder 41 13 test_mem = Ok ((0x8ABCDEF0 / 512) mod 0x2000) /\
  bf_read SwitchByteOrder 0 32 test_mem = Ok 0x67452301 /\ bf_read SwitchByteOrder 4 30 test_mem = Ok (0x67452301F0 / 64 mod 2 ^ 26) /\
  (let* m := bf_write 8 16 0x1234 test_mem in bf_read KeepByteOrder 8 16 m) = Ok 0x3412 /\
  (let* m := bf_write 12 30 0x12345678 test_mem in bf_read SwitchByteOrder 12 30 m) = UB UB_overflow /\
  (let* m := bf_update OpAdd SwitchByteOrder 4 15 0x7FFF test_mem in bf_read SwitchByteOrder 4 15 m) = Ok ((0x674523 / 32 + 0x7FFF) mod 2 ^ 15).
Proof. repeat split; vm_compute; reflexivity. Qed.
