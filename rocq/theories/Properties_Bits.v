(* C26-C29: bit-field access.  Ok v: value returned; UB UB_oob_read: access outside the buffer. *)
From Verif Require Import Base BitSpec BitModel BitProofs.

(* C26: value, and exactly which accesses stay inside the buffer *)
Theorem C26_getBit_is_big_endian_field len buf pos :
  bytes_ok buf -> 0 <= pos -> 1 <= len <= 56 ->
  getBit len buf pos = if pos + len <=? 8 * Zlen buf then Ok (field buf pos (Z.to_nat len)) else UB UB_oob_read.
Proof. exact (getBit_ok len buf pos). Qed.
Print Assumptions C26_getBit_is_big_endian_field.

Theorem C26_runtime_getBit_is_big_endian_field len buf pos :
  bytes_ok buf -> 0 <= pos -> 1 <= len <= 32 ->
  getBitRt buf pos len = if pos + len <=? 8 * Zlen buf then Ok (field buf pos (Z.to_nat len)) else UB UB_oob_read.
Proof. exact (getBitRt_ok len buf pos). Qed.
Print Assumptions C26_runtime_getBit_is_big_endian_field.

(* src/test/test_bit_tools.cpp: MisAlignedStartEnd, HalfAlignedBoth *)
Example C26_case :
  getBit 17 [0x12; 0x34; 0x56; 0x78; 0x9A; 0xBC; 0xEF] 29 = Ok 0x26AF /\
  getBit 16 [0x12; 0x34; 0x56; 0x78; 0x9A; 0xBC; 0xCD; 0xEF] 4 = Ok 0x2345 /\
  field [0x12; 0x34; 0x56; 0x78; 0x9A; 0xBC; 0xEF] 29 17 = 0x26AF /\
  getBit 56 [1; 2; 3; 4; 5; 6; 7; 0x80] 1 = Ok 0x02040608_0A0C0F.
Proof. vm_compute. auto. Qed.

(* C27 *)
Theorem C27_signed_getBit_is_twos_complement len buf pos :
  bytes_ok buf -> 0 <= pos -> 1 <= len <= 56 ->
  getBitS len buf pos = if pos + len <=? 8 * Zlen buf then Ok (field_signed buf pos (Z.to_nat len)) else UB UB_oob_read.
Proof. exact (getBitS_ok len buf pos). Qed.
Print Assumptions C27_signed_getBit_is_twos_complement.

Theorem C27_runtime_signed_getBit_is_twos_complement len buf pos :
  bytes_ok buf -> 0 <= pos -> 1 <= len <= 32 ->
  getBitRtS buf pos len = if pos + len <=? 8 * Zlen buf then Ok (field_signed buf pos (Z.to_nat len)) else UB UB_oob_read.
Proof. exact (getBitRtS_ok len buf pos). Qed.
Print Assumptions C27_runtime_signed_getBit_is_twos_complement.
Example C27_case :
  getBitS 8 [0x0F; 0xE0; 0] 4 = Ok (-2) /\ getBitS 16 [0x7F; 0xFF] 0 = Ok 0x7FFF /\ getBitS 32 [0x80; 0; 0; 0] 0 = Ok (- 2 ^ 31) /\
  getBitS 22 [0x40; 0; 0; 0] 1 = Ok (- 2 ^ 21).
Proof. vm_compute. auto. Qed.

(* C28: set_bits_spec says every bit of the result; the next two lines are its consequences for fields *)
Theorem C28_setBit_changes_exactly_its_field len buf pos data :
  bytes_ok buf -> 0 <= pos -> 1 <= len <= 56 -> pos + len <= 8 * Zlen buf ->
  exists buf', setBit len buf pos data = Ok buf' /\ Zlen buf' = Zlen buf /\ bytes_ok buf' /\
    (forall k, 0 <= k -> bit buf' k =
       if (pos <=? k) && (k <? pos + len) then Z.testbit (data mod 2 ^ 32) (pos + len - 1 - k) else bit buf k) /\
    (0 <= data < 2 ^ 32 -> getBit len buf' pos = Ok (data mod 2 ^ len)) /\
    (forall len2 pos2, 0 <= pos2 -> 1 <= len2 <= 56 -> pos2 + len2 <= pos \/ pos + len <= pos2 ->
       getBit len2 buf' pos2 = getBit len2 buf pos2).
Proof.
  exact (fun Hb Hp Hl Hin => match setBit_ok len buf pos data Hb Hp Hl Hin with
    ex_intro _ buf' (conj E HS) => ex_intro _ buf' (conj E (setBit_conseq len buf buf' pos data Hb Hp Hl Hin HS)) end).
Qed.
Print Assumptions C28_setBit_changes_exactly_its_field.

Theorem C28_runtime_setBit_changes_exactly_its_field len buf pos data :
  bytes_ok buf -> 0 <= pos -> 1 <= len <= 56 -> pos + len <= 8 * Zlen buf ->
  exists buf', setBitRt buf pos data len = Ok buf' /\ Zlen buf' = Zlen buf /\ bytes_ok buf' /\
    (forall k, 0 <= k -> bit buf' k =
       if (pos <=? k) && (k <? pos + len) then Z.testbit (data mod 2 ^ 32) (pos + len - 1 - k) else bit buf k).
Proof. exact (setBitRt_ok len buf pos data). Qed.
Print Assumptions C28_runtime_setBit_changes_exactly_its_field.
(* src/test/test_bit_tools.cpp: SetBits.UnalignedBoth, over a dirty buffer *)
Example C28_case :
  setBit 32 [0; 0; 0; 0; 0; 0; 0; 0] 3 0xF125B7CE = Ok [0x1E; 0x24; 0xB6; 0xF9; 0xC0; 0; 0; 0] /\
  setBit 5 [0xFF; 0xFF; 0xFF] 6 0x22 = Ok [0xFC; 0x5F; 0xFF].
Proof. vm_compute. auto. Qed.

(* C29 *)
Theorem C29_getBitGlo_is_sign_magnitude len buf pos :
  bytes_ok buf -> 0 <= pos -> 2 <= len <= 54 ->
  getBitGlo len buf pos = if pos + len <=? 8 * Zlen buf then Ok (field_glo buf pos (Z.to_nat len)) else UB UB_oob_read.
Proof. exact (getBitGlo_ok len buf pos). Qed.
Print Assumptions C29_getBitGlo_is_sign_magnitude.
Example C29_case : getBitGlo 5 [0; 0x13; 0xFF] 10 = Ok 9 /\ getBitGlo 24 [0x40; 0; 1; 0] 1 = Ok (- 2).
Proof. vm_compute. auto. Qed.
