(* C83: getBit in the machine's byte order, and the run-time getBit beyond 32 bits.  lfield: the number whose binary digit j is bit pos+j,
   bits counted from the least significant of each byte (BitFieldProofs). *)
From Verif Require Import Base BitSpec BitModel BitProofs BitField BitFieldProofs BitKeep.

Theorem C83_little_endian_getBit len buf pos : bytes_ok buf -> 0 <= pos -> 1 <= len <= 56 ->
  (len <= 24 ->
     (* template and run-time version, unsigned and signed; the byte after the len/8 (rounded up) first ones is always read *)
     (pos / 8 + (len + 7) / 8 < Zlen buf ->
        getBitK len buf pos = Ok (lfield buf pos (Z.to_nat len)) /\ getBitKRt buf pos len = Ok (lfield buf pos (Z.to_nat len)) /\
        getBitKS len buf pos = Ok (lfield_signed buf pos (Z.to_nat len)) /\ getBitKRtS buf pos len = Ok (lfield_signed buf pos (Z.to_nat len))) /\
     (Zlen buf <= pos / 8 + (len + 7) / 8 ->
        getBitK len buf pos = UB UB_oob_read /\ getBitKRt buf pos len = UB UB_oob_read /\ getBitKS len buf pos = UB UB_oob_read /\ getBitKRtS buf pos len = UB UB_oob_read)) /\
  (25 <= len -> (exists k, getBitK len buf pos = UB k) /\ (exists k, getBitKRt buf pos len = UB k) /\ (exists k, getBitKS len buf pos = UB k) /\ (exists k, getBitKRtS buf pos len = UB k)).
Proof.
  intros Hb Hp Hl. destruct (getBitK_ok len buf pos Hb Hp Hl) as [A1 A2]. destruct (getBitKRt_ok len buf pos Hb Hp Hl) as [B1 B2].
  destruct (getBitKS_ok len buf pos Hb Hp Hl) as [C1 C2]. destruct (getBitKRtS_ok len buf pos Hb Hp Hl) as [D1 D2]. split; [|auto].
  intros H. rewrite (A1 H), (B1 H), (C1 H), (D1 H). split; intros K; [replace (pos / 8 + (len + 7) / 8 <? Zlen buf) with true by lia|replace (pos / 8 + (len + 7) / 8 <? Zlen buf) with false by lia]; auto.
Qed.
Print Assumptions C83_little_endian_getBit.
(* so a field whose bits all lie in the buffer can only be read if the buffer goes on *)
Theorem C83_inside_is_enough_refuted : exists buf pos len, bytes_ok buf /\ 0 <= pos /\ 1 <= len <= 24 /\ pos + len <= 8 * Zlen buf /\ getBitK len buf pos = UB UB_oob_read.
Proof. exists [7], 0, 8. split; [repeat constructor; lia|]. unfold Zlen. cbn [length]. split; [lia|]. split; [lia|]. split; [lia|]. vm_compute. reflexivity. Qed.
Print Assumptions C83_inside_is_enough_refuted.
(* the run-time getBit(buf, pos, len) has a 32-bit result: of longer fields the low 32 bits, never negative *)
Theorem C83_runtime_getBit_beyond_32 len buf pos : bytes_ok buf -> 0 <= pos -> 33 <= len <= 56 -> pos + len <= 8 * Zlen buf ->
  getBitRt buf pos len = Ok (field buf pos (Z.to_nat len) mod 2 ^ 32) /\ getBitRtS buf pos len = Ok (field buf pos (Z.to_nat len) mod 2 ^ 32).
Proof. exact (getBitRt_wide len buf pos). Qed.
Print Assumptions C83_runtime_getBit_beyond_32.

Example C83_case :
  getBitK 16 [0x67; 0x45; 0x23; 0x01] 8 = Ok 0x2345 /\ getBitK 15 [0x67; 0x45; 0x23; 0x01] 4 = Ok (0x01234567 / 16 mod 2 ^ 15) /\
  getBitKS 12 [0x34; 0xF2; 0; 0] 4 = Ok (- 221) /\ getBitKRt [0xFF; 0xFF; 0xFF; 0x80] 0 24 = Ok 0xFFFFFF /\
  getBitK 16 [0x67; 0x45; 0x23; 0x01] 16 = UB UB_oob_read /\ getBitK 25 [1; 2; 3; 4; 5; 6] 0 = UB UB_overflow /\
  getBitRt [0x80; 1; 2; 3; 4; 5] 0 40 = Ok 0x01020304.
Proof. vm_compute. repeat split. Qed.
