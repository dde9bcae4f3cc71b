(* C24, C25: crc24.  m: the bytes summed; rest: whatever follows them in the buffer. *)
From Verif Require Import Base BitSpec CrcSpec CrcModel CrcProofs CrcErr CrcFour.

Theorem C24_crc24_is_remainder m rest r :
  bytes_ok m -> (crc24 (m ++ rest) (Zlen m) = Ok r <-> is_crc24q m r).
Proof. exact (crc24_iff m rest r). Qed.
Print Assumptions C24_crc24_is_remainder.

(* no table index is out of range, so a result always exists *)
Theorem C24_crc24_total m rest : bytes_ok m ->
  exists r, crc24 (m ++ rest) (Zlen m) = Ok r /\ is_crc24q m r.
Proof. exact (crc24_spec m rest). Qed.
Print Assumptions C24_crc24_total.

(* "123456789", the catalogue check value of CRC-24Q (CRC-24/LTE-A parameters with this generator) *)
Example C24_case : crc24 [49;50;51;52;53;54;55;56;57; 1; 2] 9 = Ok 0xCDE703.
Proof. vm_compute. reflexivity. Qed.

(* C25: block_check is what the readers do; it accepts exactly the blocks ending in their CRC *)
Theorem C25_check_accepts_exactly_valid_blocks l :
  bytes_ok l -> (3 <= length l)%nat -> (block_check l <-> block_ok l).
Proof. exact (block_check_iff l). Qed.
Print Assumptions C25_check_accepts_exactly_valid_blocks.

Theorem C25_bursts_up_to_24_bits_detected l l' k :
  bytes_ok l -> bytes_ok l' -> length l' = length l -> (3 <= length l)%nat -> block_ok l ->
  errors l l' <> [] -> (forall e, In e (errors l l') -> k <= e < k + 24) -> ~ block_ok l'.
Proof. exact (detect_burst l l' k). Qed.
Print Assumptions C25_bursts_up_to_24_bits_detected.

Theorem C25_odd_errors_detected l l' :
  bytes_ok l -> bytes_ok l' -> length l' = length l -> (3 <= length l)%nat -> block_ok l ->
  Z.odd (Zlen (errors l l')) = true -> ~ block_ok l'.
Proof. exact (detect_odd l l'). Qed.
Print Assumptions C25_odd_errors_detected.

Theorem C25_double_errors_detected l l' :
  bytes_ok l -> bytes_ok l' -> length l' = length l -> (3 <= length l)%nat -> Zlen l <= 1029 -> block_ok l ->
  Zlen (errors l l') = 2 -> ~ block_ok l'.
Proof. exact (detect_two l l'). Qed.
Print Assumptions C25_double_errors_detected.

(* one to five wrong bits are detected in blocks of up to 67 bytes (536 bits) ... *)
Theorem C25_up_to_five_errors_detected l l' :
  bytes_ok l -> bytes_ok l' -> length l' = length l -> (3 <= length l)%nat -> Zlen l <= 67 -> block_ok l ->
  1 <= Zlen (errors l l') <= 5 -> ~ block_ok l'.
Proof. exact (detect_few l l'). Qed.
Print Assumptions C25_up_to_five_errors_detected.
(* ... and that length is the longest: every longer valid block becomes another one by inverting four bits *)
Theorem C25_four_errors_can_pass_in_longer_blocks l : bytes_ok l -> (68 <= length l)%nat -> block_ok l ->
  exists l', bytes_ok l' /\ length l' = length l /\ block_ok l' /\ Zlen (errors l l') = 4.
Proof. exact (undetected_four l). Qed.
Print Assumptions C25_four_errors_can_pass_in_longer_blocks.

Example C25_case :
  block_ok [49;50;51;52;53;54;55;56;57; 0xCD; 0xE7; 0x03] /\
  errors [49;50;51;52;53;54;55;56;57; 0xCD; 0xE7; 0x03] [49;50;51;52;53;54;55;56;56; 0xCD; 0xE7; 0x02] = [71; 95].
Proof.
  split; [|vm_compute; reflexivity].
  apply C25_check_accepts_exactly_valid_blocks; [|cbn; lia|exists 0xCDE703; vm_compute; auto].
  repeat constructor; unfold byte_ok; lia.
Qed.
