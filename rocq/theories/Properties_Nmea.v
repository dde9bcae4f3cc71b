(* C51: the NMEA reader.  buf0: the uninitialised contents of its 82-byte buffer. *)
From Verif Require Import Base NmeaModel NmeaProofs NmeaThm.

(* every store is inside the 82-byte buffer (a store outside it would be UB UB_oob_write); the only possible
   undefined behaviour is the print over-reading a buffer without a NUL byte, at a CR LF *)
Theorem C51_stays_inside_buffer buf0 s b : Zlen buf0 = 82 -> NReach buf0 s -> byte_ok b ->
  (exists s' ok t, nmea_read s b = Ok (s', ok, t) /\ NReach buf0 s' /\ 0 <= n_len s' <= 81) \/
  (nmea_read s b = UB UB_cstring /\ b = 10 /\ n_prev s = 13 /\ ~ In 0 (stored s b)).
Proof. exact (nmea_safe buf0 s b). Qed.
Print Assumptions C51_stays_inside_buffer.

Theorem C51_only_fault_is_unterminated_print buf0 bs k : Zlen buf0 = 82 -> bytes_ok bs ->
  nmea_feed (nmea_init buf0) bs = UB k ->
  k = UB_cstring /\ exists pre post s o, bs = pre ++ [13; 10] ++ post /\
    nmea_feed (nmea_init buf0) (pre ++ [13]) = Ok (s, o) /\
    exists full, aset (n_buf s) (n_len s) 10 = Ok full /\ ~ In 0 full.
Proof. exact (init_fault buf0 bs k). Qed.
Print Assumptions C51_only_fault_is_unterminated_print.

(* result k (for byte k of the stream) is true iff byte k is LF and byte k-1 is CR *)
Theorem C51_true_exactly_at_crlf buf0 bs s' outs : Zlen buf0 = 82 ->
  nmea_feed (nmea_init buf0) bs = Ok (s', outs) ->
  length outs = length bs /\
  forall k, (k < length bs)%nat ->
    (fst (nth k outs (false, None)) = true <-> nth k bs 0 = 10 /\ (0 < k)%nat /\ nth (k - 1) bs 0 = 13).
Proof. exact (init_results buf0 bs s' outs). Qed.
Print Assumptions C51_true_exactly_at_crlf.

(* the printed text: the sentence followed by whatever is left in the buffer up to its first NUL *)
Theorem C51_printed_text buf0 s body : Zlen buf0 = 82 -> NReach buf0 s ->
  plain (71 :: body ++ [13]) -> ~ In 0 body -> Zlen body <= 78 ->
  exists tl, Zlen tl = 80 /\ (forall z, n_buf s = repeat z 82 -> n_len s = 0 -> tl = repeat z 80) /\
    let stale := skipn (length body + 2) tl in
    (In 0 stale -> exists s', nmea_feed s (sentence body) =
        Ok (s', nquiet (length body + 3) ++ [(true, Some (sentence body ++ upto0 stale))]) /\
        n_buf s' = repeat 0 (Z.to_nat N_SIZE) /\ n_len s' = 0 /\ nmea_parsing s' = false) /\
    (~ In 0 stale -> nmea_feed s (sentence body) = UB UB_cstring).
Proof. exact (fun Hz HR => sentence_spec s body (nreach_inv buf0 s Hz HR)). Qed.
Print Assumptions C51_printed_text.

(* once one line has ended, back-to-back sentences of at most 81 bytes print exactly themselves *)
Theorem C51_back_to_back_sentences_exact buf0 s b s1 t bodies : Zlen buf0 = 82 -> NReach buf0 s ->
  nmea_read s b = Ok (s1, true, t) -> Forall (body_ok 77) bodies ->
  exists s', nmea_feed s1 (flat_map sentence bodies) = Ok (s', flat_map line_outs bodies).
Proof. exact (fun Hz HR E HF => match clean_after s b s1 t (nreach_inv buf0 s Hz HR) E with
  conj HI (conj HB HL) => clean_lines bodies s1 HI HB HL HF end). Qed.
Print Assumptions C51_back_to_back_sentences_exact.

(* a sentence of the maximum legal length (82 bytes) always over-reads, whatever happened before *)
Theorem C51_longest_legal_sentence_overreads buf0 s body : Zlen buf0 = 82 -> NReach buf0 s ->
  plain (71 :: body ++ [13]) -> ~ In 0 body -> Zlen body = 78 ->
  nmea_feed s (sentence body) = UB UB_cstring.
Proof. exact (fun Hz HR => longest_overreads s body (nreach_inv buf0 s Hz HR)). Qed.
Print Assumptions C51_longest_legal_sentence_overreads.

(* ---- concrete cases ---- *)
(* memory full of 'X' before construction, one NUL at the end: the first print carries the residue *)
Definition nb0 : list Z := repeat 88 81 ++ [0].
Example C51_case_residue : exists s, nmea_feed (nmea_init nb0) (sentence [80; 71]) =
  Ok (s, nquiet 5 ++ [(true, Some (sentence [80; 71] ++ repeat 88 75))]).
Proof. eexists. vm_compute. reflexivity. Qed.
Example C51_case_hyps : body_ok 77 [78; 84; 88; 84; 44; 49] /\ plain (71 :: repeat 65 78 ++ [13]) /\ ~ In 0 (repeat 65 78) /\
  Zlen (repeat 65 78) = 78 /\ NReach nb0 (nmea_init nb0) /\ Zlen nb0 = 82.
Proof.
  split; [split; [apply plain_dec; reflexivity|split; [cbn; lia|vm_compute; discriminate]]|].
  split; [apply plain_dec; reflexivity|]. split; [intros H; apply repeat_spec in H; discriminate|].
  split; [reflexivity|]. split; [constructor|reflexivity].
Qed.
