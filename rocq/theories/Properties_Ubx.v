(* C01-C14: the UBX reader.  Only property theorems, each closed by one lemma, with an example that a
   concrete non-trivial case meets the hypotheses.
   Reach u s : s is the state of a reader constructed over arbitrary uninitialised memory u after some
   finite sequence of received bytes, restart() calls and flag clears (UbxHist).
   feed ls s bs : read_cb called on each byte of bs; the result lists, per byte, the got_ubx calls made
   and the boolean returned; UB k marks undefined behaviour (Base, UbxModel). *)
From Verif Require Import Base UbxSpec UbxModel UbxProofs UbxStream UbxMain UbxMore UbxVersion UbxHist UbxApi UbxOrigin UbxEx.

(* C01, C09: one frame from any idle reader.  overlay pl mem = pl followed by the old bytes of mem. *)
Theorem C01_frame_delivered_once u s ls cls id pl :
  uninit_ok u -> Reach u s -> parsing_message s = false ->
  Forall listener_ok ls -> byte_ok cls -> byte_ok id -> ubx_payload_ok pl ->
  ((cls, id) = (10, 4) -> ~ monver_unsafe (overlay pl (inbuf s)) (modname s)) ->
  exists s', feed (map build ls) s (ubx_frame cls id pl)
      = Ok (s', quiet (7 + length pl) ++ [(calls_for ls cls id (overlay pl (inbuf s)), true)])
    /\ parsing_message s' = false /\ inbuf s' = overlay pl (inbuf s).
Proof. exact (ls_frame u s ls cls id pl). Qed.
Print Assumptions C01_frame_delivered_once.
Example C01_case :
  uninit_ok u0 /\ Reach u0 s0 /\ parsing_message s0 = false /\ Forall listener_ok ls0 /\
  byte_ok 5 /\ byte_ok 1 /\ ubx_payload_ok [6; 8] /\ (5, 1) <> (10, 4) /\
  calls_for ls0 5 1 (overlay [6; 8] (inbuf s0)) =
    [mkCall 1 5 1 (overlay [6; 8] (inbuf s0)); mkCall 2 5 1 (overlay [6; 8] (inbuf s0))].
Proof.
  split; [exact u0_ok|]. split; [exact s0_reach|]. split; [apply s0_facts|]. split; [exact ls0_ok|].
  split; [unfold byte_ok; lia|]. split; [unfold byte_ok; lia|].
  split; [apply payload_ok_dec; reflexivity|]. split; [discriminate|reflexivity].
Qed.

(* C02 *)
Theorem C02_frames_between_noise u s ls cs :
  uninit_ok u -> Reach u s -> parsing_message s = false ->
  Forall listener_ok ls -> chunks_ok (prev s) cs ->
  (exists s' outs, feed (map build ls) s (chunks_bytes cs) = Ok (s', outs) /\ parsing_message s' = false /\
      Forall2 (delivered ls) (chunk_frames cs) (deliveries outs) /\ stray_calls outs = [])
  \/ ((exists pl, In (10, 4, pl) (chunk_frames cs)) /\ feed (map build ls) s (chunks_bytes cs) = UB UB_cstring).
Proof. exact (ls_stream u s ls cs). Qed.
Print Assumptions C02_frames_between_noise.
Example C02_case :
  chunks_ok (prev s0) [CNoise [1; 0xB5; 0x61]; CFrame 5 1 [6; 1]; CFrame 1 7 [0xB5; 0x62; 3]; CNoise [0x62; 0xB5]; CFrame 5 0 [9]].
Proof.
  repeat split; try (apply no_sync_dec; vm_compute; reflexivity); try (apply bytes_ok_dec; reflexivity);
    try (vm_compute; discriminate); try (vm_compute; reflexivity).
Qed.

(* C03 *)
Theorem C03_no_delivery_without_frame ls u pre s outs b s' c :
  Forall listener_ok ls -> uninit_ok u -> bytes_ok (pre ++ [b]) ->
  feed (map build ls) (ubx_init u) pre = Ok (s, outs) ->
  read_cb (map build ls) s b = Ok (s', c, true) ->
  exists before cls id pl rest,
    pre ++ [b] = before ++ ubx_frame cls id pl /\ 1 <= Zlen pl <= 2048 /\
    c = calls_for ls cls id (pl ++ rest) /\ length (pl ++ rest) = 2048%nat.
Proof. exact (sound_stream ls u pre s outs b s' c). Qed.
Print Assumptions C03_no_delivery_without_frame.

Theorem C03_no_call_without_true ls u pre s outs b s' c ok :
  Forall listener_ok ls -> uninit_ok u -> bytes_ok (pre ++ [b]) ->
  feed (map build ls) (ubx_init u) pre = Ok (s, outs) ->
  read_cb (map build ls) s b = Ok (s', c, ok) -> c <> [] -> ok = true.
Proof. exact (calls_only_with_true ls u pre s outs b s' c ok). Qed.
Print Assumptions C03_no_call_without_true.

(* The next delivered frame lies in the bytes after the previous delivery, except that its first sync
   byte may be the last byte of the previous frame. *)
Theorem C03_frames_share_at_most_one_byte ls u a b s1 o1 c1 s2 o2 c2 :
  Forall listener_ok ls -> uninit_ok u -> bytes_ok (a ++ b) -> b <> [] ->
  feed (map build ls) (ubx_init u) a = Ok (s1, o1 ++ [(c1, true)]) ->
  feed (map build ls) s1 b = Ok (s2, o2 ++ [(c2, true)]) ->
  exists before cls id pl rest,
    last a 0 :: b = before ++ ubx_frame cls id pl /\ c2 = calls_for ls cls id (pl ++ rest).
Proof. exact (no_overlap ls u a b s1 o1 c1 s2 o2 c2). Qed.
Print Assumptions C03_frames_share_at_most_one_byte.

(* a frame whose last checksum byte is B5, followed by 62 ..: both are delivered, sharing that byte *)
Example C03_case :
  let f1 := ubx_frame 5 1 [6; 10; 87] in
  let f2 := ubx_frame 5 1 [6; 1] in
  last f1 0 = 0xB5 /\ bytes_ok (f1 ++ tl f2) /\
  match feed (map build ls0) (ubx_init u0) f1 with
  | Ok (s1, o1) => map snd o1 = repeat false 10 ++ [true] /\
      match feed (map build ls0) s1 (tl f2) with
      | Ok (s2, o2) => map snd o2 = repeat false 8 ++ [true] /\ map (fun o => length (fst o)) o2 = repeat 0%nat 8 ++ [2%nat]
      | UB _ => False
      end
  | UB _ => False
  end.
Proof. split; [reflexivity|]. split; [apply bytes_ok_dec; reflexivity|]. vm_compute. auto. Qed.

(* C04 *)
Theorem C04_oversize_rejected u s ls cls id n :
  uninit_ok u -> Reach u s -> parsing_message s = false -> 2048 < n < 65536 ->
  exists s', feed (map build ls) s [0xB5; 0x62; cls; id; n mod 256; n / 256] = Ok (s', quiet 6) /\
    parsing_message s' = false /\ nerr s' = u32 (nerr s + 1) /\ nmsg s' = nmsg s /\ inbuf s' = inbuf s.
Proof. exact (ls_oversize u s ls cls id n). Qed.
Print Assumptions C04_oversize_rejected.

Theorem C04_frame_after_oversize u s ls c0 i0 n cls id pl :
  uninit_ok u -> Reach u s -> parsing_message s = false -> 2048 < n < 65536 ->
  Forall listener_ok ls -> byte_ok cls -> byte_ok id -> ubx_payload_ok pl -> (cls, id) <> (10, 4) ->
  exists s', feed (map build ls) s ([0xB5; 0x62; c0; i0; n mod 256; n / 256] ++ ubx_frame cls id pl)
      = Ok (s', quiet 6 ++ quiet (7 + length pl) ++ [(calls_for ls cls id (overlay pl (inbuf s)), true)])
    /\ parsing_message s' = false /\ nerr s' = u32 (nerr s + 1) /\ nmsg s' = u32 (nmsg s + 1).
Proof. exact (oversize_then_frame u s ls c0 i0 n cls id pl). Qed.
Print Assumptions C04_frame_after_oversize.
Example C04_case :
  uninit_ok u0 /\ Reach u0 s0 /\ parsing_message s0 = false /\ 2048 < 2049 < 65536 /\ ubx_payload_ok [1; 2; 3] /\ (1, 7) <> (10, 4).
Proof.
  split; [exact u0_ok|]. split; [exact s0_reach|]. split; [apply s0_facts|]. split; [lia|].
  split; [apply payload_ok_dec; reflexivity|discriminate].
Qed.

(* C05: in every reachable state, whatever the next byte, the only undefined behaviour is the unterminated
   character array of MON-VER (C13): no out-of-bounds store, no out-of-bounds checksum read. *)
Theorem C05_no_out_of_bounds u s ls b :
  uninit_ok u -> Reach u s -> byte_ok b ->
  (exists s' calls ok, read_cb ls s b = Ok (s', calls, ok)) \/ read_cb ls s b = UB UB_cstring.
Proof. exact (reach_byte_ok u s ls b). Qed.
Print Assumptions C05_no_out_of_bounds.

Theorem C05_undefined_only_after_monver ls u stream k :
  Forall listener_ok ls -> uninit_ok u -> bytes_ok stream ->
  feed (map build ls) (ubx_init u) stream = UB k ->
  k = UB_cstring /\ exists a pl c, stream = a ++ ubx_frame 10 4 pl ++ c.
Proof. exact (ub_only_version ls u stream k). Qed.
Print Assumptions C05_undefined_only_after_monver.
(* a full-size payload, the largest that fits, is received without undefined behaviour *)
Example C05_case :
  match feed (map build ls0) s0 (ubx_frame 1 7 (repeat 0xB5 100)) with
  | Ok (s, _) => nmsg s = 2 | UB _ => False end.
Proof. vm_compute. reflexivity. Qed.

(* C06 *)
Theorem C06_zero_length_blocks_forever u s ls cls id bs :
  uninit_ok u -> Reach u s -> parsing_message s = false ->
  exists s', feed (map build ls) s ([0xB5; 0x62; cls; id; 0; 0] ++ bs) = Ok (s', quiet (6 + length bs)) /\
    parsing_message s' = true /\ nerr s' = nerr s /\ nmsg s' = nmsg s.
Proof. exact (zero_blocks u s ls cls id bs). Qed.
Print Assumptions C06_zero_length_blocks_forever.
Example C06_case :  (* the poll this library sends is such a frame *)
  ubx_frame 10 4 [] = [0xB5; 0x62; 10; 4; 0; 0; 14; 52] /\ Reach u0 s0 /\ parsing_message s0 = false.
Proof. split; [reflexivity|]. split; [exact s0_reach|apply s0_facts]. Qed.

(* C07: any two adjacent bytes after the sync bytes (length field unchanged), and any one byte. *)
Theorem C07_adjacent_pair_detected u s ls cls id pl x a b a' b' y :
  uninit_ok u -> Reach u s -> parsing_message s = false ->
  Forall listener_ok ls -> ubx_payload_ok pl ->
  byte_ok a -> byte_ok b -> byte_ok a' -> byte_ok b' ->
  ubx_frame cls id pl = [0xB5; 0x62] ++ x ++ [a; b] ++ y ->
  (a, b) <> (a', b') ->
  firstn 2 (skipn 2 (x ++ [a'; b'] ++ y)) = [Zlen pl mod 256; Zlen pl / 256] ->
  exists s', feed (map build ls) s ([0xB5; 0x62] ++ x ++ [a'; b'] ++ y)
             = Ok (s', quiet (8 + length pl)) /\ parsing_message s' = false.
Proof. exact (corrupt_pair u s ls cls id pl x a b a' b' y). Qed.
Print Assumptions C07_adjacent_pair_detected.

Theorem C07_single_byte_detected u s ls cls id pl x a a' y :
  uninit_ok u -> Reach u s -> parsing_message s = false ->
  Forall listener_ok ls -> byte_ok cls -> byte_ok id -> ubx_payload_ok pl -> byte_ok a' -> a <> a' ->
  ubx_frame cls id pl = [0xB5; 0x62] ++ x ++ [a] ++ y ->
  (length x <> 2 /\ length x <> 3)%nat ->
  exists s', feed (map build ls) s ([0xB5; 0x62] ++ x ++ [a'] ++ y)
             = Ok (s', quiet (8 + length pl)) /\ parsing_message s' = false.
Proof. exact (corrupt_byte u s ls cls id pl x a a' y). Qed.
Print Assumptions C07_single_byte_detected.
Example C07_case :
  ubx_frame 1 7 [3; 4] = [0xB5; 0x62] ++ [1; 7; 2; 0] ++ [3; 4] ++ [17; 59] /\
  firstn 2 (skipn 2 ([1; 7; 2; 0] ++ [4; 3] ++ [17; 59])) = [Zlen [3; 4] mod 256; Zlen [3; 4] / 256] /\
  ubx_frame 1 7 [3; 4] = [0xB5; 0x62] ++ [1; 7; 2; 0; 3; 4] ++ [17] ++ [59].
Proof. vm_compute. auto. Qed.

(* C08 *)
Theorem C08_corrupt_frame_costs_itself u s ls c0 i0 pl0 ka kb cls id pl :
  uninit_ok u -> Reach u s -> parsing_message s = false -> 1 <= Zlen pl0 <= 2048 ->
  (ka, kb) <> (ck_a_of (ubx_body c0 i0 pl0), ck_b_of (ubx_body c0 i0 pl0)) ->
  Forall listener_ok ls -> byte_ok cls -> byte_ok id -> ubx_payload_ok pl -> (cls, id) <> (10, 4) ->
  exists s1 s', feed (map build ls) s ([0xB5; 0x62] ++ ubx_body c0 i0 pl0 ++ [ka; kb]) = Ok (s1, quiet (8 + length pl0))
    /\ parsing_message s1 = false /\ nerr s1 = u32 (nerr s + 1) /\ nmsg s1 = nmsg s
    /\ feed (map build ls) s1 (ubx_frame cls id pl)
       = Ok (s', quiet (7 + length pl) ++ [(calls_for ls cls id (overlay pl (inbuf s1)), true)])
    /\ parsing_message s' = false /\ nerr s' = nerr s1 /\ nmsg s' = u32 (nmsg s1 + 1).
Proof. exact (bad_then_frame u s ls c0 i0 pl0 ka kb cls id pl). Qed.
Print Assumptions C08_corrupt_frame_costs_itself.
Example C08_case :
  (17, 60) <> (ck_a_of (ubx_body 1 7 [3; 4]), ck_b_of (ubx_body 1 7 [3; 4])) /\ 1 <= Zlen [3; 4] <= 2048.
Proof. vm_compute. split; [discriminate|split; discriminate]. Qed.

(* C09: the delivered structure is exactly payload ++ old bytes: old bytes come from whatever history. *)
Theorem C09_stale_bytes_exposed u s ls cls id pl l :
  uninit_ok u -> Reach u s -> parsing_message s = false ->
  Forall listener_ok ls -> byte_ok cls -> byte_ok id -> ubx_payload_ok pl -> (cls, id) <> (10, 4) ->
  In l ls -> wants l cls id = true ->
  exists s' outs calls, feed (map build ls) s (ubx_frame cls id pl) = Ok (s', outs ++ [(calls, true)]) /\
    In (mkCall (lid l) cls id (pl ++ skipn (length pl) (inbuf s))) calls.
Proof. exact (stale_exposed u s ls cls id pl l). Qed.
Print Assumptions C09_stale_bytes_exposed.
(* ... and where they come from: byte k of the message beyond the payload is byte k of the last earlier complete frame, with
   right or wrong checksum, that had a byte k, or, if there was none, uninitialised memory *)
Theorem C09_origin_of_stale_bytes u ls its s outs cls id pl : uninit_ok u -> Forall listener_ok ls -> items_ok 0 its -> bytes_ok (items_bytes its) ->
  feed (map build ls) (ubx_init u) (items_bytes its) = Ok (s, outs) ->
  byte_ok cls -> byte_ok id -> ubx_payload_ok pl -> (cls, id) <> (10, 4) ->
  exists s' msg, feed (map build ls) s (ubx_frame cls id pl) = Ok (s', quiet (7 + length pl) ++ [(calls_for ls cls id msg, true)]) /\
    length msg = 2048%nat /\ firstn (length pl) msg = pl /\ forall k, (length pl <= k)%nat -> left_behind (un_inbuf u) its k (nth k msg 0).
Proof. exact (stale_origin u ls its s outs cls id pl). Qed.
Print Assumptions C09_origin_of_stale_bytes.
(* the second frame's message still shows the bytes 11, 12 of the first one *)
Example C09_case :
  match feed (map build ls0) (ubx_init u0) (ubx_frame 1 7 [10; 11; 12] ++ ubx_frame 1 7 [20]) with
  | Ok (s, outs) => map (fun c => firstn 5 (c_msg c)) (fst (last outs ([], false))) = [[20; 11; 12; 7; 7]]
  | UB _ => False end.
Proof. vm_compute. reflexivity. Qed.

(* C10 *)
Theorem C10_subscriptions_exact id ps c i :
  Forall pair_ok ps -> byte_ok c -> byte_ok i ->
  (subscribed (fold_left (fun m p => subscribe m (fst p) (snd p)) ps (mkML id [])) c i = true <-> In (c, i) ps).
Proof. exact (subscribed_exact id ps c i). Qed.
Print Assumptions C10_subscriptions_exact.
Example C10_case : Forall pair_ok [(1, 0xFF); (2, 0); (1, 0xFF)] /\ byte_ok 2 /\ byte_ok 0xFF.
Proof. unfold pair_ok, byte_ok. repeat constructor; cbn; lia. Qed.

(* C11.  items_ok 0 its and tail_ok say that the stream is cut into noise, good frames, frames with a wrong
   checksum, oversized headers and an unfinished rest (UbxSpec); every stream is (UbxStream.segmentation). *)
Theorem C11_counters ls u stream s outs :
  Forall listener_ok ls -> uninit_ok u -> bytes_ok stream ->
  feed (map build ls) (ubx_init u) stream = Ok (s, outs) ->
  nmsg s = Zlen (filter (fun o : byte_out => snd o) outs) mod 2 ^ 32 /\
  exists its t, stream = items_bytes its ++ t /\ items_ok 0 its /\ tail_ok (items_last 0 its) t /\
    nmsg s = count is_good its mod 2 ^ 32 /\ nerr s = count is_error its mod 2 ^ 32 /\
    got_ack s = (0 <? count (is_good_of 5 1) its) /\ got_nack s = (0 <? count (is_good_of 5 0) its) /\
    got_ver s = (0 <? count (is_good_of 10 4) its).
Proof. exact (counters_spec ls u stream s outs). Qed.
Print Assumptions C11_counters.
(* the cut of a stream into items and a rest is unique, so the counters are those of the cut, whichever way it is found *)
Theorem C11_cut_is_unique its its' p t t' : items_ok p its -> items_ok p its' -> tail_ok (items_last p its) t -> tail_ok (items_last p its') t' ->
  items_bytes its ++ t = items_bytes its' ++ t' -> its = its' /\ t = t'.
Proof. exact (segmentation_unique its its' p t t'). Qed.
Print Assumptions C11_cut_is_unique.
Theorem C11_every_stream_is_cut stream p : bytes_ok stream -> exists its t, stream = items_bytes its ++ t /\ items_ok p its /\ tail_ok (items_last p its) t.
Proof. exact (segmentation stream p). Qed.
Print Assumptions C11_every_stream_is_cut.
Theorem C11_outputs_of_a_cut ls u its t s outs : Forall listener_ok ls -> uninit_ok u -> bytes_ok (items_bytes its ++ t) -> items_ok 0 its -> tail_ok (items_last 0 its) t ->
  feed (map build ls) (ubx_init u) (items_bytes its ++ t) = Ok (s, outs) ->
  nmsg s = count is_good its mod 2 ^ 32 /\ nerr s = count is_error its mod 2 ^ 32 /\
  got_ack s = (0 <? count (is_good_of 5 1) its) /\ got_nack s = (0 <? count (is_good_of 5 0) its) /\ got_ver s = (0 <? count (is_good_of 10 4) its) /\
  outs = items_outs ls (un_inbuf u) its ++ quiet (length t).
Proof. exact (any_segmentation ls u its t s outs). Qed.
Print Assumptions C11_outputs_of_a_cut.
(* noise, a good frame whose last byte serves as sync byte of the damaged one after it, an oversized header, an unfinished rest *)
Definition cut0 : list item := [Noise 7; Noise 0xB5; Good 5 1 [6; 10; 87]; Bad 1 7 [1] 0 0xB5; Oversize 1 2 2049].
Example C11_cut_case : items_ok 0 cut0 /\ tail_ok (items_last 0 cut0) [] /\ bytes_ok (items_bytes cut0 ++ []) /\
  match feed (map build ls0) (ubx_init u0) (items_bytes cut0) with Ok (s, _) => nmsg s = 1 /\ nerr s = 2 /\ got_ack s = true | UB _ => False end /\
  (exists s outs, feed (map build ls0) (ubx_init u0) (items_bytes cut0) = Ok (s, outs)).
Proof.
  split.
  { cbn [cut0 items_ok item_ok item_last item_bytes last]. repeat split; try lia; try (vm_compute; congruence); intros [? ?]; discriminate. }
  split; [left; reflexivity|]. split; [apply bytes_ok_dec; vm_compute; reflexivity|]. split; [vm_compute; auto|].
  destruct (feed (map build ls0) (ubx_init u0) (items_bytes cut0)) as [[s outs]|k] eqn:E; [eauto|]. vm_compute in E. discriminate.
Qed.
Example C11_case :
  bytes_ok hist0 /\ match feed (map build ls0) (ubx_init u0) hist0 with Ok _ => True | UB _ => False end /\
  nmsg s0 = 1 /\ nerr s0 = 1.
Proof. split; [apply bytes_ok_dec; vm_compute; reflexivity|]. split; [vm_compute; exact I|]. split; apply s0_facts. Qed.

(* C12 *)
Theorem C12_flags_set_by_frame u s ls cls id pl :
  uninit_ok u -> Reach u s -> parsing_message s = false ->
  Forall listener_ok ls -> byte_ok cls -> byte_ok id -> ubx_payload_ok pl ->
  ((cls, id) = (10, 4) -> ~ monver_unsafe (overlay pl (inbuf s)) (modname s)) ->
  exists s' outs, feed (map build ls) s (ubx_frame cls id pl) = Ok (s', outs)
    /\ (got_ack s' = true <-> got_ack s = true \/ (cls, id) = (5, 1))
    /\ (got_nack s' = true <-> got_nack s = true \/ (cls, id) = (5, 0)).
Proof. exact (frame_flags u s ls cls id pl). Qed.
Print Assumptions C12_flags_set_by_frame.

Theorem C12_flags_otherwise_unchanged ls s b s' c :
  read_cb ls s b = Ok (s', c, false) ->
  got_ack s' = got_ack s /\ got_nack s' = got_nack s /\ got_ver s' = got_ver s /\
  major s' = major s /\ minor s' = minor s /\ modname s' = modname s /\ nmsg s' = nmsg s.
Proof. exact (flags_quiet ls s b s' c). Qed.
Print Assumptions C12_flags_otherwise_unchanged.
(* a NACK frame after the ACK was cleared, and an ACK for any other command: payload plays no role *)
Example C12_case :
  let s := clear_ack s0 in
  Reach u0 s /\ parsing_message s = false /\ got_ack s = false /\
  match feed (map build ls0) s (ubx_frame 5 1 [0xAA; 0xBB]) with Ok (s', _) => got_ack s' = true | UB _ => False end.
Proof.
  split; [apply R_clear_ack; exact s0_reach|]. vm_compute. auto.
Qed.

(* C13: exact outcome of a MON-VER frame. *)
Theorem C13_monver_outcome u s ls pl :
  uninit_ok u -> Reach u s -> parsing_message s = false ->
  Forall listener_ok ls -> ubx_payload_ok pl ->
  let msg := overlay pl (inbuf s) in
  (exists s' outs, feed (map build ls) s (ubx_frame 10 4 pl) = Ok (s', outs) /\ parsing_message s' = false /\
      ~ monver_unsafe msg (modname s) /\ got_ver s' = true /\
      (forall i, last_slot (has_protver msg) 20 i ->
         exists t1 t2, version_texts msg i t1 t2 /\ numeral t1 (major s') /\ numeral t2 (minor s')) /\
      (no_slot (has_protver msg) 20 -> major s' = major s /\ minor s' = minor s) /\
      (forall i a r, last_slot (has_mod msg) 20 i -> window msg (slot i + 4) 10 = a ++ 0 :: r -> ~ In 0 a ->
         exists z, modname s' = a ++ 0 :: z) /\
      (no_slot (has_mod msg) 20 -> modname s' = modname s))
  \/ (feed (map build ls) s (ubx_frame 10 4 pl) = UB UB_cstring /\ monver_unsafe msg (modname s)).
Proof. exact (monver_reach u s ls pl). Qed.
Print Assumptions C13_monver_outcome.

(* ... and for the text PROTVER=<1-4 digits>.<1-4 digits>NUL the numbers are the decimal ones. *)
Theorem C13_plain_version_number msg i ds es r t1 t2 ma mi :
  digits ds -> digits es -> (1 <= length ds <= 4)%nat -> (1 <= length es <= 4)%nat ->
  0 <= i < 20 -> Zlen msg = 2048 ->
  skipn (Z.to_nat (slot i)) msg = PROTVER ++ ascii ds ++ [46] ++ ascii es ++ [0] ++ r ->
  version_texts msg i t1 t2 -> numeral t1 ma -> numeral t2 mi ->
  ma = decimal ds /\ mi = decimal es.
Proof. exact (protver_plain msg i ds es r t1 t2 ma mi). Qed.
Print Assumptions C13_plain_version_number.
Example C13_case_defined :
  ubx_payload_ok monver_pl /\
  match feed (map build ls0) s0 (ubx_frame 10 4 monver_pl) with
  | Ok (s, _) => major s = 27 /\ minor s = 11 /\ modname s = [90;69;68;45;70;57;80;0;0;0] /\ got_ver s = true
  | UB _ => False end.
Proof. split; [exact monver_pl_ok|]. vm_compute. auto. Qed.
(* no PROTVER: flag set, version still the uninitialised 99 *)
Example C13_case_unset :
  match feed (map build ls0) s0 (ubx_frame 10 4 [1]) with
  | Ok (s, _) => major s = 99 /\ got_ver s = true | UB _ => False end.
Proof. vm_compute. auto. Qed.
(* five digits before the dot: undefined *)
Example C13_case_overread :
  feed (map build ls0) s0 (ubx_frame 10 4 (repeat 65 40 ++ PROTVER ++ [49;50;51;52;53;46;48;0])) = UB UB_cstring.
Proof. vm_compute. reflexivity. Qed.
(* a ten-character module name: undefined *)
Example C13_case_long_name :
  feed (map build ls0) s0 (ubx_frame 10 4 (repeat 65 40 ++ MOD ++ [78;69;79;45;77;57;78;45;48;48;66;0])) = UB UB_cstring.
Proof. vm_compute. reflexivity. Qed.

(* C14 *)
Theorem C14_restart u s ls cls id pl :
  uninit_ok u -> Reach u s ->
  Forall listener_ok ls -> byte_ok cls -> byte_ok id -> ubx_payload_ok pl ->
  ((cls, id) = (10, 4) -> ~ monver_unsafe (overlay pl (inbuf s)) (modname s)) ->
  parsing_message (restart s) = false /\
  (nmsg (restart s) = nmsg s /\ nerr (restart s) = nerr s /\ inbuf (restart s) = inbuf s /\
   got_ack (restart s) = got_ack s /\ got_nack (restart s) = got_nack s /\ got_ver (restart s) = got_ver s /\
   major (restart s) = major s /\ minor (restart s) = minor s /\ modname (restart s) = modname s) /\
  exists s', feed (map build ls) (restart s) (ubx_frame cls id pl)
      = Ok (s', quiet (7 + length pl) ++ [(calls_for ls cls id (overlay pl (inbuf s)), true)])
    /\ parsing_message s' = false.
Proof. exact (restart_then_frame u s ls cls id pl). Qed.
Print Assumptions C14_restart.
(* a reader blocked by a zero-length header *)
Example C14_case :
  let s := after [0xB5; 0x62; 10; 4; 0; 0; 14; 52] in Reach u0 s /\ parsing_message s = true.
Proof. split; [apply after_reach; apply bytes_ok_dec; reflexivity|vm_compute; reflexivity]. Qed.
