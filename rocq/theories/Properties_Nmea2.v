(* C94: what class NMEA says about the traffic: the message "NMEA Bad Message" and new_data().  nmea_bads: for each byte given to read_cb, whether that
   message is written; nmea_calls: the results of new_data() among any calls of read_cb, restart and new_data. *)
From Verif Require Import Base NmeaModel NmeaProofs NmeaThm NmeaErr Properties_Nmea.

(* new_data() never reports anything: among all its results, only the first can be true, and that one is the uninitialised memory v *)
Theorem C94_new_data_never_reports buf0 v cs s' v' o : nmea_calls (nmea_init buf0) v cs = Ok (s', v', o) -> forall k, nth k o false = true -> k = 0%nat /\ v = true.
Proof. exact (new_data_calls buf0 v cs s' v' o). Qed.
Print Assumptions C94_new_data_never_reports.
(* a flag for every byte that is read *)
Theorem C94_flags s bs s' o : nmea_feed s bs = Ok (s', o) -> exists f, nmea_bads s bs = Ok (s', f) /\ length f = length bs.
Proof. exact (bads_feed bs s s' o). Qed.
Print Assumptions C94_flags.
(* a "Bad Message" for a byte means that no line end arrived within the last 82 bytes *)
Theorem C94_bad_means_long_line buf0 bs b s f : Zlen buf0 = 82 -> nmea_bads (nmea_init buf0) (bs ++ [b]) = Ok (s, f) -> last f false = true ->
  exists a w, bs ++ [b] = a ++ w /\ Zlen w = 82 /\ forall x y, last a 0 :: w <> x ++ [13; 10] ++ y.
Proof. exact (bad_means_long buf0 bs b s f). Qed.
Print Assumptions C94_bad_means_long_line.
(* lines of at most 82 bytes with their CR LF - every legal NMEA sentence, whatever it contains - never give the message *)
Theorem C94_legal_lines_quiet buf0 ls s' f : Zlen buf0 = 82 -> Forall (fun l => Zlen l <= 80) ls ->
  nmea_bads (nmea_init buf0) (flat_map (fun l => l ++ [13; 10]) ls) = Ok (s', f) -> f = repeat false (length (flat_map (fun l => l ++ [13; 10]) ls)).
Proof. intros HZ HF. apply (short_lines ls (nmea_init buf0)); [split; [exact HZ|cbn; lia]|reflexivity|discriminate|exact HF]. Qed.
Print Assumptions C94_legal_lines_quiet.
(* bytes without "$G" and without CR LF: one message per 82 bytes, counted from where the reader stands *)
Theorem C94_count_without_line_ends buf0 s bs : Zlen buf0 = 82 -> NReach buf0 s -> plain (n_prev s :: bs) ->
  exists s' f, nmea_bads s bs = Ok (s', f) /\ Z.of_nat (count_occ Bool.bool_dec f true) = (n_len s + Zlen bs) / 82.
Proof. intros HZ HR HP. destruct (plain_count bs s (nreach_inv buf0 s HZ HR) HP) as (s' & f & E1 & E2 & _). exists s', f. split; [exact E1|]. rewrite <- nbads_count. exact E2. Qed.
Print Assumptions C94_count_without_line_ends.

(* parsing_message(): a sentence start "$G" has arrived, and since then no line end and no "Bad Message" *)
Theorem C94_parsing buf0 bs s f : Zlen buf0 = 82 -> nmea_bads (nmea_init buf0) bs = Ok (s, f) ->
  (nmea_parsing s = true <-> exists a w, bs = a ++ [36; 71] ++ w /\ (forall x y, w <> x ++ [13; 10] ++ y) /\ ~ In true (skipn (length a + 2) f)).
Proof. exact (parsing_char buf0 bs s f). Qed.
Print Assumptions C94_parsing.
(* restart(): no sentence is being read then, and none is until the next "$G"; the count starts anew *)
Theorem C94_restart buf0 s bs : Zlen buf0 = 82 -> NReach buf0 s -> plain (n_prev s :: bs) ->
  exists s' f, nmea_bads (nmea_restart s) bs = Ok (s', f) /\ nmea_parsing s' = false /\ Z.of_nat (count_occ Bool.bool_dec f true) = Zlen bs / 82.
Proof. intros HZ HR HP. destruct (restart_spec s bs (nreach_inv buf0 s HZ HR) HP) as (s' & f & E1 & E2 & E3). exists s', f. split; [exact E1|]. split; [exact E2|]. rewrite <- nbads_count. exact E3. Qed.
Print Assumptions C94_restart.

(* ---- cases: a read line and a restart between calls of new_data; 200 bytes of text without line end; legal lines *)
Definition ncs : list ncall := [NC_new] ++ map NC_byte (sentence [80; 71]) ++ [NC_new; NC_restart; NC_byte 65; NC_new].
Definition newd (v : bool) : option (list bool) := match nmea_calls (nmea_init nb0) v ncs with Ok (_, _, o) => Some o | UB _ => None end.
Example C94_case_new : newd true = Some [true; false; false] /\ newd false = Some [false; false; false].
Proof. split; vm_compute; reflexivity. Qed.
Example C94_case_long : match nmea_bads (nmea_init nb0) (repeat 65 200) with Ok (_, f) => f = repeat false 81 ++ [true] ++ repeat false 81 ++ [true] ++ repeat false 36 | UB _ => False end /\
  plain (n_prev (nmea_init nb0) :: repeat 65 200) /\ NReach nb0 (nmea_init nb0).
Proof. split; [vm_compute; reflexivity|]. split; [apply plain_dec; reflexivity|constructor]. Qed.
Example C94_case_lines : Forall (fun l => Zlen l <= 80) [[36; 71; 80]; repeat 65 79; []] /\
  match nmea_bads (nmea_init nb0) (flat_map (fun l => l ++ [13; 10]) [[36; 71; 80]; repeat 65 79; []]) with Ok (_, f) => length f = 88%nat | UB _ => False end.
Proof. split; [repeat constructor; vm_compute; discriminate|vm_compute; reflexivity]. Qed.
Definition parsing_after (bs : list Z) : option bool := match nmea_bads (nmea_init nb0) bs with Ok (s, _) => Some (nmea_parsing s) | UB _ => None end.
Example C94_case_parsing : parsing_after [65; 36; 71; 80] = Some true /\ parsing_after [65; 36; 71; 80; 13; 10] = Some false /\ parsing_after ([36; 71] ++ repeat 65 79) = Some true /\
  parsing_after ([36; 71] ++ repeat 65 80) = Some false.
Proof. vm_compute. repeat split; reflexivity. Qed.
