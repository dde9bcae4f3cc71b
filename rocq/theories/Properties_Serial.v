(* C50, C53, C54: the byte-stream interfaces and the logger. *)
From Verif Require Import Base UbxEx UbxStream UbxModel RtcmModel Properties_Rtcm UbloxModel UbloxSpec UbloxApi UbloxThm Properties_Ublox
  SerialModel SerialProofs SerialThm.

(* ---- C50: recording.  h: any interleaving of received buffers and movements of buffered bytes to disk *)
Theorem C50_file_is_what_was_received h : disk (wlog_close (wlog_run h)) = lev_bytes h.
Proof. exact (wlog_closed h). Qed.
Print Assumptions C50_file_is_what_was_received.
(* at any instant (crash) the file is a prefix of what was received *)
Theorem C50_crash_leaves_prefix h : exists rest, lev_bytes h = disk (wlog_run h) ++ rest.
Proof. exact (wlog_crash h). Qed.
Print Assumptions C50_crash_leaves_prefix.

(* ---- C50: replay, files below 2 GiB: a listener registered once gets the file, in chunks of 1..14 bytes *)
Theorem C50_replay_delivers_file ls l file ds :
  Zlen file < 2 ^ 31 -> count_occ Z.eq_dec ls l = 1%nat -> logger_play MREAD ls file = Done (Ok ds) ->
  concat (got (SLis l) ds) = file /\ Forall (fun c => (1 <= length c <= 14)%nat) (got (SLis l) ds).
Proof. exact (replay_bytes ls l file ds). Qed.
Print Assumptions C50_replay_delivers_file.
(* the exact call sequence: chunk by chunk, each chunk to every listener in registration order *)
Theorem C50_replay_call_sequence ls file : Zlen file < 2 ^ 31 ->
  logger_play MREAD ls file = Done (Ok (flat_map (fun c => map (fun l => (SLis l, c)) ls) (chunks14 file))) /\
  concat (chunks14 file) = file /\
  exists cs r, chunks14 file = cs ++ (match r with [] => [] | _ => [r] end) /\
    Forall (fun c => length c = 14%nat) cs /\ (length r < 14)%nat.
Proof. exact (fun H => conj (play_small ls file H) (conj (chunks14_concat file) (chunks14_sizes file))). Qed.
Print Assumptions C50_replay_call_sequence.
(* larger files: the size is taken modulo 2^32, and 2^31 or more is a signed overflow *)
Theorem C50_large_files ls file :
  (u32 (Zlen file) < 2 ^ 31 -> exists ds, logger_play MREAD ls file = Done (Ok ds) /\
      ds = to_all ls (chunks14 (firstn (Z.to_nat (Zlen file mod 2 ^ 32)) file))) /\
  (2 ^ 31 <= u32 (Zlen file) -> logger_play MREAD ls file = Done (UB UB_overflow)).
Proof. exact (conj (fun H => ex_intro _ _ (conj (play_truncated ls file H) eq_refl)) (play_over ls file)). Qed.
Print Assumptions C50_large_files.
(* recording a session and replaying it into a UBLOX object in the same state does what the session did *)
Theorem C50_replay_decodes_the_same h live ls l ds s :
  lev_bytes h = concat live -> Zlen (concat live) < 2 ^ 31 -> count_occ Z.eq_dec ls l = 1%nat ->
  logger_play MREAD ls (disk (wlog_close (wlog_run h))) = Done (Ok ds) ->
  ublox_chunks s (got (SLis l) ds) = ublox_chunks s live.
Proof. exact (replay_decodes h live ls l ds s). Qed.
Print Assumptions C50_replay_decodes_the_same.
Theorem C50_crashed_log_decodes_a_prefix h ls l ds s s1 ev :
  Zlen (lev_bytes h) < 2 ^ 31 -> count_occ Z.eq_dec ls l = 1%nat ->
  logger_play MREAD ls (disk (wlog_run h)) = Done (Ok ds) ->
  ublox_read s (lev_bytes h) = Ok (s1, ev) ->
  exists s' ev1 ev2, ublox_chunks s (got (SLis l) ds) = Ok (s', ev1) /\ ev = ev1 ++ ev2.
Proof. exact (crash_decodes h ls l ds s s1 ev). Qed.
Print Assumptions C50_crashed_log_decodes_a_prefix.
(* a Logger in the wrong mode throws and neither records nor delivers; in the right mode it does not throw *)
Theorem C50_wrong_mode_throws :
  (forall w buf, logger_read_cb MREAD w buf = Threw) /\ (forall ls file, logger_play MWRITE ls file = Threw) /\
  (forall w buf, exists w', logger_read_cb MWRITE w buf = Done w' /\ disk (wlog_close w') = disk (wlog_close w) ++ buf) /\
  (forall ls file, exists r, logger_play MREAD ls file = Done r).
Proof.
  exact (conj (fun w buf => eq_refl) (conj (fun ls file => eq_refl)
    (conj (fun w buf => ex_intro _ _ (conj eq_refl (app_assoc (disk w) (pend w) buf))) (fun ls file => ex_intro _ _ eq_refl)))).
Qed.
Print Assumptions C50_wrong_mode_throws.
Definition hist0 : list lev := [LRead (firstn 5 rf0); LDrain 3; LRead (skipn 5 rf0 ++ rf0 ++ [7])].
Example C50_case : disk (wlog_run hist0) = firstn 3 rf0 /\ Zlen (lev_bytes hist0) < 2 ^ 31 /\
  count_occ Z.eq_dec [4; 5] 5 = 1%nat /\
  logger_play MREAD [4; 5] (disk (wlog_close (wlog_run hist0))) =
    Done (Ok [(SLis 4, rf0 ++ firstn 6 rf0); (SLis 5, rf0 ++ firstn 6 rf0); (SLis 4, skipn 6 rf0 ++ [7]); (SLis 5, skipn 6 rf0 ++ [7])]) /\
  evs (ublox_chunks d2 [rf0 ++ firstn 6 rf0; skipn 6 rf0 ++ [7]]) = evs (ublox_read d2 (lev_bytes hist0)).
Proof. split; [reflexivity|]. split; [vm_compute; reflexivity|]. split; [reflexivity|]. split; vm_compute; reflexivity. Qed.

(* ---- C53: a replaying Logger answers no request and delivers nothing before play(), so constructing a UBLOX object
   over it, as src/examples/read_log.cpp:110-111 does, always fails *)
Theorem C53_no_object_over_a_log u ru out0 nav :
  exists ev, ctor u ru out0 nav [] [] = Ok (None, ev) /\ ser_of ev = ver_poll ++ ver_poll.
Proof. exact (ctor_silent u ru out0 nav). Qed.
Print Assumptions C53_no_object_over_a_log.
Example C53_contrast : summary (ctor u0 ru0 out00 77 mv_frame []) = Ok (Some 27, ver_poll ++ setup_writes 27).
Proof. vm_compute. reflexivity. Qed.

(* ---- C54: one received buffer, in a history h1 of registrations and buffers: the most recent callback first, then
   every listener registered so far, in registration order, once per registration *)
Theorem C54_receive_order h1 b h2 : exists d1 d2,
  snd (si_run si_init (h1 ++ SRecv b :: h2)) =
  d1 ++ (match cb_of h1 with Some c => [(SCb c, b)] | None => [] end ++ map (fun l => (SLis l, b)) (regs h1)) ++ d2 /\
  d1 = snd (si_run si_init h1).
Proof. exact (si_receive h1 b h2). Qed.
Print Assumptions C54_receive_order.
(* a listener hears every buffer received after its registration, in order, once per registration *)
Theorem C54_listener_hears_all_later_buffers l h : got (SLis l) (snd (si_run si_init h)) = heard 0 l h.
Proof. exact (heard_spec l h si_init). Qed.
Print Assumptions C54_listener_hears_all_later_buffers.
Example C54_case : snd (si_run si_init [SRecv [1]; SAddC 8; SAddL 1; SRecv [2]; SAddC 9; SAddL 2; SAddL 1; SRecv [3]]) =
  [(SCb 8, [2]); (SLis 1, [2]); (SCb 9, [3]); (SLis 1, [3]); (SLis 2, [3]); (SLis 1, [3])].
Proof. reflexivity. Qed.
