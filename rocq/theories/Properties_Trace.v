(* C93: what the navigation parser writes to standard error (NavErr.nav_err models the DBG calls of nav.cpp; TraceSpec says what each text means). *)
From Coq Require Import String.
From Verif Require Import Base UtcModel UtcSpec Dbl NavModel NavSpec NavGpsSpec NavStrSpec NavGloSpec NavGalSpec NavObj NavGpsThm NavGlo NavGloThm NavGal NavGalThm TextSpec TraceSpec NavErr.
From Verif Require Import Properties_NavGps Properties_NavGal Properties_NavGlo.
Local Open Scope string_scope.
Local Open Scope list_scope.
Local Open Scope Z_scope.

(* a Galileo message of satellite sv after any history h, from any parser whose store is in order (C41): the reason why the page was skipped,
   or that words are missing, or why the seven words held do not make an ephemeris, or success; a release out of the range of time (C42) fails *)
Theorem C93_galileo junk s0 sv h s ev m : row_ok (n_rows s0 (sv - 1)) -> msgs_ok h -> msg_ok m -> is_gal sv m = true -> sv <> 0 -> nav_run junk s0 h = Ok (s, ev) ->
  let H := l_hist sv (row_held (n_rows s0 (sv - 1))) h in
  nav_err s m = if l_usable (sf_dw m) && l_ready (l_recv H (inav (sf_dw m))) && l_toolate (l_recv H (inav (sf_dw m))) then UB UB_overflow
    else Ok (galileo_trace sv H (sf_dw m)).
Proof. exact (galileo_text junk s0 sv h s ev m). Qed.
Print Assumptions C93_galileo.
(* success is reported for exactly the messages that release an ephemeris *)
Theorem C93_success junk s0 sv h s ev m s' v r : row_ok (n_rows s0 (sv - 1)) -> msgs_ok h -> msg_ok m -> is_gal sv m = true -> sv <> 0 -> nav_run junk s0 h = Ok (s, ev) ->
  convertUBX junk s m = Ok (s', v, r) -> exists t, nav_err s m = Ok t /\ (t = line "GAL Success" <-> r = Some true) /\ (t = line "GAL Success" <-> v <> []).
Proof. exact (success_text junk s0 sv h s ev m s' v r). Qed.
Print Assumptions C93_success.
(* a GLONASS message, in any state: one line naming satellite and string for a string 1 to 4 that is used, nothing otherwise (in particular nothing for
   a string that fails the check or arrives before the clock is set) *)
Theorem C93_glonass s m : msg_ok m -> sf_gnss m = 6 -> nav_err s m = Ok (glonass_trace (sf_sv m) (n_time s) (sf_dw m)).
Proof. exact (nav_err_glo s m). Qed.
Print Assumptions C93_glonass.
(* any other system: nothing *)
Theorem C93_others s m : sf_gnss m <> 6 -> sf_gnss m <> 2 -> nav_err s m = Ok "".
Proof. exact (nav_err_other s m). Qed.
Print Assumptions C93_others.

(* after the first six words of satellite 19: the seventh completes, a corrupted copy does not; before: words are missing.  The hypotheses of C93_galileo and
   C93_success hold here (C41_hypotheses). *)
Definition texts (h : list nop) (m : sfrbx) : option string := match nav_run junk0 (nav_init st0) h with Ok (s, _) => match nav_err s m with Ok t => Some t | UB _ => None end | UB _ => None end.
Example C93_case : texts six (gp p0) = Some (line "GAL Success") /\ texts six (gp p0_bad) = Some (line "GAL CRC Error: sat=19") /\
  texts (firstn 3 six) (gp p4) = Some (line "GAL waiting for other subframes").
Proof. split; [vm_compute; reflexivity|]. split; vm_compute; reflexivity. Qed.
Example C93_hypotheses : row_ok (n_rows (nav_init st0) (19 - 1)) /\ msgs_ok (six ++ [NMsg (gp p0)]) /\ is_gal 19 (gp p0) = true.
Proof. exact C41_hypotheses. Qed.
Example C93_glonass_case : texts [gclk] (gmsg 4 13 9 str1) = Some (line "GLO Sat 4, frm 1") /\ texts [] (gmsg 4 13 9 str1) = Some "".
Proof. split; vm_compute; reflexivity. Qed.
