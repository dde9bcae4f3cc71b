(* C40 (the clock): what sets the clock on which GLONASS depends, over whole histories. *)
From Verif Require Import Base UtcModel Dbl NavModel NavObj NavClock Properties_NavGps Properties_NavGlo.
Local Open Scope Z_scope.

(* the clock in the statements of C40 and C55 is the last time the parser was told: by setGPSTime or by a GPS ephemeris delivered (an
   ephemeris callback c is registered first, so that every release is seen); until then it is the epoch *)
Theorem C40_clock_of_history : forall junk st c h s ev, nav_run junk (nav_init st) (NEcb c :: h) = Ok (s, ev) ->
  n_time s = last (heard junk (nav_ecb (nav_init st) c) h) never_set.
Proof. exact clock_of_history. Qed.
Print Assumptions C40_clock_of_history.
(* until the parser has been told a time, no GLONASS ephemeris is delivered, whatever was received, and convertUBX answers every GLONASS
   message with false *)
Theorem C40_silent_until_told : forall junk st c h s ev, heard junk (nav_ecb (nav_init st) c) h = [] -> nav_run junk (nav_init st) (NEcb c :: h) = Ok (s, ev) ->
  (forall c' g, ~ In (EvGeph c' g) ev) /\ (forall m, sf_gnss m = 6 -> exists s', convertUBX junk s m = Ok (s', [], Some false)).
Proof. exact silent_until_told. Qed.
Print Assumptions C40_silent_until_told.

(* ---------------------------------------------------------------- examples *)
(* four good strings, never a time: nothing heard, nothing delivered; then the time is set and the next four are *)
Definition four : list nop := [NMsg (gmsg 4 13 9 str1); NMsg (gmsg 4 13 9 str2); NMsg (gmsg 4 13 9 str3); NMsg (gmsg 4 13 9 str4)].
Example C40_silent_case : heard gjunk (nav_ecb (nav_init gst) 1) (NGcb 7 :: four) = [] /\
  match nav_run gjunk (nav_init gst) (NEcb 1 :: NGcb 7 :: four) with Ok (_, ev) => ev = [] | UB _ => False end /\
  heard gjunk (nav_ecb (nav_init gst) 1) (NGcb 7 :: four ++ gclk :: four) = [mkUtc 1563660018 0] /\
  match nav_run gjunk (nav_init gst) (NEcb 1 :: NGcb 7 :: four ++ gclk :: four) with Ok (_, ev) => length ev = 5%nat | UB _ => False end.
Proof. split; [vm_compute; reflexivity|]. split; [vm_compute; reflexivity|]. split; vm_compute; reflexivity. Qed.
