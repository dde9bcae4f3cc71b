(* C39, C40, C55, C59: GLONASS strings and ephemerides; the value convertUBX returns. *)
From Coq Require Import QArith.
From Verif Require Import Base UtcModel UtcSpec Dbl NavModel NavSpec NavGpsSpec NavStrSpec NavStr NavGloSpec NavGlo NavGloThm NavObj NavGpsThm NavRet NavGloDel.
Local Open Scope Z_scope.

(* ---- C39.  The check computes the ICD acceptance rule (str_accept) ... *)
Theorem C39_check_is_icd_rule : forall dw, bytes_ok dw -> gloTest (swap_words 4 dw) = Ok (str_accept (bn dw)).
Proof. exact gloTest_ok. Qed.
Print Assumptions C39_check_is_icd_rule.
(* ... under which error-free strings are accepted, one inverted bit is accepted only in b1..b7 (seven of the eight check
   bits), hence every single error in the data bits b9..b85 is rejected, and two inverted bits are always rejected *)
Theorem C39_error_detection : forall b, str_valid b -> str_accept b = true /\
  (forall n, 1 <= n <= 85 -> str_accept (flip [n] b) = (n <=? 7)) /\
  (forall n m, 1 <= n <= 85 -> 1 <= m <= 85 -> n <> m -> str_accept (flip [n; m] b) = false).
Proof. intros b V. split; [exact (valid_accepted b V)|]. split; [intros n; exact (single_error b n V)|intros n m; exact (double_error b n m V)]. Qed.
Print Assumptions C39_error_detection.
(* what the user of the parser sees of a rejected string: nothing is delivered, the record is unchanged; true is returned if the satellite is
   known and the clock is set (otherwise the string is not even checked) *)
Theorem C39_rejected_string_has_no_effect : forall junk s m, msg_ok m -> sf_gnss m = 6 -> str_accept (bn (sf_dw m)) = false ->
  exists s', convertUBX junk s m = Ok (s', [], Some (negb (sf_sv m =? 255) && negb ((sec (n_time s) =? 0) && (nsec (n_time s) =? 0)))) /\
    geph_of s' (sf_sv m) = geph_of s (sf_sv m) /\ same_but_g s s' (sf_sv m).
Proof. exact rejected_result. Qed.
Print Assumptions C39_rejected_string_has_no_effect.

(* ---- C40.  When a GLONASS message makes a delivery and what is delivered.  L: the satellite's messages so far with the
   parser's clock at each; g_fires and g_step (NavGloSpec) are the release rule; the only undefined behaviour is the
   overflow for clocks in 2038 or later. *)
Theorem C40_glonass_release : forall junk st sv h s ev m, msgs_ok h -> msg_ok m -> is_glo sv m = true ->
  clocks_ok (glog junk (nav_init st) sv h) -> clock_ok (n_time s) -> nav_run junk (nav_init st) h = Ok (s, ev) ->
  let T := g_hist sv (glog junk (nav_init st) sv h) in let t := n_time s in let dw := sf_dw m in
  (g_usable sv t dw = true -> (str_no dw = 1 \/ str_no dw = 2) -> 2147634000 <= sec t -> convertUBX junk s m = UB UB_overflow) /\
  (~ (g_usable sv t dw = true /\ (str_no dw = 1 \/ str_no dw = 2) /\ 2147634000 <= sec t) ->
   exists s' g r, convertUBX junk s m = Ok (s', (if g_usable sv t dw && ((1 <=? str_no dw) && (str_no dw <=? 4)) then [EvFell FN_GLOFRAME] else []) ++
       (if g_fires sv T t dw then map (fun c => EvGeph c g) (gcbs h) else []), Some r) /\
     (g_fires sv T t dw = true -> glo_content sv (sf_freq m) (g_step sv T (t, dw)) g) /\ n_time s' = n_time s).
Proof. exact glonass_release. Qed.
Print Assumptions C40_glonass_release.
(* a release combines strings of one superframe mark, each received with the clock set and accepted by the check; the
   message itself is string 4 *)
Theorem C40_one_mark : forall sv L t dw, g_fires sv (g_hist sv L) t dw = true ->
  exists m1 m2 m3 x1 x2, let T' := g_step sv (g_hist sv L) (t, dw) in
    gk1 T' = Some (m1, x1) /\ gk2 T' = Some (m2, x2) /\ gk3 T' = Some m3 /\ gk4 T' = Some dw /\ str_no dw = 4 /\ g_usable sv t dw = true /\
    from_log sv L 1 (str_mark dw) m1 /\ from_log sv L 2 (str_mark dw) m2 /\ from_log sv L 3 (str_mark dw) m3.
Proof. exact fires_one_mark. Qed.
Print Assumptions C40_one_mark.
(* the clock the rule speaks of: set by setGPSTime and by every released GPS ephemeris (to its toe), by nothing else *)
Theorem C40_clock : forall junk s o s' ev, nav_step junk s o = Ok (s', ev) ->
  match o with
  | NTime t => n_time s' = t
  | NMsg m => if sf_gnss m =? 0 then exists d, ev = calls_eph (n_ecb s) d /\ n_time s' = match d with Some r => e_toe r | None => n_time s end else n_time s' = n_time s
  | _ => n_time s' = n_time s
  end.
Proof. exact clock. Qed.
Print Assumptions C40_clock.

(* ---- C55.  The released instants: always the transmitted time of day (Moscow time), and within 12 hours of the clock
   if since some accepted string 1 and string 2 the clock stayed in a window of 12 hours *)
Theorem C55_time_of_day : forall sv freq L g m1 m2 x1 x2, glo_content sv freq (g_hist sv L) g ->
  gk1 (g_hist sv L) = Some (m1, x1) -> gk2 (g_hist sv L) = Some (m2, x2) ->
  nsec (g_toe g) = 0 /\ nsec (g_tof g) = 0 /\
  (sec (g_tof g) + 10800) mod 86400 = (3600 * sfield m1 9 5 + 60 * sfield m1 14 6 + 30 * sfield m1 20 1) mod 86400 /\
  (sec (g_toe g) + 10800) mod 86400 = (900 * sfield m2 9 7) mod 86400.
Proof. exact time_of_day. Qed.
Print Assumptions C55_time_of_day.
Theorem C55_within_12_hours : forall sv L1 L2 a now dw freq g,
  (forall t d, In (t, d) L2 -> inwin a t /\ normal t /\ tod_ok d) -> inwin a now -> normal now ->
  (exists t d, In (t, d) L2 /\ g_usable sv t d = true /\ str_no d = 1) -> (exists t d, In (t, d) L2 /\ g_usable sv t d = true /\ str_no d = 2) ->
  g_fires sv (g_hist sv (L1 ++ L2)) now dw = true -> glo_content sv freq (g_step sv (g_hist sv (L1 ++ L2)) (now, dw)) g ->
  Z.abs (nanos now - nanos (g_toe g)) <= H12 /\ Z.abs (nanos now - nanos (g_tof g)) <= H12.
Proof. exact released_times. Qed.
Print Assumptions C55_within_12_hours.

(* the same of every ephemeris delivered after any history of calls: m1, m2 are strings 1 and 2 of that satellite in the history *)
Theorem C55_delivered_time_of_day : forall junk st sv h s ev m s' ev' r c g, msgs_ok h -> msg_ok m -> is_glo sv m = true ->
  clocks_ok (glog junk (nav_init st) sv h) -> clock_ok (n_time s) -> nav_run junk (nav_init st) h = Ok (s, ev) ->
  convertUBX junk s m = Ok (s', ev', r) -> In (EvGeph c g) ev' ->
  let L := glog junk (nav_init st) sv h in
  exists m1 m2, from_log sv L 1 (str_mark (sf_dw m)) m1 /\ from_log sv L 2 (str_mark (sf_dw m)) m2 /\
  nsec (g_toe g) = 0 /\ nsec (g_tof g) = 0 /\
  (sec (g_tof g) + 10800) mod 86400 = (3600 * sfield m1 9 5 + 60 * sfield m1 14 6 + 30 * sfield m1 20 1) mod 86400 /\
  (sec (g_toe g) + 10800) mod 86400 = (900 * sfield m2 9 7) mod 86400.
Proof. exact delivered_time_of_day. Qed.
Print Assumptions C55_delivered_time_of_day.
Theorem C55_delivered_within_12_hours : forall junk st sv h s ev m s' ev' r c g L1 L2 a, msgs_ok h -> msg_ok m -> is_glo sv m = true ->
  clocks_ok (glog junk (nav_init st) sv h) -> clock_ok (n_time s) -> nav_run junk (nav_init st) h = Ok (s, ev) ->
  convertUBX junk s m = Ok (s', ev', r) -> In (EvGeph c g) ev' ->
  glog junk (nav_init st) sv h = L1 ++ L2 ->
  (forall t d, In (t, d) L2 -> inwin a t /\ tod_ok d) -> inwin a (n_time s) ->
  (exists t d, In (t, d) L2 /\ g_usable sv t d = true /\ str_no d = 1) -> (exists t d, In (t, d) L2 /\ g_usable sv t d = true /\ str_no d = 2) ->
  Z.abs (nanos (n_time s) - nanos (g_toe g)) <= H12 /\ Z.abs (nanos (n_time s) - nanos (g_tof g)) <= H12.
Proof. exact delivered_within_12_hours. Qed.
Print Assumptions C55_delivered_within_12_hours.

(* ---- C59.  The value convertUBX returns (Galileo: C41, C42; other constellations: C43).  GPS: true exactly for a
   subframe number outside 1..5, so false also when an ephemeris is delivered. *)
Theorem C59_gps_result : forall junk s m s' ev r, junk_ok junk -> msg_ok m -> sf_gnss m = 0 -> convertUBX junk s m = Ok (s', ev, r) ->
  r = Some (negb ((1 <=? gps_id (sf_dw m)) && (gps_id (sf_dw m) <=? 5))) /\ (forall c e, In (EvEph c e) ev -> r = Some false).
Proof. exact gps_result. Qed.
Print Assumptions C59_gps_result.
(* GLONASS: true if an ephemeris is released, and also if the string fails its check *)
Theorem C59_glonass_result : forall junk st sv h s ev m s' ev' r, msgs_ok h -> msg_ok m -> is_glo sv m = true ->
  clocks_ok (glog junk (nav_init st) sv h) -> clock_ok (n_time s) -> nav_run junk (nav_init st) h = Ok (s, ev) ->
  convertUBX junk s m = Ok (s', ev', r) ->
  let T := g_hist sv (glog junk (nav_init st) sv h) in let t := n_time s in let dw := sf_dw m in
  r = Some ((negb (sv =? 255) && negb ((sec t =? 0) && (nsec t =? 0)) && negb (str_accept (bn dw))) || g_fires sv T t dw).
Proof. exact glonass_result. Qed.
Print Assumptions C59_glonass_result.

(* ---------------------------------------------------------------- examples: strings of satellite 4 from src/test/test_eph.cpp *)
Definition gmsg (sv freq mark : Z) (ws : list Z) : sfrbx := mkSf 6 sv freq (flat_map le32 (ws ++ [mark * 65536; 0; 0; 0; 0; 0; 0])).
Definition str1 := [0x85f4c0c; 0x7bb4457c; 0x301e000].
Definition str2 := [0x10df00df; 0x496534e2; 0x7b4d7000].
Definition str3 := [0x1c00b17c; 0x54680c74; 0x4d3ce800].
Definition str4 := [0x24a4eab3; 0x1334; 0x448da800].
Definition gjunk : list Z := repeat 0 30.
Definition gst : rows := fun _ => repeat 0 380.
Definition gshow (e : nev) : Z * list Z :=
  match e with EvGeph c g => (c, [gi g Gsat; gi g GgnssID; gi g Giode; gi g Gfrq; gi g Gsvh; gi g Gsva; gi g Gage; sec (g_toe g); nsec (g_toe g); sec (g_tof g)])
  | EvEph c _ => (c, []) | EvFell f => (-f, []) end.
Definition gshown (h : list nop) : option (list (Z * list Z)) :=
  match nav_run gjunk (nav_init gst) h with Ok (_, ev) => Some (map gshow ev) | UB _ => None end.
Definition gclk : nop := NTime (mkUtc 1563660018 0).

Example C39_case : str_valid (bn (flat_map le32 str1)) /\ str_valid (bn (flat_map le32 str4)) /\
  str_accept (flip [40] (bn (flat_map le32 str1))) = false.
Proof. unfold str_valid. repeat split; try (repeat constructor; vm_compute; reflexivity); vm_compute; reflexivity. Qed.
(* the values the project's own test expects *)
Example C40_case :
  gshown [gclk; NGcb 7; NMsg (gmsg 4 13 9 str1); NMsg (gmsg 4 13 9 str2); NMsg (gmsg 4 13 9 str3); NMsg (gmsg 4 13 9 str4)] =
  Some [(-3, []); (-3, []); (-3, []); (-3, []); (7, [4; 6; 95; 6; 0; 3; 0; 1563655500; 0; 1563655950])].
Proof. vm_compute. reflexivity. Qed.
(* without the clock, with another satellite's string, or with a changed mark: nothing *)
Example C40_no_release :
  gshown [NGcb 7; NMsg (gmsg 4 13 9 str1); NMsg (gmsg 4 13 9 str2); NMsg (gmsg 4 13 9 str3); NMsg (gmsg 4 13 9 str4)] = Some [] /\
  gshown [gclk; NGcb 7; NMsg (gmsg 4 13 9 str1); NMsg (gmsg 5 13 9 str2); NMsg (gmsg 4 13 9 str3); NMsg (gmsg 4 13 9 str4)] = Some [(-3, []); (-3, []); (-3, []); (-3, [])] /\
  gshown [gclk; NGcb 7; NMsg (gmsg 4 13 9 str1); NMsg (gmsg 4 13 9 str2); NMsg (gmsg 4 13 9 str3); NMsg (gmsg 4 13 10 str4)] = Some [(-3, []); (-3, []); (-3, []); (-3, [])].
Proof. repeat split; vm_compute; reflexivity. Qed.
(* string 4 repeated: delivered again *)
Example C40_repeated :
  option_map (@length _) (gshown [gclk; NGcb 7; NMsg (gmsg 4 13 9 str1); NMsg (gmsg 4 13 9 str2); NMsg (gmsg 4 13 9 str3); NMsg (gmsg 4 13 9 str4); NMsg (gmsg 4 13 9 str4)]) = Some 7%nat.
Proof. vm_compute. reflexivity. Qed.
(* 2038 *)
Example C40_2038 : gshown [NTime (mkUtc 2147634000 0); NMsg (gmsg 4 13 9 str1)] = None.
Proof. vm_compute. reflexivity. Qed.
(* C55: the day correction at work: clock 00:00:18 Moscow time, tb = 95 (23:45) is the evening before *)
Example C55_case :
  gshown [NTime (mkUtc 1563656418 0); NGcb 7; NMsg (gmsg 4 13 9 str1); NMsg (gmsg 4 13 9 str2); NMsg (gmsg 4 13 9 str3); NMsg (gmsg 4 13 9 str4)] =
  Some [(-3, []); (-3, []); (-3, []); (-3, []); (7, [4; 6; 95; 6; 0; 3; 0; 1563655500; 0; 1563655950])].
Proof. vm_compute. reflexivity. Qed.
Definition hg : list nop := [NTime (mkUtc 1563656418 0); NGcb 7; NMsg (gmsg 4 13 9 str1); NMsg (gmsg 4 13 9 str2); NMsg (gmsg 4 13 9 str3)].
Definition dwd (ws : list Z) : list Z := sf_dw (gmsg 4 13 9 ws).
Definition tg : utc := mkUtc 1563656418 0.
(* the hypotheses of C55_delivered_within_12_hours, with L1 empty and the window starting at the clock *)
Example C55_hypotheses : (glog gjunk (nav_init gst) 4 hg = [] ++ [(tg, dwd str1); (tg, dwd str2); (tg, dwd str3)])%list /\ clock_ok tg /\
  inwin (nanos tg) tg /\ (forall d, In d [str1; str2; str3] -> tod_ok (dwd d)) /\
  (g_usable 4 tg (dwd str1) = true /\ str_no (dwd str1) = 1) /\ (g_usable 4 tg (dwd str2) = true /\ str_no (dwd str2) = 2) /\
  match nav_run gjunk (nav_init gst) hg with Ok (s, _) => n_time s = tg /\ match convertUBX gjunk s (gmsg 4 13 9 str4) with Ok (_, [EvFell _; EvGeph 7 g], _) => sec (g_toe g) = 1563655500 | _ => False end | UB _ => False end.
Proof.
  split; [vm_compute; reflexivity|]. split; [unfold clock_ok, normal, tg; cbn [sec nsec]; lia|]. split; [unfold inwin, H12, tg, nanos; cbn [sec nsec]; lia|].
  split; [intros d [<-|[<-|[<-|[]]]]; (split; intros _; [vm_compute; reflexivity|vm_compute; reflexivity])|]. split; [split; vm_compute; reflexivity|]. split; [split; vm_compute; reflexivity|]. vm_compute. split; reflexivity.
Qed.
(* C59: the final string 4 returns true, string 3 false, a corrupted string true *)
Definition gret (h : list nop) (m : sfrbx) : option (option bool) :=
  match nav_run gjunk (nav_init gst) h with
  | Ok (s, _) => match convertUBX gjunk s m with Ok (_, _, r) => Some r | UB _ => None end
  | UB _ => None
  end.
Example C59_case :
  gret [gclk; NMsg (gmsg 4 13 9 str1); NMsg (gmsg 4 13 9 str2)] (gmsg 4 13 9 str3) = Some (Some false) /\
  gret [gclk; NMsg (gmsg 4 13 9 str1); NMsg (gmsg 4 13 9 str2); NMsg (gmsg 4 13 9 str3)] (gmsg 4 13 9 str4) = Some (Some true) /\
  gret [gclk] (gmsg 4 13 9 [0x85f4c0d; 0x7bb4457c; 0x301e000]) = Some (Some true) /\
  gret [] (mkSf 0 4 0 (repeat 0 40)) = Some (Some true).
Proof. repeat split; vm_compute; reflexivity. Qed.
