(* C76: what << prints for a UTCTime.  C77: what read_serial.cpp prints for the ephemerides it receives.
   on_day n x (Calendar.v): the n-th day after 1970-01-01 has date x, counted day by day; stamp: the text; printable t: about 41 million years around 1970. *)
From Coq Require Import String Sorted.
From Verif Require Import Base UtcModel UtcSpec UtcProofs Dbl NavModel Calendar ExShow ExShowThm UtcShow UtcShowThm ExSat ExSatThm.
Local Open Scope string_scope.
Local Open Scope Z_scope.

(* ---- C76 *)
Theorem C76_text t : printable t -> exists x h m s,
  on_day (sec t / 86400) x /\ 0 <= h < 24 /\ 0 <= m < 60 /\ 0 <= s < 60 /\ 3600 * h + 60 * m + s = sec t mod 86400 /\ show_utc t = Ok (stamp x h m s).
Proof.
  intros H. exists (civil (sec t / 86400)), (sec t mod 86400 / 3600), (sec t mod 3600 / 60), (sec t mod 60).
  split; [apply on_day_civil|]. split; [lia|]. split; [lia|]. split; [lia|]. split; [lia|]. exact (show_utc_text t H).
Qed.
Print Assumptions C76_text.
(* the calendar: every day has one date, every date at most one day *)
Theorem C76_calendar : (forall n, exists x, on_day n x /\ valid x) /\ (forall n x y, on_day n x -> on_day n y -> x = y) /\ (forall n k x, on_day n x -> on_day k x -> n = k).
Proof.
  split; [intros n; exists (civil n); split; [apply on_day_civil|apply civil_step]|]. split; [exact on_day_fun|].
  intros n k x A B. apply on_day_is in A, B. apply civil_inj. congruence.
Qed.
Print Assumptions C76_calendar.
(* two times have the same text exactly if they are in the same second *)
Theorem C76_same_text a b : printable a -> printable b -> (show_utc a = show_utc b <-> sec a = sec b).
Proof.
  intros HA HB. split.
  - intros E. pose proof (show_utc_text a HA) as EA. rewrite E in EA. unfold printable in *. change (2 ^ 31) with 2147483648 in *.
    apply (show_utc_same a b _ (eq_trans E EA) EA); change (2 ^ 63) with 9223372036854775808; lia.
  - intros E. unfold show_utc. rewrite E. reflexivity.
Qed.
Print Assumptions C76_same_text.
(* outside that range: undefined conversion (of a week number that is not used) *)
Theorem C76_far_times t : - 2 ^ 63 <= sec t < 2 ^ 63 -> ~ printable t -> show_utc t = UB UB_convert.
Proof. exact (show_utc_fails t). Qed.
Print Assumptions C76_far_times.
(* GPS week and whole seconds, week 0 starting on 1980-01-06: shown 18 s after the GPS reading.  UTC is 18 s before it (since 2017) *)
Theorem C76_gps week s : 0 <= week <= 3549 -> 0 <= s < 604800 ->
  on_day 3657 (1980, 1, 6) /\ exists t, fromGPS week (1000 * s) = Ok t /\ printable t /\ sec t = 86400 * 3657 + 604800 * week + s + 18 /\
  show_utc t <> show_utc (mkUtc (86400 * 3657 + 604800 * week + s - 18) 0).
Proof.
  intros HW HS. split; [exact (on_day_civil 3657)|].
  destruct (fromGPS_spec week (1000 * s) ltac:(lia) ltac:(change (2 ^ 31) with 2147483648; lia)) as [F _].
  rewrite (Z.mul_comm 1000 s), Z.div_mul, Z.mod_mul in F by lia. specialize (F ltac:(change (2 ^ 31) with 2147483648; lia)). destruct F as (t & E & _ & ES). change (2 <=? 0) with false in ES. cbv iota in ES.
  exists t. rewrite (Z.mul_comm 1000 s). split; [exact E|].
  assert (P : printable t) by (unfold printable; change (2 ^ 31) with 2147483648; lia). split; [exact P|]. split; [lia|].
  intros X. apply C76_same_text in X; [cbn [sec] in X; lia|exact P|unfold printable; cbn [sec]; change (2 ^ 31) with 2147483648; lia].
Qed.
Print Assumptions C76_gps.
Example C76_case : printable (mkUtc 1564005746 999999999) /\ show_utc (mkUtc 1564005746 999999999) = Ok "2019/7/24 22:2:26" /\
  show_utc (mkUtc 951782399 0) = Ok "2000/2/28 23:59:59" /\ show_utc (mkUtc 951782400 0) = Ok "2000/2/29 0:0:0" /\ show_utc (mkUtc (-1) 0) = Ok "1969/12/31 23:59:59" /\
  fromGPS 2063 382000000 = Ok (mkUtc 1564049218 0) /\ show_utc (mkUtc 1564049218 0) = Ok "2019/7/25 10:6:58".
Proof. split; [unfold printable; cbn; lia|]. repeat split; vm_compute; reflexivity. Qed.

(* ---- C77 *)
(* h: the events of the parser, each with the clock at that moment; one text per event *)
Theorem C77_texts ec gc h f out : serial_run ec gc f_none h = Ok (f, out) ->
  length out = length h /\ forall h1 now v h2, h = (h1 ++ (now, v) :: h2)%list -> event_text ec gc h1 now v (nth (length h1) out "").
Proof. exact (serial_texts ec gc h f out). Qed.
Print Assumptions C77_texts.
Theorem C77_never_fails ec gc h : Forall printable (flat_map (shown_times ec gc) h) -> exists r, serial_run ec gc f_none h = Ok r.
Proof. exact (serial_never_fails ec gc h f_none). Qed.
Print Assumptions C77_never_fails.
(* whatever is listed was received: a satellite is listed under the constellation of a message it sent *)
Theorem C77_listed_were_received junk s H s' h ec gc : nav_run junk s H = Ok (s', map snd h) ->
  (forall k x, got_eph ec k h x -> exists m, In (NMsg m) H /\ sf_gnss m = k /\ sf_sv m = x /\ (k = 0 \/ k = 2)) /\
  (forall x, got_geph gc h x -> exists m, In (NMsg m) H /\ sf_gnss m = 6 /\ sf_sv m = x).
Proof.
  intros R. pose proof (run_origin junk H s s' _ R) as F. rewrite Forall_forall in F. split.
  - intros k x (now & e & I & E1 & E2). assert (J : In (EvEph ec e) (map snd h)) by (change (EvEph ec e) with (snd (now, EvEph ec e)); apply in_map; exact I).
    destruct (F _ J) as (m & M1 & M2 & M3 & M4). exists m. split; [exact M1|]. split; [congruence|]. split; [congruence|]. rewrite <- E1, M3. exact M2.
  - intros x (now & g & I & E1). assert (J : In (EvGeph gc g) (map snd h)) by (change (EvGeph gc g) with (snd (now, EvGeph gc g)); apply in_map; exact I).
    destruct (F _ J) as (m & M1 & M2 & M3). exists m. split; [exact M1|]. split; [exact M2|congruence].
Qed.
Print Assumptions C77_listed_were_received.
Definition ge (k sat : Z) : eph := set_toe (mkUtc 1564049218 0) (seti Fsat sat (seti FgnssID k eph_new)).
Definition nw : utc := mkUtc 1564005746 0.
Definition hist : list (utc * nev) := [(nw, EvEph 1 (ge 0 17)); (nw, EvEph 1 (ge 2 4)); (nw, EvEph 1 (ge 0 9)); (nw, EvEph 5 (ge 0 8)); (nw, EvEph 1 (ge 0 17)); (nw, EvGeph 2 (gseti Gsat 24 geph_new))].
Example C77_case : Forall printable (flat_map (shown_times 1 2) hist) /\
  match serial_run 1 2 f_none hist with
  | Ok (f, out) => nth 4 out "" = bar1 ++ "GPS sat: 17, now = 2019/7/24 22:2:26, toe = 2019/7/25 10:6:58, tof = 2019/7/25 10:6:58" ++ nl ++ bar1 ++ "Total GPS: 2: 9, 17, " ++ nl /\
      nth 3 out "" = "" /\ f = mkFound [9; 17] [4] [24]
  | _ => False
  end.
Proof. split; [repeat constructor; cbn; reflexivity|]. vm_compute. repeat split. Qed.
