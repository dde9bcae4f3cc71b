(* C88: what the parser itself prints, the report on a Galileo ephemeris.  C89: what read_log.cpp prints for the ephemerides it receives.
   galileo_report, general_text (a double as a stream prints it), told, said_of: ReportSpec.v. *)
From Coq Require Import QArith Qabs String.
From Verif Require Import Base UtcModel UtcSpec Dbl NavModel NavSpec NavGpsSpec NavStrSpec NavGalSpec NavObj NavGpsThm NavGalThm TextSpec ExShow UtcShow UtcShowThm ReportSpec NavShow NavShowThm.
From Verif Require Import Properties_NavGps Properties_NavGal.
Local Open Scope string_scope.
Local Open Scope list_scope.
Local Open Scope Z_scope.

(* ---- C88 *)
(* every call, after any history: a report is printed exactly in the calls that release a Galileo ephemeris, and it is on the ephemeris the callbacks get *)
Theorem C88_console junk s0 h s ev : (forall sv, 1 <= sv <= 255 -> row_ok (n_rows s0 (sv - 1))) -> msgs_ok h -> nav_run junk s0 h = Ok (s, ev) ->
  exists ts, nav_console junk s0 h = Ok ts /\ length ts = length h /\
    forall h1 o h2, h = h1 ++ o :: h2 -> exists s1 e1 s2 e2, nav_run junk s0 h1 = Ok (s1, e1) /\ nav_step junk s1 o = Ok (s2, e2) /\ told e2 (nth (length h1) ts "").
Proof. exact (console_run junk h s0 s ev). Qed.
Print Assumptions C88_console.
(* with the release rule and the contents of C41, with or without callbacks *)
Theorem C88_report_of_release junk s0 sv h s ev m : row_ok (n_rows s0 (sv - 1)) -> msgs_ok h -> msg_ok m -> is_gal sv m = true -> sv <> 0 ->
  nav_run junk s0 h = Ok (s, ev) ->
  let H' := l_step (l_hist sv (row_held (n_rows s0 (sv - 1))) h) (sf_dw m) in
  if l_usable (sf_dw m) && l_ready H' then l_toolate H' = false -> exists s' d t,
    convertUBX junk s m = Ok (s', EvFell FN_PRINT :: map (fun c => EvEph c d) (n_ecb s), Some true) /\ gal_release sv H' d /\ nav_says s m = Ok t /\ galileo_report d t
  else nav_says s m = Ok "".
Proof. exact (release_says junk s0 sv h s ev m). Qed.
Print Assumptions C88_report_of_release.
(* the text of a double is determined by its value *)
Theorem C88_text_of_a_number : (forall x, general_text (dQ x) (show_dbl x)) /\ (forall q t t', general_text q t -> general_text q t' -> t = t').
Proof. split; [exact show_dbl_general|exact general_text_fun]. Qed.
Print Assumptions C88_text_of_a_number.
(* ten of the integer lines and two of the others do not come from Galileo messages at all: they stay as they were under this satellite number *)
Theorem C88_lines_kept junk s m s' ev r : sf_gnss m = 2 -> convertUBX junk s m = Ok (s', ev, r) ->
  (forall f, In f [Ftow; Ftocs; Fhealth; Falert; Fspoof; FcodeL2; Fura; FL2P; Ffit; Faodo] -> ei (eph_of s' (sf_sv m)) f = ei (eph_of s (sf_sv m)) f) /\
  (forall f, In f [Ftgd2; Ftgd3] -> ed (eph_of s' (sf_sv m)) f = ed (eph_of s (sf_sv m)) f).
Proof. exact (galileo_keeps junk s m s' ev r). Qed.
Print Assumptions C88_lines_kept.
(* so the report is not a function of what the satellite sent: the GPS satellite of the same number shows through *)
Definition is19 (o : nop) : bool := match o with NMsg m => is_gal 19 m | _ => false end.
Theorem C88_own_values_refuted : exists h h' s ev s' ev' t t',
  msgs_ok h /\ msgs_ok h' /\ filter is19 h = filter is19 h' /\ nav_run junk0 (nav_init st0) h = Ok (s, ev) /\ nav_run junk0 (nav_init st0) h' = Ok (s', ev') /\
  nav_says s (gp p0) = Ok t /\ nav_says s' (gp p0) = Ok t' /\ t <> t'.
Proof.
  exists six, (NMsg (msg 0 19 v1) :: six).
  assert (M : msgs_ok (NMsg (msg 0 19 v1) :: six)).
  { assert (F : Forall (fun o => match o with NMsg m => msg_ok m | _ => True end) (NMsg (msg 0 19 v1) :: six)).
    { repeat (apply Forall_cons; [first [exact I|apply words_ok; [unfold byte_ok; lia|unfold byte_ok; lia|reflexivity]]|]). apply Forall_nil. }
    intros m Hin. rewrite Forall_forall in F. exact (F _ Hin). }
  destruct (nav_run junk0 (nav_init st0) six) as [(s, ev)|k] eqn:E; [|vm_compute in E; discriminate E].
  destruct (nav_run junk0 (nav_init st0) (NMsg (msg 0 19 v1) :: six)) as [(s', ev')|k] eqn:E'; [|vm_compute in E'; discriminate E'].
  assert (X : match nav_run junk0 (nav_init st0) six, nav_run junk0 (nav_init st0) (NMsg (msg 0 19 v1) :: six) with
    | Ok (s, _), Ok (s', _) => match nav_says s (gp p0), nav_says s' (gp p0) with Ok t, Ok t' => String.eqb t t' = false | _, _ => False end | _, _ => False end) by (vm_compute; reflexivity).
  rewrite E, E' in X. destruct (nav_says s (gp p0)) as [t|] eqn:Y1; [|destruct X]. destruct (nav_says s' (gp p0)) as [t'|] eqn:Y2; [|destruct X].
  exists s, ev, s', ev', t, t'. split; [intros m I; apply M; right; exact I|]. split; [exact M|]. split; [reflexivity|]. split; [reflexivity|]. split; [reflexivity|]. split; [exact Y1|]. split; [exact Y2|]. intros Y. apply String.eqb_neq in X. contradiction.
Qed.
Print Assumptions C88_own_values_refuted.
(* the hypotheses hold and the rule says release for the pages of the project's own test: C41_hypotheses, C41_fires (Properties_NavGal.v); the text *)
Example C88_case : match nav_console junk0 (nav_init st0) (six ++ [NMsg (gp p0)]) with
  | Ok ts => ts = ["";  "";  "";  "";  "";  "";  ""; String.concat "" (map line
      ["Week = 2078, toes = 274800"; "Constellation: Galileo"; "Sat ID: 19"; ""; "toe 2019/11/6 4:20:18 (1573014018, 0)"; "toc 2019/11/6 4:20:18 (1573014018, 0)"; "tow 0"; "iodc 74"; "iode 74"; "week 2078"; "toes 274800"; "tocs 0"; "health 0"; "alert_flag 0"; "anti_spoof 0"; "code_on_L2 0"; "ura 0"; "L2_P_data_flag 0"; "fit_interval_flag 0"; "age_of_data_offset 0"; "tgd[0] -5.82077e-09"; "tgd[1] -6.0536e-09"; "tgd[2] 0"; "tgd[3] 0"; "af2 0"; "af1 1.98952e-13"; "af0 -3.04537e-06"; "m0 0.858087"; "delta_n 2.98155e-09"; "ecc 7.9249e-05"; "sqrta 5440.62"; "omega0 2.20037"; "i0 0.958879"; "w 1.93694"; "omegadot -5.46416e-09"; "idot 9.10752e-11"; "cuc -2.12155e-06"; "cus 1.21035e-05"; "crc 78"; "crs -46.9062"; "cic 1.49012e-08"; "cis 5.02914e-08"; ""])]
  | UB _ => False end.
Proof. vm_compute. reflexivity. Qed.
Example C88_numbers : show_dbl (mkD 1 (-1)) = "0.5" /\ show_dbl (mkD (-3) 20) = "-3.14573e+06" /\ show_dbl (mkD 1 (-20)) = "9.53674e-07" /\ show_dbl (mkD 1999999 (-1)) = "1e+06" /\
  show_dbl (mkD 1 (-13)) = "0.00012207" /\ show_dbl (mkD 100 0) = "100" /\ show_dbl (mkD 2000005 (-1)) = "1e+06" /\ show_dbl (mkD 999999 0) = "999999" /\ show_dbl (mkD 200001 (-1)) = "100000" /\ show_dbl (mkD 200003 (-1)) = "100002".
Proof. repeat split; vm_compute; reflexivity. Qed.

(* ---- C89 *)
(* h: the events of the parser, each with the clock at that moment; one text per event *)
Theorem C89_texts ec gc h : Forall printable (flat_map (log_times ec gc) h) ->
  exists ts, log_run ec gc h = Ok ts /\ Forall2 (fun x t => said_of ec gc (fst x) (snd x) t) h ts.
Proof. exact (log_run_said ec gc h). Qed.
Print Assumptions C89_texts.
(* the announcement does not tell the constellations apart *)
Theorem C89_constellations_alike now e k : log_eph now (seti FgnssID k e) = log_eph now e.
Proof. reflexivity. Qed.
Print Assumptions C89_constellations_alike.
(* the pages of Galileo satellite 19, played back: announced as GPS satellite 19 *)
Theorem C89_right_constellation_refuted : exists h s ev e, msgs_ok h /\ (forall m, In (NMsg m) h -> sf_gnss m = 2) /\ nav_run junk0 (nav_init st0) h = Ok (s, ev) /\
  In (EvEph 7 e) ev /\ ei e FgnssID = 2 /\ ei e Fsat = 19 /\
  forall now t, printable now -> log_event 7 8 now (EvEph 7 e) = Ok t -> exists u v, t = (u ++ "GPS sat: 19," ++ v)%string.
Proof.
  exists (six ++ [NMsg (gp p0)]).
  destruct (nav_run junk0 (nav_init st0) (six ++ [NMsg (gp p0)])) as [(s, ev)|k] eqn:E; [|vm_compute in E; discriminate E].
  assert (X : match nav_run junk0 (nav_init st0) (six ++ [NMsg (gp p0)]) with Ok (_, [EvFell _; EvEph c e]) => c = 7 /\ ei e FgnssID = 2 /\ ei e Fsat = 19 /\ sec (e_toe e) = 1573014018 | _ => False end) by (vm_compute; repeat split; reflexivity).
  rewrite E in X. destruct ev as [|[?|?|f] [|[c e|?|?] [|? ?]]]; try contradiction. destruct X as (-> & X1 & X2 & X3).
  exists s, [EvFell f; EvEph 7 e], e. split; [exact (proj1 (proj2 C41_hypotheses))|]. split.
  { intros m I. apply in_app_or in I. unfold six in I. cbn [map In] in I. repeat (destruct I as [I|I]; [first [discriminate I|injection I as <-; reflexivity|idtac]|]); try contradiction; destruct I as [I|[]]; injection I as <-; reflexivity. }
  split; [reflexivity|]. split; [right; left; reflexivity|]. split; [exact X1|]. split; [exact X2|]. intros now t HP H.
  destruct (log_event_said 7 8 now (EvEph 7 e)) as (t' & T1 & a & b & _ & _ & T2).
  { cbn [log_times fst snd Z.eqb Pos.eqb]. apply Forall_cons; [exact HP|]. apply Forall_cons; [|apply Forall_nil]. unfold printable. rewrite X3. change (2 ^ 31) with 2147483648. lia. }
  assert (t' = t) by congruence. subst t'. cbv zeta in T2. rewrite X2 in T2. rewrite T2.
  exists (line "!!!!!!!!!!!!!!!!!!!!!!!!!!!!!!!!!!!!!!!!!!!!!!!!!!!!!!!!!!"). eexists. unfold line at 2. cbn [append number]. change (number 19) with "19". cbn [append]. reflexivity.
Qed.
Print Assumptions C89_right_constellation_refuted.
Example C89_case : let e k := set_toe (mkUtc 1564049218 0) (seti Fsat 17 (seti FgnssID k eph_new)) in let now := mkUtc 1564005746 0 in
  let h := [(now, EvEph 1 (e 2)); (now, EvEph 5 (e 0)); (now, EvFell FN_GLOFRAME); (now, EvGeph 2 (gseti Gsat 24 geph_new))] in
  Forall printable (flat_map (log_times 1 2) h) /\
  match log_run 1 2 h with
  | Ok (t :: ts) => t = (line "!!!!!!!!!!!!!!!!!!!!!!!!!!!!!!!!!!!!!!!!!!!!!!!!!!!!!!!!!!" ++ line "GPS sat: 17, now = 2019/7/24 22:2:26, toe = 2019/7/25 10:6:58, tof = 2019/7/25 10:6:58" ++
      line "!!!!!!!!!!!!!!!!!!!!!!!!!!!!!!!!!!!!!!!!!!!!!!!!!!!!!!!!!!")%string /\ firstn 2 ts = [""; ""]
  | _ => False
  end.
Proof. split; [repeat constructor; cbn; reflexivity|]. vm_compute. repeat split. Qed.
