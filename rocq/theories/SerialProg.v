(* C91: the whole of src/examples/read_serial.cpp while it receives: driver (ublox.cpp:120-139), parser (nav.h:169-173) and the two
   ephemeris callbacks (read_serial.cpp:79-118) with everything they print on standard output.  The handler for NAV-PVT and RXM-RAWX
   prints nothing (its body is commented out, read_serial.cpp:49-55). *)
From Coq Require Import String.
From Verif Require Import Base UbxSpec UbxModel UbxProofs UbxStream UbxMain UbxMore UbxHist UbxApi
  UbxTx UbxTxSpec UbxTxApi CrcSpec RtcmModel RtcmSpec RtcmProofs RtcmApi UbloxModel UbloxSpec UbloxProofs UbloxApi UbloxThm
  BitModel UtcModel UtcSpec Dbl NavModel NavSpec NavGpsSpec NavStrSpec NavGloSpec NavGalSpec NavStr NavBits NavGps NavObj NavGpsThm NavGlo NavGloThm NavPage NavGal NavGalThm
  NavDev NavSafe DeviceSafe NavShow NavShowThm TextSpec ConsoleSpec Console ReportSpec ExShow Calendar UtcShow UtcShowThm ExSat ExSatThm.
Local Open Scope string_scope.
Local Open Scope list_scope.
Local Open Scope Z_scope.

(* ---------------------------------------------------------------- model *)
(* the parser is given messages (and other calls): its own text comes before its callbacks run; the callbacks read the clock *)
Fixpoint nav_shows (junk : list Z) (ec gc : Z) (now : utc) (n : nav) (f : found) (ops : list nop) : outcome (nav * found * string) :=
  match ops with
  | [] => Ok (n, f, ""%string)
  | o :: r =>
      let* t := (match o with NMsg m => nav_says n m | _ => Ok ""%string end) in
      let* (n1, v) := nav_step junk n o in
      let* (f1, ts) := serial_run ec gc f (map (pair now) v) in
      let* (n2, f2, t2) := nav_shows junk ec gc now n1 f1 r in
      Ok (n2, f2, (t ++ joined ts ++ t2)%string)
  end.
(* received bytes, each with the clock at that moment; nid: the parser as a listener of the driver.
   In one byte the driver's text and the parser's never meet: they belong to different messages *)
Fixpoint prog (junk : list Z) (nid ec gc : Z) (s : ublox) (n : nav) (f : found) (bs : list (utc * Z)) : outcome (ublox * nav * found * string) :=
  match bs with
  | [] => Ok (s, n, f, ""%string)
  | (now, b) :: r =>
      let* t := ublox_say s b in
      let* (s1, e) := ublox_byte s b in
      let* (n1, f1, t1) := nav_shows junk ec gc now n f (flat_map (to_nav nid) e) in
      let* (s2, n2, f2, t2) := prog junk nid ec gc s1 n1 f1 r in
      Ok (s2, n2, f2, (t ++ t1 ++ t2)%string)
  end.

(* ---------------------------------------------------------------- specification *)
(* frames, each with the clock during its bytes *)
Definition timed := list (ditem * list utc).
Definition frames (td : timed) : list ditem := map fst td.
Definition timed_ok (td : timed) : Prop := Forall (fun x => length (snd x) = length (ditem_bytes (fst x)) /\ Forall printable (snd x)) td.
Definition timed_bytes (td : timed) : list (utc * Z) := flat_map (fun x => combine (snd x) (ditem_bytes (fst x))) td.
(* what is announced for the events v of one frame, after the history h *)
Definition announced (ec gc : Z) (h : history) (now : utc) (v : list nev) (ts : list string) : Prop :=
  length ts = length v /\ forall v1 x v2, v = v1 ++ x :: v2 -> event_text ec gc (h ++ map (pair now) v1) now x (nth (length v1) ts ""%string).
(* the text of the program: frame by frame the driver's text, the parser's report and the announcements; an announcement shows the clock at
   the last byte of the frame *)
Inductive output (junk : list Z) (ec gc : Z) : ublox -> nav -> history -> timed -> string -> Prop :=
| out_end s n h : output junk ec gc s n h [] ""
| out_frame s n h d cs now r s1 e n1 v x y ts t :
    ublox_read s (ditem_bytes d) = Ok (s1, e) -> said d s1 x ->
    nav_run junk n (map NMsg (dsfr_msgs (inbuf (u_ubx s)) [d])) = Ok (n1, v) -> told v y ->
    now = last cs (mkUtc 0 0) -> announced ec gc h now v ts ->
    output junk ec gc s1 n1 (h ++ map (pair now) v) r t ->
    output junk ec gc s n h ((d, cs) :: r) (x ++ y ++ joined ts ++ t).

(* ---------------------------------------------------------------- proofs *)
Definition times_ok (v : nev) : Prop :=
  match v with EvEph _ e => printable (e_toe e) | EvGeph _ g => printable (g_toe g) /\ printable (g_tof g) | EvFell _ => True end.
Lemma clock_in_printable t : clock_in t -> printable t.
Proof. unfold clock_in, printable. change (2 ^ 31) with 2147483648. lia. Qed.
Lemma bnd_printable x : bnd x -> printable (mkUtc x 0).
Proof. unfold bnd, printable. cbn [sec]. change (2 ^ 41) with 2199023255552. change (2 ^ 31) with 2147483648. lia. Qed.
Lemma calm_times junk s o s' ev : junk_ok junk -> calm o -> SI s -> nav_step junk s o = Ok (s', ev) -> Forall times_ok ev.
Proof.
  intros HJ HC [H1 H2 H3 H4] E. destruct o as [m|t|c|c]; cbn [calm nav_step] in *.
  2,3,4: assert (ev = []) by congruence; subst; apply Forall_nil.
  apply bind_inv in E. destruct E as (((sa, ea), ra) & EC & E). assert (ea = ev) by congruence. subst ea. clear E.
  destruct HC as (Hm & HGW & HG).
  destruct (Z.eq_dec (sf_gnss m) 6) as [G|G6]; [|destruct (Z.eq_dec (sf_gnss m) 2) as [G|G2]; [|destruct (Z.eq_dec (sf_gnss m) 0) as [G|G0]]].
  - assert (EG : is_glo (sf_sv m) m = true) by (unfold is_glo; lia).
    destruct (H3 (sf_sv m)) as (T & HT). assert (CK : clock_ok (n_time s)) by (unfold clock_ok; change (2 ^ 40) with 1099511627776; split; [apply H1|lia]).
    pose proof (glo_message junk s m (sf_sv m) T (n_gcb s) eq_refl Hm EG CK HT) as HX. cbv zeta in HX.
    replace (late (n_time s) (sf_dw m)) with false in HX by (unfold late; replace (2147634000 <=? sec (n_time s)) with false by lia; rewrite andb_false_r; reflexivity).
    rewrite andb_false_r in HX. destruct HX as (s1 & g & EC' & [_ _ _ _ _ G1 G2 _ _] & _ & HF). rewrite EC in EC'.
    match type of EC' with Ok (_, _, _) = Ok (_, ?x, _) => assert (EV : ev = x) by congruence end. rewrite EV. apply Forall_app. split.
    { destruct (_ && _); [apply Forall_cons; [exact I|apply Forall_nil]|apply Forall_nil]. }
    destruct (g_fires _ _ _ _); [|apply Forall_nil]. destruct (HF eq_refl) as (m1 & tof & m2 & toe & m3 & m4 & K1 & K2 & _ & _ & _ & _ & _ & KF & KE & _).
    rewrite K1 in G1. rewrite K2 in G2. destruct G1 as (_ & B1 & _). destruct G2 as (_ & B2 & _).
    apply Forall_forall. intros x Hx. apply in_map_iff in Hx. destruct Hx as (c & <- & _). cbn [times_ok]. rewrite KF, KE. split; apply bnd_printable; assumption.
  - assert (EG : is_gal (sf_sv m) m = true) by (unfold is_gal; lia).
    destruct (HG G) as [NZ HW]. pose proof Hm as (Hdw & _ & Bs' & _). pose proof Bs' as Bs. unfold byte_ok in Bs.
    pose proof (convert_gal junk s m G) as HV.
    pose proof (gal_decode (n_ecb s) (n_rows s) (sf_dw m) (start_rec s m) (sf_sv m) Hdw eq_refl Bs' (fun _ => proj1 (H4 (sf_sv m) ltac:(lia)))) as HD.
    destruct (l_usable (sf_dw m)).
    2:{ rewrite HD in HV. destruct HV as (s1 & EC' & _). assert (ev = []) by congruence. subst ev. apply Forall_nil. }
    replace (sf_sv m =? 0) with false in HD by lia. destruct HD as (row' & _ & _ & ED). rewrite ED in HV. unfold gal_out in HV. cbv zeta in HV.
    destruct (l_ready (row_held row')); [destruct (l_late _ _ _) eqn:LL|].
    + congruence.
    + destruct (release_printable (row_word row' 0) (row_word row' 1) (row_word row' 4) (lfill (row_word row' 1) (row_word row' 2) (row_word row' 3) (row_word row' 4) (row_word row' 5) (start_rec s m)) LL) as (P1 & _); [exact G|].
      destruct HV as (s1 & EC' & _). set (d := ldone _ _ _ _) in *. assert (EV : ev = EvFell FN_PRINT :: map (fun c => EvEph c d) (n_ecb s)) by congruence. rewrite EV.
      apply Forall_cons; [exact I|]. apply Forall_forall. intros x Hx. apply in_map_iff in Hx. destruct Hx as (c & <- & _). exact P1.
    + destruct HV as (s1 & EC' & _). assert (ev = []) by congruence. subst ev. apply Forall_nil.
  - pose proof (convert_gps junk s m G) as HV.
    destruct (decodeGPS_range junk (sf_dw m) (start_rec s m) HJ (proj1 Hm) (HGW G) (erange_start s m (H2 _))) as (e' & d & r & ED & ER & CT). rewrite ED in HV.
    destruct HV as (s1 & EC' & _). rewrite EC in EC'. assert (EV : ev = calls_eph (n_ecb s) d) by congruence. subst ev. unfold calls_eph. destruct d as [x|]; [|apply Forall_nil].
    apply Forall_forall. intros y Hy. apply in_map_iff in Hy. destruct Hy as (c & <- & _). cbn [times_ok]. apply clock_in_printable. exact CT.
  - destruct (convert_other junk s m G0 G2 G6) as (s1 & EC' & _). rewrite EC in EC'.
    match type of EC' with Ok (_, _, _) = Ok (_, ?x, _) => assert (EV : ev = x) by congruence end. rewrite EV. apply Forall_cons; [exact I|apply Forall_nil].
Qed.

Lemma shown_printable ec gc now v : printable now -> Forall times_ok v -> Forall printable (flat_map (shown_times ec gc) (map (pair now) v)).
Proof.
  intros HN. induction 1 as [|x v Hx _ IH]; [apply Forall_nil|]. cbn [map flat_map]. apply Forall_app. split; [|exact IH].
  destruct x as [c e|c g|k]; cbn [shown_times times_ok] in *; [| |apply Forall_nil].
  - destruct (c =? ec); [|apply Forall_nil]. repeat (apply Forall_cons; [assumption|]). apply Forall_nil.
  - destruct (c =? gc); [|apply Forall_nil]. destruct Hx. repeat (apply Forall_cons; [assumption|]). apply Forall_nil.
Qed.

Lemma sapp_nil_r (t : string) : (t ++ "")%string = t.
Proof. induction t as [|c t IH]; [reflexivity|]. cbn. rewrite IH. reflexivity. Qed.
Lemma prog_app junk nid ec gc a : forall b s n f, prog junk nid ec gc s n f (a ++ b) =
  (let* (s1, n1, f1, t1) := prog junk nid ec gc s n f a in let* (s2, n2, f2, t2) := prog junk nid ec gc s1 n1 f1 b in Ok (s2, n2, f2, (t1 ++ t2)%string)).
Proof.
  induction a as [|[now x] a IH]; intros b s n f; cbn [app prog bind].
  - destruct (prog junk nid ec gc s n f b) as [[[[s2 n2] f2] t2]|k]; reflexivity.
  - destruct (ublox_say s x) as [t|k]; cbn [bind]; [|reflexivity]. destruct (ublox_byte s x) as [[s1 e1]|k]; cbn [bind]; [|reflexivity].
    destruct (nav_shows junk ec gc now n f (flat_map (to_nav nid) e1)) as [[[n1 f1] t1]|k]; cbn [bind]; [|reflexivity]. rewrite IH.
    destruct (prog junk nid ec gc s1 n1 f1 a) as [[[[s2 n2] f2] t2]|k]; cbn [bind]; [|reflexivity].
    destruct (prog junk nid ec gc s2 n2 f2 b) as [[[[s3 n3] f3] t3]|k]; cbn [bind]; [|reflexivity]. rewrite !sapp_assoc. reflexivity.
Qed.
(* bytes during which the parser gets no message *)
Lemma prog_quiet junk nid ec gc : forall bs cs s n f s1 e x, length cs = length bs -> ublox_read s bs = Ok (s1, e) -> flat_map (to_nav nid) e = [] ->
  ublox_says s bs = Ok x -> prog junk nid ec gc s n f (combine cs bs) = Ok (s1, n, f, x).
Proof.
  induction bs as [|b bs IH]; intros [|c cs] s n f s1 e x HL ER HE HX; cbn in HL; try discriminate HL; cbn [ublox_read ublox_says combine prog] in *.
  - congruence.
  - apply bind_inv in HX. destruct HX as (t & ET & HX). rewrite ET. cbn [bind].
    destruct (ublox_byte s b) as [[sa ea]|k]; cbn [bind] in *; [|discriminate]. apply bind_inv in HX. destruct HX as (t2 & E2 & HX).
    destruct (ublox_read sa bs) as [[sb eb]|k] eqn:EB; cbn [bind] in ER; [|discriminate]. assert (e = ea ++ eb) by congruence. assert (sb = s1) by congruence. subst e sb.
    rewrite flat_map_app in HE. apply app_eq_nil in HE. destruct HE as [HE1 HE2]. rewrite HE1. cbn [nav_shows bind].
    rewrite (IH cs sa n f s1 eb t2 ltac:(lia) EB HE2 E2). cbn [bind append]. congruence.
Qed.
Lemma prog_last junk nid ec gc p b cs now : forall s n f s1 e1 s2 e2, length cs = length p -> ublox_read s p = Ok (s1, e1) -> e1 = [] ->
  ublox_byte s1 b = Ok (s2, e2) -> ublox_says s (p ++ [b]) = Ok ""%string ->
  prog junk nid ec gc s n f (combine (cs ++ [now]) (p ++ [b])) =
    (let* (n1, f1, t) := nav_shows junk ec gc now n f (flat_map (to_nav nid) e2) in Ok (s2, n1, f1, t)).
Proof.
  intros s n f s1 e1 s2 e2 HL ER -> EB HX.
  rewrite (ublox_says_app p [b] s s1 [] ER) in HX. apply bind_inv in HX. destruct HX as (x & EX & HX). apply bind_inv in HX. destruct HX as (y & EY & HX).
  assert (x = ""%string /\ y = ""%string) as [-> ->].
  { assert (X : (x ++ y)%string = ""%string) by congruence. destruct x; [|discriminate X]. split; [reflexivity|exact X]. }
  assert (C : combine (cs ++ [now]) (p ++ [b]) = combine cs p ++ [(now, b)]).
  { clear - HL. revert p HL. induction cs as [|c cs IH]; intros [|q p] HL; try discriminate HL; [reflexivity|]. cbn [app combine]. rewrite IH by (cbn in HL; lia). reflexivity. }
  rewrite C, prog_app, (prog_quiet junk nid ec gc p cs s n f s1 [] "" HL ER eq_refl EX). cbn [bind prog].
  cbn [ublox_says] in EY. apply bind_inv in EY. destruct EY as (t & ET & EY). rewrite ET. cbn [bind]. rewrite EB in *. cbn [bind] in EY.
  assert (t = ""%string) as -> by (rewrite sapp_nil_r in EY; congruence). cbn [bind].
  destruct (nav_shows junk ec gc now n f (flat_map (to_nav nid) e2)) as [[[n1 f1] t1]|k]; cbn [bind]; [|reflexivity]. cbn [append]. rewrite sapp_nil_r. reflexivity.
Qed.

Lemma serial_fi ec gc : forall h h0 f f' out, FI ec gc h0 f -> serial_run ec gc f h = Ok (f', out) -> FI ec gc (h0 ++ h) f'.
Proof.
  induction h as [|[now v] h IH]; intros h0 f f' out I H; cbn [serial_run] in H.
  - rewrite app_nil_r. congruence.
  - apply bindE in H. destruct H as ([f1 a] & E1 & H). apply bindE in H. destruct H as ([f2 b] & E2 & H). assert (f2 = f') by congruence. subst f2.
    destruct (on_event_ok ec gc h0 now v f f1 a I E1) as [I1 _]. change ((now, v) :: h) with ([(now, v)] ++ h). rewrite app_assoc. exact (IH _ _ _ _ I1 E2).
Qed.
(* one message for the parser *)
Lemma message_shown junk ec gc now n f h m : junk_ok junk -> calm (NMsg m) -> SI n -> FI ec gc h f -> printable now ->
  exists n1 f1 v y ts, nav_shows junk ec gc now n f [NMsg m] = Ok (n1, f1, (y ++ joined ts)%string) /\ nav_run junk n [NMsg m] = Ok (n1, v) /\
    told v y /\ announced ec gc h now v ts /\ SI n1 /\ FI ec gc (h ++ map (pair now) v) f1.
Proof.
  intros HJ HC HI HF HN. destruct (calm_step junk n (NMsg m) HJ HC HI) as (n1 & v & EN & I1).
  pose proof (calm_times junk n (NMsg m) n1 v HJ HC HI EN) as HT.
  destruct (serial_never_fails ec gc (map (pair now) v) f (shown_printable ec gc now v HN HT)) as ((f1, ts) & ES).
  assert (HY : exists y, nav_says n m = Ok y /\ told v y).
  { cbn [nav_step] in EN. apply bind_inv in EN. destruct EN as (((sa, ea), ra) & EC & EN). assert (ea = v) by congruence. subst ea.
    destruct HC as (Hm & _). apply (says_step junk n m sa v ra Hm); [|exact EC]. intros NZ. apply (si_r n HI). destruct Hm as (_ & _ & Bs & _). unfold byte_ok in Bs. lia. }
  destruct HY as (y & EY & TY). exists n1, f1, v, y, ts. split; [|split; [|split; [exact TY|split; [|split; [exact I1|exact (serial_fi ec gc _ h f f1 ts HF ES)]]]]].
  - cbn [nav_shows]. rewrite EY. cbn [bind]. rewrite EN. cbn [bind]. rewrite ES. cbn [bind]. rewrite sapp_nil_r. reflexivity.
  - cbn [nav_run]. rewrite EN. cbn [bind]. rewrite app_nil_r. reflexivity.
  - destruct (serial_run_from ec gc (map (pair now) v) h f f1 ts HF ES) as [L X]. split; [rewrite L; apply map_length|].
    intros v1 x v2 ->. rewrite map_app in X. cbn [map] in X. specialize (X _ now x _ eq_refl). rewrite map_length in X. exact X.
Qed.

Definition parser_and (nid : Z) (ls : list listener) : list listener := mkListener nid [(0x02, 0x13)] :: ls.
(* the object after one frame *)
Lemma frame_step u ru k s nid ls d s1 e1 : uninit_ok u -> runinit_ok ru -> UReach u ru k s ->
  Forall listener_ok ls -> (forall l, In l ls -> lid l <> nid) -> idle_as (u_type s) (parser_and nid ls) s -> no_rtcm [d] ->
  ditem_ok (prev (u_ubx s)) d -> bytes_ok (ditem_bytes d) -> ublox_read s (ditem_bytes d) = Ok (s1, e1) ->
  idle_as (u_type s) (parser_and nid ls) s1 /\ u_type s1 = u_type s /\ prev (u_ubx s1) = ditem_last d /\
  flat_map (to_nav nid) e1 = map NMsg (dsfr_msgs (inbuf (u_ubx s)) [d]) /\
  exists x, ublox_says s (ditem_bytes d) = Ok x /\ said d s1 x.
Proof.
  intros Hu Hru HR Hls HL HId HN Hd Hb E.
  assert (Hll : Forall listener_ok (parser_and nid ls)).
  { constructor; [|exact Hls]. constructor; [|constructor]. split; unfold byte_ok; cbn; lia. }
  assert (Hok : ditems_ok (prev (u_ubx s)) [d]) by (split; [exact Hd|exact I]).
  assert (Hb1 : bytes_ok (ditems_bytes [d])) by (cbn [ditems_bytes flat_map]; rewrite app_nil_r; exact Hb).
  assert (E1 : ublox_read s (ditems_bytes [d]) = Ok (s1, e1)) by (cbn [ditems_bytes flat_map]; rewrite app_nil_r; exact E).
  destruct (plain_demux (u_type s) _ [d] s HN Hll HId Hok Hb1) as [(x & EX & HB & HC)|[_ EX]]; [|congruence].
  assert (x = s1) by congruence. subst x. match type of EX with _ = Ok (_, ?z) => assert (EV : e1 = z) by congruence end.
  split; [exact HB|]. split; [apply HB|]. split; [|split].
  - destruct d as [b|it|it]; cbn [ditem_ok ditem_bytes ditem_last] in *.
    + destruct Hd as [Hne Hn]. inversion Hb as [|? ? Hbb _]; subst. destruct (read_noise_both _ _ s b HId Hbb Hne Hn) as (x & E2 & _ & _ & EU).
      cbn [ublox_read] in E. rewrite E2 in E. cbn [bind] in E. assert (x = s1) by congruence. subst x. rewrite EU. reflexivity.
    + destruct Hd as [Hi Hn]. destruct (ubx_item_idle _ _ s it Hll HId Hi Hn Hb) as [(x & E2 & _ & _ & HP1 & _)|[_ E2]]; [|congruence].
      assert (x = s1) by congruence. subst x. exact HP1.
    + exfalso. exact (HN it (or_introl eq_refl)).
  - rewrite EV. apply nav_of_events. exact HL.
  - destruct (stream_says (u_type s) _ [d] s s1 e1 (or_intror HN) Hll HId Hok Hb1 E1) as (t & HT & HS). cbn [ditems_bytes flat_map] in HS. rewrite app_nil_r in HS.
    inversion HT as [|s0 d0 ds0 sa ev x y A B C]; subst. inversion C; subst. rewrite sapp_nil_r in *. assert (sa = s1) by congruence. subst sa. eauto.
Qed.
(* until the last byte of a good frame there is no event *)
Lemma frame_last u ru k s nid ls pl cls id s1 e1 : uninit_ok u -> runinit_ok ru -> UReach u ru k s -> u_type s <> T_BASE -> Forall listener_ok ls -> u_ls s = map build (parser_and nid ls) ->
  parsing_message (u_ubx s) = false -> item_ok 0xB5 (Good cls id pl) -> bytes_ok (ditem_bytes (DUbx (Good cls id pl))) ->
  ublox_read s (ditem_bytes (DUbx (Good cls id pl))) = Ok (s1, e1) ->
  exists p b sp, ditem_bytes (DUbx (Good cls id pl)) = p ++ [b] /\ ublox_read s p = Ok (sp, []) /\ ublox_byte sp b = Ok (s1, e1).
Proof.
  intros Hu Hru HR HT Hls EL HP Hi Hb E.
  assert (Hll : Forall listener_ok (parser_and nid ls)).
  { constructor; [|exact Hls]. constructor; [|constructor]. split; unfold byte_ok; cbn; lia. }
  destruct (ureach_inv u ru k s Hu Hru HR) as ((K1 & _) & _). pose proof (inv_idle _ K1 HP) as HId. destruct K1 as (_ & _ & _ & HSm).
  set (bd := ubx_body cls id pl) in *. set (p := 0xB5 :: 0x62 :: bd ++ [ck_a_of bd]). set (b := ck_b_of bd).
  assert (EB : ditem_bytes (DUbx (Good cls id pl)) = p ++ [b]).
  { unfold p, b. cbn [ditem_bytes item_bytes app]. fold bd. rewrite <- app_assoc. reflexivity. }
  rewrite EB in E, Hb. pose proof Hb as Hb'. apply bytes_ok_app in Hb'. destruct Hb' as [Hp _].
  rewrite ublox_read_app in E. destruct (ublox_read s p) as [[sp ep]|q] eqn:EP; cbn [bind] in E; [|discriminate].
  cbn [ublox_read] in E. destruct (ublox_byte sp b) as [[sx ex]|q] eqn:EX; cbn [bind] in E; [|discriminate]. rewrite app_nil_r in E.
  assert (sx = s1) by congruence. assert (e1 = ep ++ ex) by congruence. subst sx e1.
  assert (ep = []).
  { destruct (nonbase_reach u ru k s p Hu Hru HR HT Hp) as [(s' & outs & E1 & EF)|[[E1 _]|E1]]; rewrite EP in E1; [|discriminate..].
    assert (X : ep = map EvUbx (flat_map fst outs)) by congruence. subst ep. rewrite EL in EF.
    assert (Hok : items_ok (prev (u_ubx s)) [Noise 0xB5; Good cls id pl]).
    { split; [intros [_ X]; discriminate X|]. split; [exact Hi|exact I]. }
    assert (EI : items_bytes [Noise 0xB5; Good cls id pl] = p ++ [b]) by (rewrite <- EB; cbn [items_bytes flat_map ditem_bytes]; rewrite app_nil_r; reflexivity).
    assert (Hbi : bytes_ok (items_bytes [Noise 0xB5; Good cls id pl])) by (rewrite EI; exact Hb).
    assert (QQ : forall outs z c, items_outs (parser_and nid ls) (inbuf (u_ubx s)) [Noise 0xB5; Good cls id pl] = outs ++ [(z, c)] -> flat_map fst outs = []).
    { intros o z c X. cbn [items_outs item_outs] in X. rewrite app_nil_r, app_assoc in X. apply app_inj_tail in X. destruct X as [<- _]. rewrite flat_map_app.
      assert (HQ : forall j, flat_map fst (quiet j) = @nil call) by (unfold quiet; induction j; [reflexivity|assumption]). rewrite !HQ. reflexivity. }
    destruct (nonbase_reach u ru k s (p ++ [b]) Hu Hru HR HT Hb) as [(s'' & outs2 & E2 & EF2)|[[E2 _]|E2]];
      (rewrite ublox_read_app, EP in E2; cbn [bind ublox_read] in E2; rewrite EX in E2; cbn [bind] in E2); [|discriminate..].
    rewrite EL in EF2. destruct (exec_items _ _ (u_ubx s) Hll HId HSm Hok Hbi) as [(x & EXI & _)|[_ EXI]]; rewrite EI in EXI; rewrite EXI in EF2; [|discriminate].
    rewrite feed_app, EF in EXI. cbn [bind feed] in EXI. destruct (read_cb _ (u_ubx s') b) as [[[y c] o]|q]; cbn [bind] in EXI; [|discriminate].
    rewrite (QQ outs c o); [reflexivity|]. apply (f_equal (fun z => match z with Ok (_, w) => w | UB _ => [] end)) in EXI. symmetry. exact EXI. }
  subst ep. exists p, b, sp. split; [exact EB|]. split; [exact EP|]. exact EX.
Qed.

Lemma last_combine (cs : list utc) now0 : cs <> [] -> exists c0 c1, cs = c0 ++ [c1] /\ last cs now0 = c1.
Proof. intros H. destruct (exists_last H) as (c0 & c1 & ->). exists c0, c1. split; [reflexivity|apply last_last]. Qed.
(* one frame *)
Lemma frame_shown junk u ru k s n f h nid ec gc ls d cs s1 e1 : uninit_ok u -> runinit_ok ru -> junk_ok junk -> UReach u ru k s -> u_type s <> T_BASE ->
  Forall listener_ok ls -> (forall l, In l ls -> lid l <> nid) -> idle_as (u_type s) (parser_and nid ls) s -> no_rtcm [d] ->
  ditem_ok (prev (u_ubx s)) d -> bytes_ok (ditem_bytes d) -> ublox_read s (ditem_bytes d) = Ok (s1, e1) ->
  (forall o, In o (flat_map (to_nav nid) e1) -> calm o) -> SI n -> FI ec gc h f ->
  length cs = length (ditem_bytes d) -> Forall printable cs ->
  let now := last cs (mkUtc 0 0) in
  exists n1 f1 v x y ts, prog junk nid ec gc s n f (combine cs (ditem_bytes d)) = Ok (s1, n1, f1, (x ++ y ++ joined ts)%string) /\
    said d s1 x /\ nav_run junk n (map NMsg (dsfr_msgs (inbuf (u_ubx s)) [d])) = Ok (n1, v) /\ told v y /\ announced ec gc h now v ts /\
    SI n1 /\ FI ec gc (h ++ map (pair now) v) f1.
Proof.
  intros Hu Hru HJ HR HT Hls HL HId HN Hd Hb E HC HI HF HLn HPr now.
  destruct (frame_step u ru k s nid ls d s1 e1 Hu Hru HR Hls HL HId HN Hd Hb E) as (_ & _ & _ & HE & x & EX & SX).
  destruct (dsfr_msgs (inbuf (u_ubx s)) [d]) as [|m r] eqn:ED.
  - exists n, f, [], x, ""%string, []. cbn [map] in HE. rewrite (prog_quiet junk nid ec gc _ cs s n f s1 e1 x HLn E HE EX). cbn [joined fold_right append].
    split; [rewrite sapp_nil_r; reflexivity|]. split; [exact SX|]. split; [reflexivity|]. split; [right; split; [intros []|reflexivity]|].
    split; [split; [reflexivity|intros [|? ?] ? ? X; discriminate X]|]. split; [exact HI|]. cbn [map]. rewrite app_nil_r. exact HF.
  - destruct d as [b|it|it]; cbn [dsfr_msgs] in ED; rewrite app_nil_r in ED; try discriminate ED.
    destruct it as [b|cls id pl|cls id pl ka kb|cls id w]; cbn [sfr_msgs app] in ED; try discriminate ED. rewrite app_nil_r in ED.
    destruct ((cls =? 2) && (id =? 19)) eqn:EQ; [|discriminate ED]. assert (r = []) by congruence. subst r.
    assert (NV : ((cls =? 10) && (id =? 4)) = false) by lia. cbn [said] in SX. change 0x0A with 10 in SX. rewrite NV in SX. subst x.
    destruct HId as (_ & EL & HI1 & _). destruct Hd as [Hi _].
    destruct (frame_last u ru k s nid ls pl cls id s1 e1 Hu Hru HR HT Hls EL (idle_parsing _ HI1) Hi Hb E) as (p & b & sp & EB & EP & EBy).
    rewrite EB in *. rewrite app_length in HLn. cbn [length] in HLn.
    destruct (last_combine cs (mkUtc 0 0)) as (c0 & c1 & EC & EL1); [destruct cs; [cbn in HLn; lia|discriminate]|].
    assert (HN1 : printable now) by (unfold now; rewrite EL1; rewrite EC in HPr; apply Forall_app in HPr; destruct HPr as [_ X]; inversion X; assumption).
    assert (Hm : calm (NMsg m)) by (apply HC; rewrite HE; left; reflexivity).
    destruct (message_shown junk ec gc now n f h m HJ Hm HI HF HN1) as (n1 & f1 & v & y & ts & ES & ER & TY & TA & I1 & F1).
    assert (HC0 : length c0 = length p) by (rewrite EC, app_length in HLn; cbn [length] in HLn; lia).
    exists n1, f1, v, ""%string, y, ts. split; [|split; [cbn [said]; change 0x0A with 10; rewrite NV; reflexivity|split; [exact ER|split; [exact TY|split; [exact TA|split; [exact I1|exact F1]]]]]].
    rewrite EC. rewrite (prog_last junk nid ec gc p b c0 c1 s n f sp [] s1 e1 HC0 EP eq_refl EBy EX). rewrite HE. cbn [map].
    unfold now in ES. rewrite EL1 in ES. rewrite ES. reflexivity.
Qed.

Lemma program_text junk u ru k nid ec gc ls : uninit_ok u -> runinit_ok ru -> junk_ok junk -> Forall listener_ok ls -> (forall l, In l ls -> lid l <> nid) ->
  forall td s n f h s' ev, UReach u ru k s -> u_type s <> T_BASE -> idle_as (u_type s) (parser_and nid ls) s -> SI n -> FI ec gc h f ->
  no_rtcm (frames td) -> ditems_ok (prev (u_ubx s)) (frames td) -> bytes_ok (ditems_bytes (frames td)) -> timed_ok td ->
  ublox_read s (ditems_bytes (frames td)) = Ok (s', ev) -> (forall o, In o (flat_map (to_nav nid) ev) -> calm o) ->
  exists n' f' t, prog junk nid ec gc s n f (timed_bytes td) = Ok (s', n', f', t) /\ output junk ec gc s n h td t.
Proof.
  intros Hu Hru HJ Hls HL. induction td as [|[d cs] td IH]; intros s n f h s' ev HR HT HId HI HF HN Hok Hb HTd E HC.
  - exists n, f, ""%string. split; [|constructor]. cbn in E |- *. congruence.
  - cbn [frames map fst] in *. cbn [ditems_ok] in Hok. destruct Hok as [Hd Hds]. change (ditems_bytes (d :: map fst td)) with (ditem_bytes d ++ ditems_bytes (frames td)) in *.
    apply bytes_ok_app in Hb. destruct Hb as [Hbd Hbds]. rewrite ublox_read_app in E.
    destruct (ublox_read s (ditem_bytes d)) as [[s1 e1]|q] eqn:E1; cbn [bind] in E; [|discriminate].
    destruct (ublox_read s1 (ditems_bytes (frames td))) as [[s2 e2]|q] eqn:E2; cbn [bind] in E; [|discriminate]. assert (s2 = s') by congruence. assert (ev = e1 ++ e2) by congruence. subst s2 ev.
    rewrite flat_map_app in HC.
    assert (HN1 : no_rtcm [d]) by (intros it [X|[]]; apply (HN it); left; exact X). assert (HN2 : no_rtcm (frames td)) by (intros it X; apply (HN it); right; exact X).
    inversion HTd as [|? ? [HL1 HP1] HT2]; subst. cbn [fst snd] in *.
    destruct (frame_step u ru k s nid ls d s1 e1 Hu Hru HR Hls HL HId HN1 Hd Hbd E1) as (HB1 & T1 & P1 & _).
    destruct (frame_shown junk u ru k s n f h nid ec gc ls d cs s1 e1 Hu Hru HJ HR HT Hls HL HId HN1 Hd Hbd E1 (fun o X => HC o (in_or_app _ _ _ (or_introl X))) HI HF HL1 HP1)
      as (n1 & f1 & v & x & y & ts & EPr & SX & EN & TY & TA & I1 & F1).
    rewrite <- T1 in HB1, HT. rewrite <- P1 in Hds.
    destruct (IH s1 n1 f1 _ s' e2 (U_read u ru k s _ s1 e1 HR Hbd E1) HT HB1 I1 F1 HN2 Hds Hbds HT2 E2 (fun o X => HC o (in_or_app _ _ _ (or_intror X)))) as (n' & f' & t & EPt & OT).
    exists n', f', (x ++ y ++ joined ts ++ t)%string. split; [|econstructor; eauto].
    cbn [timed_bytes flat_map fst snd]. fold (timed_bytes td). rewrite prog_app, EPr. cbn [bind]. rewrite EPt. cbn [bind]. rewrite !sapp_assoc. reflexivity.
Qed.

(* ---------------------------------------------------------------- the text is determined *)
From Coq Require Import Sorted.
Lemma listing_fun P l l' : listing P l -> listing P l' -> l = l'.
Proof.
  intros [S I] [S' I']. assert (H : forall x, In x l <-> In x l') by (intros x; rewrite I, I'; reflexivity). clear I I'. revert l' S' H.
  induction S as [|a l S IH F]; intros l' S' H.
  - destruct l' as [|b l']; [reflexivity|]. exfalso. apply (proj2 (H b)). left. reflexivity.
  - destruct S' as [|b l' S' F']; [exfalso; apply (proj1 (H a)); left; reflexivity|]. rewrite Forall_forall in F, F'.
    assert (a = b).
    { destruct (proj1 (H a) (or_introl eq_refl)) as [X|X]; [congruence|]. destruct (proj2 (H b) (or_introl eq_refl)) as [Y|Y]; [congruence|].
      specialize (F b Y). specialize (F' a X). lia. }
    subst b. f_equal. apply IH; [exact S'|]. intros x. specialize (H x). cbn [In] in H. split; intros X.
    + destruct (proj1 H (or_intror X)) as [->|Y]; [|exact Y]. specialize (F x X). lia.
    + destruct (proj2 H (or_intror X)) as [->|Y]; [|exact Y]. specialize (F' x X). lia.
Qed.
Lemma event_text_fun ec gc h now v t t' : event_text ec gc h now v t -> event_text ec gc h now v t' -> t = t'.
Proof.
  destruct v as [c e|c g|j]; cbn [event_text]; [| |congruence].
  - destruct (c =? ec); [|congruence]. intros (a & b & l & A & B & C0 & C2 & C3) (a' & b' & l' & A' & B' & C0' & C2' & C3').
    assert (a = a') by congruence. assert (b = b') by congruence. subst a' b'.
    destruct (Z.eq_dec (ei e FgnssID) 0) as [E0|N0]; [|destruct (Z.eq_dec (ei e FgnssID) 2) as [E2|N2]].
    + destruct (C0 E0) as [L ->]. destruct (C0' E0) as [L' ->]. rewrite (listing_fun _ l l' L L'). reflexivity.
    + destruct (C2 E2) as [L ->]. destruct (C2' E2) as [L' ->]. rewrite (listing_fun _ l l' L L'). reflexivity.
    + rewrite (C3 N0 N2), (C3' N0 N2). reflexivity.
  - destruct (c =? gc); [|congruence]. intros (a & b & d & l & A & B & D & L & ->) (a' & b' & d' & l' & A' & B' & D' & L' & ->).
    assert (a = a') by congruence. assert (b = b') by congruence. assert (d = d') by congruence. subst a' b' d'. rewrite (listing_fun _ l l' L L'). reflexivity.
Qed.
Lemma announced_fun ec gc h now v ts ts' : announced ec gc h now v ts -> announced ec gc h now v ts' -> ts = ts'.
Proof.
  intros [L H] [L' H']. apply (nth_ext ts ts' ""%string ""%string); [congruence|]. intros i Hi. rewrite L in Hi.
  destruct (nth_split v (EvFell 0) Hi) as (v1 & v2 & E & <-). exact (event_text_fun _ _ _ _ _ _ _ (H v1 _ v2 E) (H' v1 _ v2 E)).
Qed.
Lemma gal_events cbs st dw e st' e' ev r : decodeGalileo cbs st dw e = Ok (st', e', ev, r) -> ev = [] \/ ev = EvFell FN_PRINT :: map (fun c => EvEph c e') cbs.
Proof.
  unfold decodeGalileo. intros H. do 4 (apply bind_inv in H; destruct H as (? & _ & H)).
  destruct (_ || _); [left; congruence|]. destruct (_ || _); [left; congruence|]. apply bind_inv in H. destruct H as (ok & _ & H). destruct (negb ok); [left; congruence|].
  apply bind_inv in H. destruct H as (ty & _ & H). destruct (6 <? ty); [left; congruence|]. destruct (negb _); [discriminate H|].
  apply bind_inv in H. destruct H as (w1 & _ & H). apply bind_inv in H. destruct H as (w2 & _ & H). destruct (negb _); [left; congruence|].
  apply bind_inv in H. destruct H as ((e2, ok2) & _ & H). destruct (negb ok2); [left; congruence|]. right. assert (e2 = e') by congruence. subst e2. congruence.
Qed.
Lemma message_report junk n m n1 v : nav_run junk n [NMsg m] = Ok (n1, v) ->
  n_ecb n1 = n_ecb n /\ (In (EvFell FN_PRINT) v -> exists d, v = EvFell FN_PRINT :: map (fun c => EvEph c d) (n_ecb n)).
Proof.
  cbn [nav_run nav_step]. intros H. apply bind_inv in H. destruct H as ((sa, va) & E & H). cbn [bind] in H. rewrite app_nil_r in H. assert (sa = n1) by congruence. assert (va = v) by congruence. subst sa va.
  apply bind_inv in E. destruct E as (((sb, vb), rb) & E & H1). assert (sb = n1) by congruence. assert (vb = v) by congruence. subst sb vb. clear H H1.
  destruct (Z.eq_dec (sf_gnss m) 6) as [G|G6]; [|destruct (Z.eq_dec (sf_gnss m) 2) as [G|G2]; [|destruct (Z.eq_dec (sf_gnss m) 0) as [G|G0]]].
  - unfold convertUBX in E. rewrite G in E. cbn [Z.eqb Pos.eqb] in E. destruct (slot _ _ _) as (l, i). apply bind_inv in E. destruct E as (((g, ev), r) & ED & E).
    apply (f_equal (fun z => match z with Ok (a, b, _) => (a, b) | UB _ => (n1, v) end)) in E. apply pair_equal_spec in E. destruct E as [<- <-]. split; [reflexivity|].
    intros I. exfalso. exact (glo_quiet _ _ _ _ _ _ _ _ _ _ ED I).
  - pose proof (convert_gal junk n m G) as HV. destruct (decodeGalileo _ _ _ _) as [[[[st e'] ev'] b]|q] eqn:ED; [|congruence].
    destruct HV as (s1 & EC & _ & (_ & _ & K3 & _) & _). assert (s1 = n1) by congruence. assert (ev' = v) by congruence. subst s1 ev'. split; [exact K3|].
    intros I. destruct (gal_events _ _ _ _ _ _ _ _ ED) as [->| ->]; [destruct I|]. eexists. reflexivity.
  - pose proof (convert_gps junk n m G) as HV. destruct (decodeGPS _ _ _) as [[[e' d] b]|q] eqn:ED; [|congruence].
    destruct HV as (s1 & EC & _ & (_ & _ & K3 & _) & _). assert (s1 = n1) by congruence. assert (EV : v = calls_eph (n_ecb n) d) by congruence. subst s1 v. split; [exact K3|].
    intros I. exfalso. unfold calls_eph in I. destruct d; [|destruct I]. apply in_map_iff in I. destruct I as (c & I & _). discriminate I.
  - destruct (convert_other junk n m G0 G2 G6) as (s1 & EC & _ & (_ & _ & K3 & _) & _). assert (s1 = n1) by congruence. subst s1. split; [exact K3|].
    match type of EC with _ = Ok (_, ?x, _) => assert (EV : v = x) by congruence end. rewrite EV. destruct (sf_gnss m =? 3); intros [I|[]]; discriminate I.
Qed.
Lemma clock_text_fun t a b : clock_text t a -> clock_text t b -> a = b.
Proof.
  intros (x & h & m & s & D & H1 & H2 & H3 & H4 & ->) (x' & h' & m' & s' & D' & H1' & H2' & H3' & H4' & ->).
  rewrite (on_day_fun _ x x' D D'). assert (h = h') by lia. assert (m = m') by lia. assert (s = s') by lia. subst. reflexivity.
Qed.
Lemma report_fun e t t' : galileo_report e t -> galileo_report e t' -> t = t'.
Proof.
  intros (a & b & ts & (ca & A & ->) & (cb & B & ->) & V & ->) (a' & b' & ts' & (ca' & A' & ->) & (cb' & B' & ->) & V' & ->).
  rewrite (clock_text_fun _ _ _ A A'), (clock_text_fun _ _ _ B B').
  assert (ts = ts') as ->; [|reflexivity]. clear - V V'. revert ts' V'. induction V as [|x y l ts HX V IH]; intros ts' V'; inversion V' as [|? y' ? ts2 HY V2]; subst; [reflexivity|].
  f_equal; [|apply IH; exact V2]. destruct (snd x); cbn [value_text] in *; [congruence|exact (general_text_fun _ _ _ HX HY)].
Qed.
Lemma told_fun v d cbs t t' : cbs <> [] -> (In (EvFell FN_PRINT) v -> v = EvFell FN_PRINT :: map (fun c => EvEph c d) cbs) -> told v t -> told v t' -> t = t'.
Proof.
  intros NE H T T'. assert (X : forall t, told v t -> (In (EvFell FN_PRINT) v /\ galileo_report d t) \/ (~ In (EvFell FN_PRINT) v /\ t = ""%string)).
  { clear T T' t t'. intros t [(d1 & c1 & E & R)|(N & ->)]; [|right; split; [exact N|reflexivity]]. left.
    assert (I : In (EvFell FN_PRINT) v) by (rewrite E; left; reflexivity). split; [exact I|]. specialize (H I). rewrite H in E.
    destruct cbs as [|c cbs]; [congruence|]. destruct c1 as [|c1 c1s]; [discriminate E|]. cbn [map] in E. assert (d = d1) by congruence. subst d1. exact R. }
  destruct (X t T) as [[I R]|[N ->]], (X t' T') as [[I' R']|[N' ->]]; try contradiction; [exact (report_fun d t t' R R')|reflexivity].
Qed.
Lemma output_fun junk ec gc : forall td s n h t t', n_ecb n <> [] -> output junk ec gc s n h td t -> output junk ec gc s n h td t' -> t = t'.
Proof.
  induction td as [|[d cs] td IH]; intros s n h t t' HE H H'.
  - inversion H; subst. inversion H'; subst. reflexivity.
  - inversion H as [|s0 n0 h0 d0 cs0 now r s1 e n1 v x y ts z A B C D N E F]; subst.
    inversion H' as [|s0' n0' h0' d0' cs0' now' r' s1' e' n1' v' x' y' ts' z' A' B' C' D' N' E' F']; subst.
    assert (s1' = s1) by congruence. assert (n1' = n1) by congruence. assert (v' = v) by congruence. subst s1' n1' v'.
    assert (X : n_ecb n1 = n_ecb n /\ exists d, In (EvFell FN_PRINT) v -> v = EvFell FN_PRINT :: map (fun c => EvEph c d) (n_ecb n)).
    { destruct (dsfr_msgs (inbuf (u_ubx s)) [d]) as [|m r0] eqn:ED.
      - cbn [map nav_run] in C. assert (n1 = n) by congruence. assert (v = []) by congruence. subst. split; [reflexivity|]. exists eph_new. intros [].
      - assert (r0 = []).
        { destruct d as [b|it|it]; cbn [dsfr_msgs] in ED; rewrite app_nil_r in ED; try discriminate ED.
          destruct it; cbn [sfr_msgs] in ED; rewrite ?app_nil_r in ED; try discriminate ED. destruct (_ && _); [congruence|discriminate ED]. }
        subst r0. cbn [map] in C. destruct (message_report junk n m n1 v C) as [X1 X2]. split; [exact X1|].
        destruct D as [(d1 & c1 & E1 & _)|(N1 & _)]; [|exists eph_new; contradiction]. destruct (X2 ltac:(rewrite E1; left; reflexivity)) as (d0 & X3). exists d0. intros _. exact X3. }
    destruct X as [X1 (dd & X2)].
    rewrite (said_fun d s1 x x' B B'), (told_fun v dd _ y y' HE X2 D D'), (announced_fun ec gc h _ v ts ts' E E').
    rewrite (IH s1 n1 _ z z' ltac:(rewrite X1; exact HE) F F'). reflexivity.
Qed.

(* frames that are neither a version reply nor navigation data *)
Definition plain_frame (d : ditem) : bool :=
  match d with DUbx (Good cls id _) => negb ((cls =? 0x0A) && (id =? 0x04)) && negb ((cls =? 0x02) && (id =? 0x13)) | DRtcm (RBad _) => false | _ => true end.
Lemma output_plain junk ec gc : forall td s n h t, forallb (fun x => plain_frame (fst x)) td = true -> output junk ec gc s n h td t -> t = ""%string.
Proof.
  induction td as [|[d cs] td IH]; intros s n h t HP H; inversion H as [|s0 n0 h0 d0 cs0 now r s1 e n1 v x y ts z A B C D N E F]; subst; [reflexivity|].
  cbn [forallb fst] in HP. apply andb_prop in HP. destruct HP as [HP1 HP2].
  assert (X : x = ""%string /\ dsfr_msgs (inbuf (u_ubx s)) [d] = []).
  { destruct d as [b|[b|c i pl|c i pl ka kb|c i w]|[b|hh|ff|ff]]; cbn [plain_frame said dsfr_msgs sfr_msgs app] in *; try (split; [exact B|reflexivity]); try discriminate HP1.
    apply andb_prop in HP1. destruct HP1 as [P1 P2]. apply negb_true_iff in P1, P2. rewrite P1 in B. rewrite P2. split; [exact B|reflexivity]. }
  destruct X as [-> X]. rewrite X in C. cbn [map nav_run] in C. assert (v = []) by congruence. subst v.
  destruct D as [(? & ? & D & _)|(_ & ->)]; [discriminate D|]. destruct E as [E _]. destruct ts; [|discriminate E]. rewrite (IH s1 n1 _ z HP2 F). reflexivity.
Qed.
