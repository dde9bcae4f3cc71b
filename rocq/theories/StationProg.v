(* C95: src/examples/base.cpp and src/examples/rover.cpp from the moment the driver is connected to their end: the driver
   (ublox.cpp:120-139), its navigation parser (nav.h:169-173, without callbacks in these programs), the handler and everything printed
   on standard output.  Construction itself, with its text: C86, C87. *)
From Coq Require Import String.
From Verif Require Import Base UbxSpec UbxModel UbxProofs UbxStream UbxMain UbxMore UbxHist UbxApi
  UbxTx UbxTxSpec UbxTxApi CrcSpec RtcmModel RtcmSpec RtcmProofs RtcmApi UbloxModel UbloxSpec UbloxProofs UbloxApi UbloxThm UbloxCfg
  BitModel UtcModel UtcSpec Dbl NavModel NavSpec NavGpsSpec NavStrSpec NavGloSpec NavGalSpec NavStr NavBits NavGps NavObj NavGpsThm NavGlo NavGloThm NavPage NavGal NavGalThm
  NavDev NavSafe DeviceSafe NavShow NavShowThm TextSpec ConsoleSpec Console ReportSpec ExShow ExShowThm RosModel RosSpec Calendar UtcShow UtcShowThm ExSat ExSatThm SerialProg LogProg.
Local Open Scope string_scope.
Local Open Scope list_scope.
Local Open Scope Z_scope.

(* ---------------------------------------------------------------- model *)
(* the parser without callbacks *)
Fixpoint nav_only (junk : list Z) (n : nav) (ops : list nop) : outcome (nav * string) :=
  match ops with
  | [] => Ok (n, "")
  | o :: r =>
      let* t := (match o with NMsg m => nav_says n m | _ => Ok "" end) in
      let* (n1, _) := nav_step junk n o in
      let* (n2, t2) := nav_only junk n1 r in
      Ok (n2, (t ++ t2)%string)
  end.
(* the calls to listeners in the order made: the parser (number nid), the handler (number hid) *)
Fixpoint calls_shown (junk : list Z) (h : Z -> Z -> list Z -> string) (nid hid : Z) (n : nav) (ev : list event) : outcome (nav * string) :=
  match ev with
  | [] => Ok (n, "")
  | e :: r =>
      let* (n1, t1) := nav_only junk n (to_nav nid e) in
      let* (n2, t2) := calls_shown junk h nid hid n1 r in
      Ok (n2, (t1 ++ console h hid [e] ++ t2)%string)
  end.
(* what arrives: a byte from the receiver, a datagram from the correction link *)
Inductive arrival := Port (b : Z) | Net (buf : list Z).
(* `link`: the callback of config_rover is installed (ublox.cpp:107-111); config_base installs none.  dbg: the static RTCM object of
   config_rover *)
Fixpoint station (junk : list Z) (h : Z -> Z -> list Z -> string) (nid hid : Z) (link : bool) (s : ublox) (n : nav) (dbg : rtcm) (l : list arrival)
  : outcome (ublox * nav * rtcm * list event * string) :=
  match l with
  | [] => Ok (s, n, dbg, [], "")
  | Port b :: r =>
      let* t := ublox_say s b in
      let* (s1, e1) := ublox_byte s b in
      let* (n1, t1) := calls_shown junk h nid hid n e1 in
      let* (s2, n2, d2, e2, t2) := station junk h nid hid link s1 n1 dbg r in
      Ok (s2, n2, d2, e1 ++ e2, (t ++ t1 ++ t2)%string)
  | Net buf :: r =>
      if link then
        let* t := rtcm_says [] dbg buf in
        let* (d1, e1) := rover_cb dbg buf in
        let* (s2, n2, d2, e2, t2) := station junk h nid hid link s n d1 r in
        Ok (s2, n2, d2, e1 ++ e2, (t ++ t2)%string)
      else station junk h nid hid link s n dbg r
  end.
(* what is outside the program: uninitialised memory, the RTCM object, whether the UDP socket can be opened, and what arrives before and
   after the role is configured *)
Record site := mkSite { si_junk : list Z; si_dbg : rtcm; si_udp : bool; si_before : list Z; si_after : list arrival }.
Definition no_udp : string := "Failed to initialize Rover receive UDP".
(* base.cpp:86-109 (rest of main after `ublox::UBLOX ublox(ser)`), parser number 1, handler number 2, UDP interface 3 *)
Definition base_rest (w : site) (s : ublox) (n : nav) : outcome (run * list event) :=
  let s0 := ublox_register s (subscribe (subscribe (mkML 2 []) 0x01 0x07) 0x01 0x3B) in
  let* (s1, n1, d1, e1, t1) := station (si_junk w) base_handler 1 2 false s0 n (si_dbg w) (map Port (si_before w)) in
  if negb (si_udp w) then Ok (mkRun (Uncaught no_udp) t1 "", e1)
  else
    let* (s2, e2) := config_base s1 3 true in
    let* (_, _, _, e3, t3) := station (si_junk w) base_handler 1 2 false s2 n1 d1 (si_after w) in
    Ok (mkRun (Returns 0) (t1 ++ t3 ++ nl ++ "quitting" ++ nl)%string "", e1 ++ e2 ++ e3).
(* rover.cpp:90-110 *)
Definition rover_rest (w : site) (s : ublox) (n : nav) : outcome (run * list event) :=
  let s0 := ublox_register s (subscribe (mkML 2 []) 0x01 0x3C) in
  let* (s1, n1, d1, e1, t1) := station (si_junk w) rover_handler 1 2 false s0 n (si_dbg w) (map Port (si_before w)) in
  if negb (si_udp w) then Ok (mkRun (Uncaught no_udp) t1 "", e1)
  else
    let* (s2, e2) := config_rover s1 3 in
    let* (_, _, _, e3, t3) := station (si_junk w) rover_handler 1 2 true s2 n1 d1 (si_after w) in
    Ok (mkRun (Returns 0) (t1 ++ t3 ++ nl ++ "quitting" ++ nl)%string "", e1 ++ e2 ++ e3).

(* ---------------------------------------------------------------- specification *)
(* what arrives, in whole frames: from the receiver, or a datagram of correction frames *)
Inductive chunk := FromPort (d : ditem) | FromNet (its : list ritem).
Definition arrivals (l : list chunk) : list arrival :=
  flat_map (fun c => match c with FromPort d => map Port (ditem_bytes d) | FromNet its => [Net (ritems_bytes its)] end) l.
Definition port_frames (l : list chunk) : list ditem := flat_map (fun c => match c with FromPort d => [d] | FromNet _ => [] end) l.
Definition net_frames (l : list chunk) : list (list ritem) := flat_map (fun c => match c with FromPort _ => [] | FromNet its => [its] end) l.
(* how a handler shows a payload: kind is the class and number of the message it shows, holds what a payload means, lines its text *)
Record display := mkDisplay { k_cls : Z; k_id : Z; k_data : Type; holds : list Z -> k_data -> Prop; lines : k_data -> string }.
(* the text of the program: frame by frame the driver's text, the parser's report, the handler's lines; a datagram on a rover: the
   complaints about its damaged frames.  The report is told with a callback registered, since without one the ephemeris is not observable *)
Inductive shows (junk : list Z) (link : bool) (k : display) : ublox -> nav -> list chunk -> ublox -> nav -> string -> Prop :=
| sh_end s n : shows junk link k s n [] s n ""
| sh_port s n d r s1 e n1 n2 v1 v x y xs t s' n' :
    ublox_read s (ditem_bytes d) = Ok (s1, e) -> said d s1 x ->
    nav_run junk n (map NMsg (dsfr_msgs (inbuf (u_ubx s)) [d])) = Ok (n1, v1) ->
    nav_run junk (nav_ecb n 0) (map NMsg (dsfr_msgs (inbuf (u_ubx s)) [d])) = Ok (n2, v) -> told v y ->
    Forall2 (holds k) (dframes_of (k_cls k) (k_id k) [d]) xs ->
    shows junk link k s1 n1 r s' n' t ->
    shows junk link k s n (FromPort d :: r) s' n' (x ++ y ++ joined (map (lines k) xs) ++ t)
| sh_net s n its r t s' n' : shows junk link k s n r s' n' t ->
    shows junk link k s n (FromNet its :: r) s' n' ((if link then joined (map correction_text its) else "") ++ t).
Definition base_display : display := mkDisplay 0x01 0x3B svin svin_payload
  (fun x => svin_text x (100 * (s_x x mod 2 ^ 32) + s_hx x mod 256) (100 * (s_y x mod 2 ^ 32) + s_hy x mod 256) (100 * (s_z x mod 2 ^ 32) + s_hz x mod 256)).
Definition rover_display : display := mkDisplay 0x01 0x3C relpos rel_payload rel_text.

(* ---------------------------------------------------------------- proofs: one frame *)
Lemma nav_only_app junk a : forall b n, nav_only junk n (a ++ b) = (let* (n1, t1) := nav_only junk n a in let* (n2, t2) := nav_only junk n1 b in Ok (n2, (t1 ++ t2)%string)).
Proof.
  induction a as [|o a IH]; intros b n; cbn [app nav_only bind].
  - destruct (nav_only junk n b) as [[n2 t2]|k]; reflexivity.
  - destruct (match o with NMsg m => nav_says n m | _ => Ok "" end) as [t|k]; cbn [bind]; [|reflexivity]. destruct (nav_step junk n o) as [[n1 v]|k]; cbn [bind]; [|reflexivity]. rewrite IH.
    destruct (nav_only junk n1 a) as [[n2 t2]|k]; cbn [bind]; [|reflexivity]. destruct (nav_only junk n2 b) as [[n3 t3]|k]; cbn [bind]; [|reflexivity]. rewrite sapp_assoc. reflexivity.
Qed.
Lemma console_cons h hid e r : console h hid (e :: r) = (console h hid [e] ++ console h hid r)%string.
Proof. change (e :: r) with ([e] ++ r). apply console_app. Qed.
Lemma sapp_empty a b : (a ++ b)%string = ""%string -> a = ""%string /\ b = ""%string.
Proof. destruct a; [auto|discriminate]. Qed.
Lemma calls_handler junk h nid hid : forall e n, flat_map (to_nav nid) e = [] -> calls_shown junk h nid hid n e = Ok (n, console h hid e).
Proof.
  induction e as [|x e IH]; intros n H; [reflexivity|]. cbn [flat_map] in H. apply app_eq_nil in H. destruct H as [H1 H2].
  cbn [calls_shown]. rewrite H1. cbn [nav_only bind]. rewrite (IH n H2). cbn [bind]. rewrite (console_cons h hid x e). reflexivity.
Qed.
Lemma calls_parser junk h nid hid : forall e n, console h hid e = ""%string -> calls_shown junk h nid hid n e = nav_only junk n (flat_map (to_nav nid) e).
Proof.
  induction e as [|x e IH]; intros n H; [reflexivity|]. rewrite console_cons in H. apply sapp_empty in H. destruct H as [H1 H2].
  cbn [calls_shown flat_map]. rewrite nav_only_app. destruct (nav_only junk n (to_nav nid x)) as [[n1 t1]|k]; cbn [bind]; [|reflexivity]. rewrite (IH n1 H2), H1. reflexivity.
Qed.
Lemma calls_app junk h nid hid a : forall b n, calls_shown junk h nid hid n (a ++ b) =
  (let* (n1, t1) := calls_shown junk h nid hid n a in let* (n2, t2) := calls_shown junk h nid hid n1 b in Ok (n2, (t1 ++ t2)%string)).
Proof.
  induction a as [|e a IH]; intros b n; cbn [app calls_shown bind].
  - destruct (calls_shown junk h nid hid n b) as [[n2 t2]|k]; reflexivity.
  - destruct (nav_only junk n (to_nav nid e)) as [[n1 t1]|k]; cbn [bind]; [|reflexivity]. rewrite IH.
    destruct (calls_shown junk h nid hid n1 a) as [[n2 t2]|k]; cbn [bind]; [|reflexivity]. destruct (calls_shown junk h nid hid n2 b) as [[n3 t3]|k]; cbn [bind]; [|reflexivity].
    rewrite !sapp_assoc. reflexivity.
Qed.
Lemma station_app junk h nid hid link a : forall b s n d, station junk h nid hid link s n d (a ++ b) =
  (let* (s1, n1, d1, e1, t1) := station junk h nid hid link s n d a in let* (s2, n2, d2, e2, t2) := station junk h nid hid link s1 n1 d1 b in Ok (s2, n2, d2, e1 ++ e2, (t1 ++ t2)%string)).
Proof.
  induction a as [|[x|buf] a IH]; intros b s n d; cbn [app station bind].
  - destruct (station junk h nid hid link s n d b) as [[[[[s2 n2] d2] e2] t2]|k]; reflexivity.
  - destruct (ublox_say s x) as [t|k]; cbn [bind]; [|reflexivity]. destruct (ublox_byte s x) as [[s1 e1]|k]; cbn [bind]; [|reflexivity].
    destruct (calls_shown junk h nid hid n e1) as [[n1 t1]|k]; cbn [bind]; [|reflexivity]. rewrite IH.
    destruct (station junk h nid hid link s1 n1 d a) as [[[[[s2 n2] d2] e2] t2]|k]; cbn [bind]; [|reflexivity].
    destruct (station junk h nid hid link s2 n2 d2 b) as [[[[[s3 n3] d3] e3] t3]|k]; cbn [bind]; [|reflexivity]. rewrite !sapp_assoc, app_assoc. reflexivity.
  - destruct link; [|apply IH]. destruct (rtcm_says [] d buf) as [t|k]; cbn [bind]; [|reflexivity]. destruct (rover_cb d buf) as [[d1 e1]|k]; cbn [bind]; [|reflexivity]. rewrite IH.
    destruct (station junk h nid hid true s n d1 a) as [[[[[s2 n2] d2] e2] t2]|k]; cbn [bind]; [|reflexivity].
    destruct (station junk h nid hid true s2 n2 d2 b) as [[[[[s3 n3] d3] e3] t3]|k]; cbn [bind]; [|reflexivity]. rewrite !sapp_assoc, app_assoc. reflexivity.
Qed.
(* bytes about which the driver says nothing *)
Lemma station_silent junk h nid hid link d : forall bs s n s1 e, ublox_read s bs = Ok (s1, e) -> ublox_says s bs = Ok ""%string ->
  station junk h nid hid link s n d (map Port bs) = (let* (n1, t) := calls_shown junk h nid hid n e in Ok (s1, n1, d, e, t)).
Proof.
  induction bs as [|b bs IH]; intros s n s1 e ER EX; cbn [ublox_read ublox_says map station] in *.
  - assert (s1 = s) by congruence. assert (e = []) by congruence. subst. reflexivity.
  - apply bind_inv in EX. destruct EX as (t & ET & EX). rewrite ET. cbn [bind].
    destruct (ublox_byte s b) as [[sa ea]|k]; cbn [bind] in *; [|discriminate]. apply bind_inv in EX. destruct EX as (t2 & E2 & EX).
    assert (X : (t ++ t2)%string = ""%string) by congruence. apply sapp_empty in X. destruct X as [-> ->].
    destruct (ublox_read sa bs) as [[sb eb]|k] eqn:EB; cbn [bind] in ER; [|discriminate]. assert (e = ea ++ eb) by congruence. assert (sb = s1) by congruence. subst e sb.
    rewrite calls_app. destruct (calls_shown junk h nid hid n ea) as [[n1 t1]|k]; cbn [bind]; [|reflexivity]. rewrite (IH sa n1 s1 eb EB E2).
    destruct (calls_shown junk h nid hid n1 eb) as [[n2 t2]|k]; cbn [bind append]; reflexivity.
Qed.
(* bytes that call neither the parser nor the handler *)
Lemma station_alone junk h nid hid link d : forall bs s n s1 e x, ublox_read s bs = Ok (s1, e) -> ublox_says s bs = Ok x ->
  flat_map (to_nav nid) e = [] -> console h hid e = ""%string ->
  station junk h nid hid link s n d (map Port bs) = Ok (s1, n, d, e, x).
Proof.
  induction bs as [|b bs IH]; intros s n s1 e x ER EX HE HC; cbn [ublox_read ublox_says map station] in *.
  - assert (s1 = s) by congruence. assert (e = []) by congruence. subst. congruence.
  - apply bind_inv in EX. destruct EX as (t & ET & EX). rewrite ET. cbn [bind].
    destruct (ublox_byte s b) as [[sa ea]|k]; cbn [bind] in *; [|discriminate]. apply bind_inv in EX. destruct EX as (t2 & E2 & EX).
    destruct (ublox_read sa bs) as [[sb eb]|k] eqn:EB; cbn [bind] in ER; [|discriminate]. assert (e = ea ++ eb) by congruence. assert (sb = s1) by congruence. subst e sb.
    rewrite flat_map_app in HE. apply app_eq_nil in HE. destruct HE as [HE1 HE2]. rewrite console_app in HC. apply sapp_empty in HC. destruct HC as [HC1 HC2].
    rewrite (calls_handler junk h nid hid ea n HE1), HC1. cbn [bind]. rewrite (IH sa n s1 eb t2 EB E2 HE2 HC2). cbn [bind append]. congruence.
Qed.
(* the callbacks make no difference to what is decoded and printed *)
Lemma gal_cbs cbs cbs' st dw e : match decodeGalileo cbs st dw e, decodeGalileo cbs' st dw e with
  | Ok (st1, e1, _, r1), Ok (st2, e2, _, r2) => st1 = st2 /\ e1 = e2 /\ r1 = r2 | UB k, UB k' => k = k' | _, _ => False end.
Proof.
  unfold decodeGalileo.
  repeat (match goal with
    | |- context [bind ?a _] => destruct a as [?|?] eqn:?; cbn [bind]; [|reflexivity]
    | |- context [let (_, _) := ?p in _] => destruct p
    | |- context [if ?c then _ else _] => destruct c
    end; cbv zeta); auto.
Qed.
Lemma says_cbs n c m : nav_says (nav_ecb n c) m = nav_says n m.
Proof.
  unfold nav_says. destruct (sf_gnss m =? 2); [|reflexivity]. cbn [nav_ecb n_eph n_rows n_ecb]. destruct (slot _ _ (n_eph n)) as [l i].
  pose proof (gal_cbs (n_ecb n ++ [c]) (n_ecb n) (n_rows n) (sf_dw m) (seti FgnssID (sf_gnss m) (seti Fsat (sf_sv m) (nth i l eph_new)))) as H.
  destruct (decodeGalileo (n_ecb n ++ [c]) _ _ _) as [[[[a b] v] r]|k]; destruct (decodeGalileo (n_ecb n) _ _ _) as [[[[a' b'] v'] r']|k']; try contradiction; cbn [bind]; [|congruence].
  destruct H as (_ & -> & ->). reflexivity.
Qed.
Lemma message_told junk n m : junk_ok junk -> calm (NMsg m) -> SI n ->
  exists n1 v1 n2 v y, nav_only junk n [NMsg m] = Ok (n1, y) /\ nav_run junk n [NMsg m] = Ok (n1, v1) /\ nav_run junk (nav_ecb n 0) [NMsg m] = Ok (n2, v) /\ told v y /\ SI n1.
Proof.
  intros HJ HC HI. destruct (calm_step junk n (NMsg m) HJ HC HI) as (n1 & v1 & EN & I1).
  destruct (calm_step junk n (NEcb 0) HJ I HI) as (ng & vg & EG & IG). assert (ng = nav_ecb n 0) by (cbn [nav_step] in EG; congruence). subst ng.
  destruct (calm_step junk (nav_ecb n 0) (NMsg m) HJ HC IG) as (n2 & v & EN2 & _).
  assert (HY : exists y, nav_says (nav_ecb n 0) m = Ok y /\ told v y).
  { cbn [nav_step] in EN2. apply bind_inv in EN2. destruct EN2 as (((sa, ea), ra) & EC & EN2). assert (ea = v) by congruence. subst ea.
    destruct HC as (Hm & _). apply (says_step junk (nav_ecb n 0) m sa v ra Hm); [|exact EC]. intros NZ. apply (si_r _ IG). destruct Hm as (_ & _ & Bs & _). unfold byte_ok in Bs. lia. }
  destruct HY as (y & EY & TY). rewrite says_cbs in EY. exists n1, v1, n2, v, y.
  split; [cbn [nav_only]; rewrite EY; cbn [bind]; rewrite EN; cbn [bind]; rewrite sapp_nil_r; reflexivity|].
  split; [cbn [nav_run]; rewrite EN; cbn [bind]; rewrite app_nil_r; reflexivity|].
  split; [cbn [nav_run]; rewrite EN2; cbn [bind]; rewrite app_nil_r; reflexivity|]. split; [exact TY|exact I1].
Qed.

(* a handler that shows payloads the way k says *)
Definition displays (show : list Z -> string) (k : display) : Prop :=
  (forall pl x rest, holds k pl x -> show (pl ++ rest) = lines k x) /\ ((k_cls k =? 0x0A) && (k_id k =? 0x04)) = false /\ ((k_cls k =? 0x02) && (k_id k =? 0x13)) = false.
Definition heard_by (hid c i : Z) (ls : list listener) : Prop :=
  (forall l, In l ls -> lid l = hid -> wants l c i = true) /\ NoDup (map lid ls) /\ In hid (map lid ls).
(* what listener hid shows of one frame *)
Definition shown_as (k : display) (show : list Z -> string) (hid : Z) (ls : list listener) : Prop :=
  forall r i mem d xs, Forall2 (holds k) (dframes_of (k_cls k) (k_id k) [d]) xs ->
    console (only (k_cls k) (k_id k) show) hid (ditems_events ls r i mem [d]) = joined (map (lines k) xs).
Lemma heard_shown k show hid ls : displays show k -> heard_by hid (k_cls k) (k_id k) ls -> shown_as k show hid ls.
Proof.
  intros (HS & _) (HW & HN & HI) r i mem d xs HX. destruct (console_ditems (k_cls k) (k_id k) show hid ls r i HW HN HI [d] mem) as (ms & F & EC).
  rewrite EC. change (joined (map (lines k) xs)) with (texts (map (lines k) xs)). f_equal. exact (texts_show show (lines k) (holds k) HS _ _ F xs HX).
Qed.
(* the driver over one frame *)
Lemma frame_facts T k show hid nid ls s d s1 e1 xs : (T = T_BASE \/ no_rtcm [d]) -> displays show k ->
  Forall listener_ok ls -> (forall l, In l ls -> lid l <> nid) -> shown_as k show hid (parser_and nid ls) -> idle_as T (parser_and nid ls) s ->
  ditem_ok (prev (u_ubx s)) d -> bytes_ok (ditem_bytes d) -> ublox_read s (ditem_bytes d) = Ok (s1, e1) ->
  Forall2 (holds k) (dframes_of (k_cls k) (k_id k) [d]) xs ->
  idle_as T (parser_and nid ls) s1 /\ prev (u_ubx s1) = ditem_last d /\ flat_map (to_nav nid) e1 = map NMsg (dsfr_msgs (inbuf (u_ubx s)) [d]) /\
  console (only (k_cls k) (k_id k) show) hid e1 = joined (map (lines k) xs) /\ ser_of e1 = [] /\
  exists x, ublox_says s (ditem_bytes d) = Ok x /\ said d s1 x.
Proof.
  intros HT _ Hls HL HW HId Hd Hb E HX.
  assert (Hll : Forall listener_ok (parser_and nid ls)).
  { constructor; [|exact Hls]. constructor; [|constructor]. split; unfold byte_ok; cbn; lia. }
  assert (Hok : ditems_ok (prev (u_ubx s)) [d]) by (split; [exact Hd|exact I]).
  assert (Hb1 : bytes_ok (ditems_bytes [d])) by (cbn [ditems_bytes flat_map]; rewrite app_nil_r; exact Hb).
  assert (E1 : ublox_read s (ditems_bytes [d]) = Ok (s1, e1)) by (cbn [ditems_bytes flat_map]; rewrite app_nil_r; exact E).
  assert (HD : idle_as T (parser_and nid ls) s1 /\ e1 = ditems_events (parser_and nid ls) (u_nreg s) (u_rtk s) (inbuf (u_ubx s)) [d]).
  { destruct HT as [->|HT].
    - destruct (base_demux _ [d] s Hll HId Hok Hb1) as [(x & EX & HB & _)|[_ EX]]; [|congruence]. assert (x = s1) by congruence. subst x. split; [exact HB|congruence].
    - destruct (plain_demux T _ [d] s HT Hll HId Hok Hb1) as [(x & EX & HB & _)|[_ EX]]; [|congruence]. assert (x = s1) by congruence. subst x. split; [exact HB|congruence]. }
  destruct HD as [HB EV]. split; [exact HB|]. split; [|split; [|split; [|split]]].
  - destruct d as [b|it|it]; cbn [ditem_ok ditem_bytes ditem_last] in *.
    + destruct Hd as [Hne Hn]. inversion Hb as [|? ? Hbb _]; subst. destruct (read_noise_both _ _ s b HId Hbb Hne Hn) as (x & E2 & _ & _ & EU).
      cbn [ublox_read] in E. rewrite E2 in E. cbn [bind] in E. assert (x = s1) by congruence. subst x. rewrite EU. reflexivity.
    + destruct Hd as [Hi Hn]. destruct (ubx_item_idle _ _ s it Hll HId Hi Hn Hb) as [(x & E2 & _ & _ & HP1 & _)|[_ E2]]; [|congruence].
      assert (x = s1) by congruence. subst x. exact HP1.
    + destruct HT as [->|HT]; [|exfalso; exact (HT it (or_introl eq_refl))]. destruct Hd as [Hi Hn].
      destruct (rtcm_item_base _ s it HId Hi Hn Hb) as (x & E2 & _ & _ & HP1 & _). assert (x = s1) by congruence. subst x. exact HP1.
  - rewrite EV. apply nav_of_events. exact HL.
  - rewrite EV. exact (HW _ _ _ d xs HX).
  - rewrite EV. assert (HR : forall m f i, ser_of (repeat (EvRtk i f) m) = []) by (induction m as [|m IHm]; intros f i; [reflexivity|exact (IHm f i)]).
    assert (HU : forall l, ser_of (map EvUbx l) = []) by (induction l as [|c l IHl]; [reflexivity|exact IHl]).
    cbn [ditems_events]. rewrite app_nil_r. destruct d as [b|it|it]; cbn [ditem_events]; [reflexivity| |].
    + destruct it; try reflexivity; apply HU.
    + destruct it; try reflexivity. apply HR.
  - destruct (stream_says T _ [d] s s1 e1 HT Hll HId Hok Hb1 E1) as (t & HTe & HSa). cbn [ditems_bytes flat_map] in HSa. rewrite app_nil_r in HSa.
    inversion HTe as [|s0 d0 ds0 sa ev x y A B C]; subst s0 d0 ds0 t. inversion C; subst. rewrite sapp_nil_r in *. assert (sa = s1) by congruence. subst sa. eauto.
Qed.
Lemma frame_station junk T k show hid nid ls link s n dbg d s1 e1 xs : (T = T_BASE \/ no_rtcm [d]) -> displays show k -> junk_ok junk ->
  Forall listener_ok ls -> (forall l, In l ls -> lid l <> nid) -> shown_as k show hid (parser_and nid ls) -> idle_as T (parser_and nid ls) s ->
  ditem_ok (prev (u_ubx s)) d -> bytes_ok (ditem_bytes d) -> ublox_read s (ditem_bytes d) = Ok (s1, e1) ->
  Forall2 (holds k) (dframes_of (k_cls k) (k_id k) [d]) xs -> SI n -> (forall m, In m (dsfr_msgs (inbuf (u_ubx s)) [d]) -> calm (NMsg m)) ->
  exists n1 v1 n2 v x y, station junk (only (k_cls k) (k_id k) show) nid hid link s n dbg (map Port (ditem_bytes d)) =
      Ok (s1, n1, dbg, e1, (x ++ y ++ joined (map (lines k) xs))%string) /\ said d s1 x /\
    nav_run junk n (map NMsg (dsfr_msgs (inbuf (u_ubx s)) [d])) = Ok (n1, v1) /\
    nav_run junk (nav_ecb n 0) (map NMsg (dsfr_msgs (inbuf (u_ubx s)) [d])) = Ok (n2, v) /\ told v y /\ SI n1.
Proof.
  intros HT HK HJ Hls HL HW HId Hd Hb E HX HI HC.
  destruct (frame_facts T k show hid nid ls s d s1 e1 xs HT HK Hls HL HW HId Hd Hb E HX) as (_ & _ & HE & HCn & _ & x & EX & SX).
  destruct HK as (_ & K1 & K2). set (h := only (k_cls k) (k_id k) show) in *.
  destruct (dsfr_msgs (inbuf (u_ubx s)) [d]) as [|m r] eqn:ED.
  - exists n, [], (nav_ecb n 0), [], x, ""%string. split; [|split; [exact SX|split; [reflexivity|split; [reflexivity|split; [right; split; [intros []|reflexivity]|exact HI]]]]].
    cbn [map] in HE. cbn [append].
    assert (D : x = ""%string \/ dframes_of (k_cls k) (k_id k) [d] = []).
    { destruct d as [b|it|it]; cbn [said] in SX; [left; exact SX| |right; reflexivity].
      destruct it as [b|c i pl|c i pl ka kb|c i w]; try (left; exact SX). destruct ((c =? 10) && (i =? 4)) eqn:EV; [right|left; exact SX].
      unfold dframes_of. cbn [flat_map]. rewrite app_nil_r. destruct ((c =? k_cls k) && (i =? k_id k)) eqn:EQ; [|reflexivity]. exfalso. lia. }
    destruct D as [-> | D].
    + rewrite (station_silent junk h nid hid link dbg _ s n s1 e1 E EX), (calls_handler junk h nid hid e1 n HE), HCn. reflexivity.
    + rewrite D in HX. inversion HX; subst xs. cbn [map joined fold_right] in *. rewrite sapp_nil_r. exact (station_alone junk h nid hid link dbg _ s n s1 e1 x E EX HE HCn).
  - destruct d as [b|it|it]; cbn [dsfr_msgs] in ED; rewrite app_nil_r in ED; try discriminate ED.
    destruct it as [b|cls id pl|cls id pl ka kb|cls id w]; cbn [sfr_msgs app] in ED; try discriminate ED. rewrite app_nil_r in ED.
    destruct ((cls =? 2) && (id =? 19)) eqn:EQ; [|discriminate ED]. assert (r = []) by congruence. subst r. clear ED.
    assert (NV : ((cls =? 10) && (id =? 4)) = false) by lia. cbn [said] in SX. change 0x0A with 10 in SX. rewrite NV in SX. subst x.
    assert (D : dframes_of (k_cls k) (k_id k) [DUbx (Good cls id pl)] = []).
    { unfold dframes_of. cbn [flat_map]. rewrite app_nil_r. destruct ((cls =? k_cls k) && (id =? k_id k)) eqn:E3; [|reflexivity]. exfalso. lia. }
    rewrite D in HX. inversion HX; subst xs. cbn [map joined fold_right] in *.
    destruct (message_told junk n m HJ (HC m (or_introl eq_refl)) HI) as (n1 & v1 & n2 & v & y & M1 & M2 & M3 & M4 & M5).
    exists n1, v1, n2, v, ""%string, y. split; [|split; [cbn [said]; change 0x0A with 10; rewrite NV; reflexivity|auto]].
    rewrite (station_silent junk h nid hid link dbg _ s n s1 e1 E EX), (calls_parser junk h nid hid e1 n HCn), HE. cbn [map]. rewrite M1. cbn [bind append]. rewrite sapp_nil_r. reflexivity.
Qed.

(* ---------------------------------------------------------------- proofs: any sequence of frames and datagrams *)
Lemma dframes_cons c i d ds : dframes_of c i (d :: ds) = dframes_of c i [d] ++ dframes_of c i ds.
Proof. unfold dframes_of. cbn [flat_map]. rewrite app_nil_r. reflexivity. Qed.
Definition passed (link : bool) (l : list chunk) : list (list Z) := if link then map ritems_bytes (net_frames l) else [].
Lemma station_stream junk T k show hid nid ls link : displays show k -> junk_ok junk ->
  Forall listener_ok ls -> (forall l, In l ls -> lid l <> nid) -> shown_as k show hid (parser_and nid ls) ->
  forall l s n dbg s' ev xs, (T = T_BASE \/ no_rtcm (port_frames l)) -> idle_as T (parser_and nid ls) s -> SI n -> (link = true -> RSt dbg []) ->
  ditems_ok (prev (u_ubx s)) (port_frames l) -> bytes_ok (ditems_bytes (port_frames l)) ->
  Forall (fun its => Forall ritem_ok its /\ bytes_ok (ritems_bytes its)) (net_frames l) ->
  ublox_read s (ditems_bytes (port_frames l)) = Ok (s', ev) -> (forall o, In o (flat_map (to_nav nid) ev) -> calm o) ->
  Forall2 (holds k) (dframes_of (k_cls k) (k_id k) (port_frames l)) xs ->
  exists n' d' e' t, station junk (only (k_cls k) (k_id k) show) nid hid link s n dbg (arrivals l) = Ok (s', n', d', e', t) /\
    shows junk link k s n l s' n' t /\ ser_of e' = passed link l /\ rtk_of e' = rtk_of ev /\ idle_as T (parser_and nid ls) s' /\ SI n' /\ (link = true -> RSt d' []) /\ (calm_parser junk n -> calm_parser junk n').
Proof.
  intros HK HJ Hls HL HW. induction l as [|[d|its] l IH]; intros s n dbg s' ev xs HT HId HI HD Hok Hb Hn E HC HX.
  - cbn [port_frames flat_map ditems_bytes ublox_read] in E. assert (s' = s) by congruence. assert (ev = []) by congruence. subst. exists n, dbg, [], ""%string.
    split; [reflexivity|]. split; [constructor|]. split; [destruct link; reflexivity|]. split; [reflexivity|]. auto.
  - change (port_frames (FromPort d :: l)) with (d :: port_frames l) in *. change (net_frames (FromPort d :: l)) with (net_frames l) in *.
    change (ditems_bytes (d :: port_frames l)) with (ditem_bytes d ++ ditems_bytes (port_frames l)) in *. apply bytes_ok_app in Hb. destruct Hb as [Hb1 Hb2]. destruct Hok as [Hok1 Hok2].
    rewrite ublox_read_app in E. destruct (ublox_read s (ditem_bytes d)) as [[s1 e1]|q] eqn:E1; cbn [bind] in E; [|discriminate].
    destruct (ublox_read s1 (ditems_bytes (port_frames l))) as [[s2 e2]|q] eqn:E2; cbn [bind] in E; [|discriminate]. assert (s2 = s') by congruence. assert (ev = e1 ++ e2) by congruence. subst s2 ev.
    rewrite dframes_cons in HX. apply Forall2_app_inv_l in HX. destruct HX as (xs1 & xs2 & HX1 & HX2 & ->).
    assert (HT1 : T = T_BASE \/ no_rtcm [d]) by (destruct HT as [HT|HT]; [left; exact HT|right; intros it [Ed|[]]; exact (HT it (or_introl Ed))]).
    assert (HT2 : T = T_BASE \/ no_rtcm (port_frames l)) by (destruct HT as [HT|HT]; [left; exact HT|right; intros it Hin; exact (HT it (or_intror Hin))]).
    rewrite flat_map_app in HC.
    destruct (frame_facts T k show hid nid ls s d s1 e1 xs1 HT1 HK Hls HL HW HId Hok1 Hb1 E1 HX1) as (HId1 & HP1 & HE1 & _ & HS1 & _).
    destruct (frame_station junk T k show hid nid ls link s n dbg d s1 e1 xs1 HT1 HK HJ Hls HL HW HId Hok1 Hb1 E1 HX1 HI) as (n1 & v1 & n2 & v & x & y & ES & SX & R1 & R2 & TY & HI1).
    { intros m Hm. apply HC. apply in_or_app. left. rewrite HE1. apply in_map. exact Hm. }
    rewrite <- HP1 in Hok2.
    destruct (IH s1 n1 dbg s' e2 xs2 HT2 HId1 HI1 HD Hok2 Hb2 Hn E2 (fun o Ho => HC o (in_or_app _ _ _ (or_intror Ho))) HX2) as (n' & d' & e' & t & EQ & SH & SE & RE & HIf & HSI & HRS & HCP).
    exists n', d', (e1 ++ e'), (x ++ y ++ joined (map (lines k) xs1) ++ t)%string.
    split; [change (arrivals (FromPort d :: l)) with (map Port (ditem_bytes d) ++ arrivals l); rewrite station_app, ES; cbn [bind]; rewrite EQ; cbn [bind]; rewrite !sapp_assoc; reflexivity|].
    split; [exact (sh_port junk link k s n d l s1 e1 n1 n2 v1 v x y xs1 t s' n' E1 SX R1 R2 TY HX1 SH)|].
    split; [rewrite ser_of_app, HS1; exact SE|]. split; [rewrite !rtk_of_app, RE; reflexivity|]. split; [exact HIf|]. split; [exact HSI|]. split; [exact HRS|].
    intros HP0. apply HCP. apply (calm_parser_more junk n (map NMsg (dsfr_msgs (inbuf (u_ubx s)) [d])) n1 v1 HP0); [|exact R1]. intros o Ho. apply HC. apply in_or_app. left. rewrite HE1. exact Ho.
  - change (port_frames (FromNet its :: l)) with (port_frames l) in *. change (net_frames (FromNet its :: l)) with (its :: net_frames l) in *.
    inversion Hn as [|? ? [Hr1 Hr2] Hn2]; subst. destruct link.
    + pose proof (HD eq_refl) as HD0. destruct (items_feed [] dbg its HD0 Hr1 Hr2) as (d1 & EF & HD1 & _).
      destruct (IH s n d1 s' ev xs HT HId HI (fun _ => HD1) Hok Hb Hn2 E HC HX) as (n' & d' & e' & t & EQ & SH & SE & RE & HIf).
      exists n', d', (EvSer (ritems_bytes its) :: e'), (joined (map correction_text its) ++ t)%string.
      split; [change (arrivals (FromNet its :: l)) with (Net (ritems_bytes its) :: arrivals l); cbn [station]; rewrite (debug_says [] its dbg HD0 Hr1 Hr2); cbn [bind]; unfold rover_cb; rewrite EF; cbn [bind]; rewrite EQ; reflexivity|].
      split; [exact (sh_net junk true k s n its l t s' n' SH)|]. split; [unfold passed in *; change (net_frames (FromNet its :: l)) with (its :: net_frames l); cbn [map]; rewrite <- SE; reflexivity|]. split; [exact RE|exact HIf].
    + destruct (IH s n dbg s' ev xs HT HId HI HD Hok Hb Hn2 E HC HX) as (n' & d' & e' & t & EQ & SH & SE & RE & HIf).
      exists n', d', e', t. split; [exact EQ|]. split; [exact (sh_net junk false k s n its l t s' n' SH)|]. split; [exact SE|]. split; [exact RE|exact HIf].
Qed.
(* the specified text is determined *)
Lemma shows_fun junk link k show : displays show k -> forall l s n s1 n1 t s2 n2 t', shows junk link k s n l s1 n1 t -> shows junk link k s n l s2 n2 t' -> s1 = s2 /\ n1 = n2 /\ t = t'.
Proof.
  intros (HS & _). induction l as [|[d|its] l IH]; intros s n s1 n1 t s2 n2 t' H H'.
  - inversion H; subst. inversion H'; subst. auto.
  - inversion H as [|a0 a1 a2 a3 sa ea na nb va v x y xs z b0 b1 A B C D F G K|]; subst.
    inversion H' as [|a0' a1' a2' a3' sa' ea' na' nb' va' v' x' y' xs' z' b0' b1' A' B' C' D' F' G' K'|]; subst.
    assert (sa' = sa) by congruence. assert (na' = na) by congruence. assert (v' = v) by congruence. assert (nb' = nb) by congruence. subst sa' na' v' nb'.
    destruct (IH _ _ _ _ _ _ _ _ K K') as (-> & -> & ->). split; [reflexivity|]. split; [reflexivity|].
    rewrite (said_fun d sa x x' B B').
    assert (Y : y = y').
    { destruct (dsfr_msgs (inbuf (u_ubx s)) [d]) as [|m r] eqn:ED.
      - cbn [map nav_run] in D. assert (v = []) by congruence. subst v. apply (told_fun [] eph_new [0] y y'); [discriminate|intros []|exact F|exact F'].
      - assert (r = []).
        { destruct d as [b|it|it]; cbn [dsfr_msgs] in ED; rewrite app_nil_r in ED; try discriminate ED.
          destruct it; cbn [sfr_msgs] in ED; rewrite ?app_nil_r in ED; try discriminate ED. destruct (_ && _); [congruence|discriminate ED]. }
        subst r. cbn [map] in D. destruct (message_report junk (nav_ecb n 0) m nb v D) as [_ X].
        assert (NE : n_ecb (nav_ecb n 0) <> []) by (cbn [nav_ecb n_ecb]; destruct (n_ecb n); discriminate).
        destruct F as [(d1 & c1 & E1 & R1)|[N ->]].
        + destruct (X ltac:(rewrite E1; left; reflexivity)) as (dd & X3).
          apply (told_fun v dd (n_ecb (nav_ecb n 0)) y y' NE); [intros _; exact X3|left; exists d1, c1; auto|exact F'].
        + apply (told_fun v eph_new (n_ecb (nav_ecb n 0)) ""%string y' NE); [contradiction|right; auto|exact F']. }
    subst y'. f_equal. f_equal. f_equal. f_equal.
    clear - G G' HS. revert xs' G'. induction G as [|p x ps xs P _ IH]; intros ys H; inversion H as [|? y0 ? ys' H1 H2]; subst; [reflexivity|].
    cbn [map]. f_equal; [|apply IH; exact H2]. rewrite <- (HS p x [] P), <- (HS p y0 [] H1). reflexivity.
  - inversion H; subst. inversion H'; subst. match goal with A : shows _ _ _ _ _ l _ _ ?a, B : shows _ _ _ _ _ l _ _ ?b |- _ => destruct (IH _ _ _ _ _ _ _ _ A B) as (-> & -> & ->) end. auto.
Qed.
Lemma base_displays : displays show_svin base_display.
Proof.
  split; [|split; reflexivity]. intros pl x rest (HO & ver & r0 & r1 & r2 & q & r3 & r4 & ->). rewrite <- app_assoc. exact (show_svin_text x ver r0 r1 r2 q ([r3; r4] ++ rest) HO).
Qed.
Lemma rover_displays : displays show_rel rover_display.
Proof. split; [|split; reflexivity]. intros pl x rest (HO & ver & r0 & r1 & r2 & r3 & r4 & q1 & q2 & q3 & q4 & ->). exact (show_rel_text x ver r0 r1 r2 r3 r4 q1 q2 q3 q4 rest HO). Qed.

Lemma ports_arrive ds : arrivals (map FromPort ds) = map Port (ditems_bytes ds) /\ port_frames (map FromPort ds) = ds /\ net_frames (map FromPort ds) = [].
Proof.
  induction ds as [|d ds (A & B & C)]; [auto|]. split; [|split].
  - change (arrivals (map FromPort (d :: ds))) with (map Port (ditem_bytes d) ++ arrivals (map FromPort ds)). rewrite A. change (ditems_bytes (d :: ds)) with (ditem_bytes d ++ ditems_bytes ds). rewrite map_app. reflexivity.
  - change (port_frames (map FromPort (d :: ds))) with (d :: port_frames (map FromPort ds)). rewrite B. reflexivity.
  - exact C.
Qed.
Lemma calm_events T nid ls s ds s' ev : (T = T_BASE \/ no_rtcm ds) -> Forall listener_ok ls -> (forall l, In l ls -> lid l <> nid) -> idle_as T (parser_and nid ls) s ->
  ditems_ok (prev (u_ubx s)) ds -> bytes_ok (ditems_bytes ds) -> ublox_read s (ditems_bytes ds) = Ok (s', ev) ->
  ev = ditems_events (parser_and nid ls) (u_nreg s) (u_rtk s) (inbuf (u_ubx s)) ds /\ u_nreg s' = u_nreg s /\ u_rtk s' = u_rtk s /\ u_out s' = u_out s /\
  ((forall m, In m (dsfr_msgs (inbuf (u_ubx s)) ds) -> calm (NMsg m)) -> forall o, In o (flat_map (to_nav nid) ev) -> calm o).
Proof.
  intros HT Hls HL HId Hok Hb E.
  assert (Hll : Forall listener_ok (parser_and nid ls)).
  { constructor; [|exact Hls]. constructor; [|constructor]. split; unfold byte_ok; cbn; lia. }
  assert (X : ev = ditems_events (parser_and nid ls) (u_nreg s) (u_rtk s) (inbuf (u_ubx s)) ds /\ same_cfg s s').
  { destruct HT as [->|HT].
    - destruct (base_demux _ ds s Hll HId Hok Hb) as [(x & EX & _ & HB)|[_ EX]]; [|congruence]. assert (x = s') by congruence. subst x. split; [congruence|exact HB].
    - destruct (plain_demux T _ ds s HT Hll HId Hok Hb) as [(x & EX & _ & HB)|[_ EX]]; [|congruence]. assert (x = s') by congruence. subst x. split; [congruence|exact HB]. }
  destruct X as [EV (_ & _ & C3 & C4 & C5)]. split; [exact EV|]. split; [exact C3|]. split; [exact C4|]. split; [exact C5|]. intros HM. rewrite EV. unfold parser_and. rewrite (nav_of_events nid ls _ _ _ HL).
  intros o Ho. apply in_map_iff in Ho. destruct Ho as (m & <- & Hm). exact (HM m Hm).
Qed.
(* good RTCM frames from the receiver, forwarded once over interface i *)
Definition forwarded (i : Z) (ds : list ditem) : list (Z * list Z) := flat_map (fun d => match d with DRtcm (RGood f) => [(i, f)] | _ => [] end) ds.
Lemma forwarded_events ls i : forall ds mem, rtk_of (ditems_events ls 1 i mem ds) = forwarded i ds.
Proof.
  induction ds as [|d ds IH]; intros mem; [reflexivity|]. cbn [ditems_events]. rewrite rtk_of_app, IH. change (forwarded i (d :: ds)) with (match d with DRtcm (RGood f) => [(i, f)] | _ => [] end ++ forwarded i ds). f_equal.
  destruct d as [b|it|it]; [reflexivity| |]; destruct it; try reflexivity. apply rtk_of_ubx.
Qed.
Lemma none_forwarded ls r i : forall ds mem, no_rtcm ds -> rtk_of (ditems_events ls r i mem ds) = [].
Proof.
  induction ds as [|d ds IH]; intros mem H; [reflexivity|]. cbn [ditems_events]. rewrite rtk_of_app, IH by (intros it Hin; exact (H it (or_intror Hin))).
  destruct d as [b|it|it]; [reflexivity| |exfalso; exact (H it (or_introl eq_refl))]. rewrite app_nil_r. destruct it; try reflexivity. apply rtk_of_ubx.
Qed.
(* any role *)
Definition role_listener (k : display) (subs : list (Z * Z)) : Prop := In (k_cls k, k_id k) subs /\ listener_ok (mkListener 2 subs).
Lemma role_heard k show subs : displays show k -> role_listener k subs -> shown_as k show 2 (parser_and 1 [mkListener 2 subs]).
Proof.
  intros HK [HI _]. apply (heard_shown k show 2 _ HK). split; [|split].
  - intros l [<-|[<-|[]]]; [discriminate|]. intros _. unfold wants. cbn [Verif.UbxSpec.subs]. apply existsb_exists. exists (k_cls k, k_id k). split; [exact HI|]. unfold pair_eqb. cbn [fst snd]. rewrite !Z.eqb_refl. reflexivity.
  - cbn [map parser_and lid]. constructor; [|constructor; [intros []|constructor]]. intros [X|[]]. discriminate X.
  - right. left. reflexivity.
Qed.

(* the first part, with the handler registered and no role configured yet *)
Lemma role_before k show subs u ru r s n junk dbg ds s1 e1 xs : uninit_ok u -> runinit_ok ru -> junk_ok junk -> displays show k -> role_listener k subs ->
  UReach u ru r s -> u_type s <> T_BASE -> u_ls s = map build [mkListener 1 [(0x02, 0x13)]] -> parsing_message (u_ubx s) = false -> rtcm_parsing (u_rtcm s) = false -> calm_parser junk n ->
  no_rtcm ds -> ditems_ok (prev (u_ubx s)) ds -> bytes_ok (ditems_bytes ds) -> (forall m, In m (dsfr_msgs (inbuf (u_ubx s)) ds) -> calm (NMsg m)) ->
  Forall2 (holds k) (dframes_of (k_cls k) (k_id k) ds) xs ->
  ublox_read (ublox_register s (build (mkListener 2 subs))) (ditems_bytes ds) = Ok (s1, e1) ->
  exists n1 d1 e t, station junk (only (k_cls k) (k_id k) show) 1 2 false (ublox_register s (build (mkListener 2 subs))) n dbg (map Port (ditems_bytes ds)) = Ok (s1, n1, d1, e, t) /\ d1 = dbg /\
    shows junk false k (ublox_register s (build (mkListener 2 subs))) n (map FromPort ds) s1 n1 t /\ ser_of e = [] /\ rtk_of e = [] /\
    UReach u ru r s1 /\ idle_as (u_type s) (parser_and 1 [mkListener 2 subs]) s1 /\ SI n1.
Proof.
  intros Hu Hru HJ HK HS HR HT EL HP HRp HC HN Hok Hb HM HX E. set (s0 := ublox_register s (build (mkListener 2 subs))) in *.
  assert (HR0 : UReach u ru r s0) by (apply U_listen; [exact HR|apply HS]).
  assert (EL0 : u_ls s0 = map build (parser_and 1 [mkListener 2 subs])) by (unfold s0, ublox_register; cbn [u_ls uw_ls]; rewrite EL; reflexivity).
  pose proof (reach_idle u ru r s0 _ Hu Hru HR0 EL0 HP HRp) as HId. change (u_type s0) with (u_type s) in HId.
  assert (Hls : Forall listener_ok [mkListener 2 subs]) by (constructor; [apply HS|constructor]).
  assert (HL : forall l, In l [mkListener 2 subs] -> lid l <> 1) by (intros l [<-|[]]; discriminate).
  destruct (calm_events (u_type s) 1 _ s0 ds s1 e1 (or_intror HN) Hls HL HId Hok Hb E) as (EV & _ & _ & _ & HCo).
  destruct (ports_arrive ds) as (A1 & A2 & A3).
  destruct (station_stream junk (u_type s) k show 2 1 [mkListener 2 subs] false HK HJ Hls HL (role_heard k show subs HK HS) (map FromPort ds) s0 n dbg s1 e1 xs) as (n1 & d1 & e & t & Q1 & Q2 & Q3 & Q4 & Q5 & Q6 & _);
    try rewrite A2; try rewrite A3; [right; exact HN|exact HId|exact (calm_parser_si junk n HJ HC)|discriminate|exact Hok|exact Hb|constructor|exact E|exact (HCo HM)|exact HX|].
  rewrite A1 in Q1. exists n1, d1, e, t. split; [exact Q1|]. split.
  { clear - Q1. clearbody s0. revert s0 n s1 n1 e t Q1. induction (map Port (ditems_bytes ds)) as [|[b|bf] l IH]; intros s0 n s1 n1 e t H; cbn [station] in H; [congruence| |exact (IH _ _ _ _ _ _ H)].
    apply bind_inv in H. destruct H as (x & _ & H). apply bind_inv in H. destruct H as ([sa ea] & _ & H). apply bind_inv in H. destruct H as ([na ta] & _ & H).
    apply bind_inv in H. destruct H as (((((sb, nb), db), eb), tb) & HQ & H). assert (db = d1) by congruence. subst db. exact (IH _ _ _ _ _ _ HQ). }
  split; [exact Q2|]. split; [rewrite Q3; reflexivity|]. split; [rewrite Q4, EV; exact (none_forwarded _ _ _ ds _ HN)|]. split; [exact (U_read u ru r s0 _ s1 e1 HR0 Hb E)|]. split; [exact Q5|exact Q6].
Qed.
(* base.cpp:86-109 *)
Lemma base_whole u ru s n w ds0 l s1 e1 s2 e2 s3 e3 xs0 xs : uninit_ok u -> runinit_ok ru -> junk_ok (si_junk w) ->
  UReach u ru 0 s -> u_type s <> T_BASE -> u_ls s = map build [mkListener 1 [(0x02, 0x13)]] -> parsing_message (u_ubx s) = false -> rtcm_parsing (u_rtcm s) = false -> calm_parser (si_junk w) n ->
  si_udp w = true -> si_before w = ditems_bytes ds0 -> si_after w = arrivals l ->
  no_rtcm ds0 -> ditems_ok (prev (u_ubx s)) ds0 -> bytes_ok (ditems_bytes ds0) -> (forall m, In m (dsfr_msgs (inbuf (u_ubx s)) ds0) -> calm (NMsg m)) ->
  Forall2 svin_payload (dframes_of 0x01 0x3B ds0) xs0 ->
  ublox_read (ublox_register s (build (mkListener 2 [(0x01, 0x3B); (0x01, 0x07)]))) (ditems_bytes ds0) = Ok (s1, e1) -> config_base s1 3 true = Ok (s2, e2) ->
  ditems_ok (prev (u_ubx s2)) (port_frames l) -> bytes_ok (ditems_bytes (port_frames l)) -> (forall m, In m (dsfr_msgs (inbuf (u_ubx s2)) (port_frames l)) -> calm (NMsg m)) ->
  Forall (fun its => Forall ritem_ok its /\ bytes_ok (ritems_bytes its)) (net_frames l) -> Forall2 svin_payload (dframes_of 0x01 0x3B (port_frames l)) xs ->
  ublox_read s2 (ditems_bytes (port_frames l)) = Ok (s3, e3) ->
  exists n1 n3 t1 t3 ev, base_rest w s n = Ok (mkRun (Returns 0) (t1 ++ t3 ++ newline ++ line "quitting") "", ev) /\
    shows (si_junk w) false base_display (ublox_register s (build (mkListener 2 [(0x01, 0x3B); (0x01, 0x07)]))) n (map FromPort ds0) s1 n1 t1 /\
    shows (si_junk w) false base_display s2 n1 l s3 n3 t3 /\
    ser_of ev = ser_of e2 /\ rtk_of ev = forwarded 3 (port_frames l).
Proof.
  intros Hu Hru HJ HR HT EL HP HRp HC EU EB EA HN Hok0 Hb0 HM0 HX0 E1 E2 Hok Hb HM Hn HX E3.
  assert (HS : role_listener base_display [(0x01, 0x3B); (0x01, 0x07)]).
  { split; [left; reflexivity|]. constructor; [split; unfold byte_ok; cbn; lia|]. constructor; [split; unfold byte_ok; cbn; lia|constructor]. }
  destruct (role_before base_display show_svin _ u ru 0%nat s n (si_junk w) (si_dbg w) ds0 s1 e1 xs0 Hu Hru HJ base_displays HS HR HT EL HP HRp HC HN Hok0 Hb0 HM0 HX0 E1)
    as (n1 & d1 & ea & t1 & Q1 & -> & Q2 & Q3 & Q4 & HR1 & HI1 & SI1).
  set (sl := [(0x01, 0x3B); (0x01, 0x07)]) in *.
  assert (Hls : Forall listener_ok [mkListener 2 sl]) by (constructor; [apply HS|constructor]).
  assert (HL : forall x, In x [mkListener 2 sl] -> lid x <> 1) by (intros x [<-|[]]; discriminate).
  assert (HZ : Zlen (u_out s1) = 2048) by (destruct (ureach_inv u ru 0%nat s1 Hu Hru HR1) as ((_ & _ & _ & Z) & _); exact Z).
  destruct (config_base_spec s1 3 true HZ) as (o & ev & EC & _). rewrite E2 in EC. assert (ES2 : s2 = uw_out (uw_mode s1 (S (u_nreg s1)) T_BASE 3) o) by congruence.
  assert (NR : u_nreg s1 = 0%nat) by (exact (proj2 (ureach_inv u ru 0%nat s1 Hu Hru HR1))).
  assert (HI2 : idle_as T_BASE (parser_and 1 [mkListener 2 sl]) s2) by (rewrite ES2; destruct HI1 as (_ & I2 & I3 & I4); split; [reflexivity|]; split; [exact I2|]; split; [exact I3|exact I4]).
  destruct (calm_events T_BASE 1 _ s2 (port_frames l) s3 e3 (or_introl eq_refl) Hls HL HI2 Hok Hb E3) as (EV3 & _ & _ & _ & HCo).
  destruct (station_stream (si_junk w) T_BASE base_display show_svin 2 1 [mkListener 2 sl] false base_displays HJ Hls HL (role_heard _ _ sl base_displays HS) l s2 n1 (si_dbg w) s3 e3 xs
    (or_introl eq_refl) HI2 SI1 ltac:(discriminate) Hok Hb Hn E3 (HCo HM) HX) as (n3 & d3 & eb & t3 & P1 & P2 & P3 & P4 & _).
  exists n1, n3, t1, t3, (ea ++ e2 ++ eb).
  split.
  { unfold base_rest. change (subscribe (subscribe (mkML 2 []) 1 7) 1 59) with (build (mkListener 2 sl)).
    change base_handler with (only (k_cls base_display) (k_id base_display) show_svin). rewrite EB, Q1. cbn [bind]. rewrite EU. cbn [negb]. rewrite E2. cbn [bind]. rewrite EA, P1. cbn [bind].
    unfold line. reflexivity. }
  split; [exact Q2|]. split; [exact P2|]. split; [rewrite !ser_of_app, Q3, P3; cbn [app passed]; apply app_nil_r|].
  rewrite !rtk_of_app, Q4, P4. replace (rtk_of e2) with (@nil (Z * list Z)).
  - cbn [app]. rewrite EV3. assert (N1 : u_nreg s2 = 1%nat) by (rewrite ES2; cbn; rewrite NR; reflexivity). assert (N3 : u_rtk s2 = 3) by (rewrite ES2; reflexivity). rewrite N1, N3. apply forwarded_events.
  - destruct (base_sends_reach u ru 0%nat s1 3 true Hu Hru HR1) as (sx & ex & EX & _ & X & _). rewrite E2 in EX. assert (ex = e2) by congruence. subst ex. symmetry. exact X.
Qed.
(* rover.cpp:90-110 *)
Lemma rover_whole u ru rd r s n w ds0 l s1 e1 s2 e2 s3 e3 xs0 xs : uninit_ok u -> runinit_ok ru -> runinit_ok rd -> junk_ok (si_junk w) ->
  UReach u ru r s -> u_type s <> T_BASE -> u_ls s = map build [mkListener 1 [(0x02, 0x13)]] -> parsing_message (u_ubx s) = false -> rtcm_parsing (u_rtcm s) = false -> calm_parser (si_junk w) n ->
  RReach rd (si_dbg w) -> rtcm_parsing (si_dbg w) = false -> si_udp w = true -> si_before w = ditems_bytes ds0 -> si_after w = arrivals l ->
  no_rtcm ds0 -> ditems_ok (prev (u_ubx s)) ds0 -> bytes_ok (ditems_bytes ds0) -> (forall m, In m (dsfr_msgs (inbuf (u_ubx s)) ds0) -> calm (NMsg m)) ->
  Forall2 rel_payload (dframes_of 0x01 0x3C ds0) xs0 ->
  ublox_read (ublox_register s (build (mkListener 2 [(0x01, 0x3C)]))) (ditems_bytes ds0) = Ok (s1, e1) -> config_rover s1 3 = Ok (s2, e2) ->
  no_rtcm (port_frames l) -> ditems_ok (prev (u_ubx s2)) (port_frames l) -> bytes_ok (ditems_bytes (port_frames l)) -> (forall m, In m (dsfr_msgs (inbuf (u_ubx s2)) (port_frames l)) -> calm (NMsg m)) ->
  Forall (fun its => Forall ritem_ok its /\ bytes_ok (ritems_bytes its)) (net_frames l) -> Forall2 rel_payload (dframes_of 0x01 0x3C (port_frames l)) xs ->
  ublox_read s2 (ditems_bytes (port_frames l)) = Ok (s3, e3) ->
  exists n1 n3 t1 t3 ev, rover_rest w s n = Ok (mkRun (Returns 0) (t1 ++ t3 ++ newline ++ line "quitting") "", ev) /\
    shows (si_junk w) false rover_display (ublox_register s (build (mkListener 2 [(0x01, 0x3C)]))) n (map FromPort ds0) s1 n1 t1 /\
    shows (si_junk w) true rover_display s2 n1 l s3 n3 t3 /\
    ser_of ev = ser_of e2 ++ map ritems_bytes (net_frames l) /\ rtk_of ev = [].
Proof.
  intros Hu Hru Hrd HJ HR HT EL HP HRp HC HD HDp EU EB EA HN Hok0 Hb0 HM0 HX0 E1 E2 HN1 Hok Hb HM Hn HX E3.
  assert (HS : role_listener rover_display [(0x01, 0x3C)]).
  { split; [left; reflexivity|]. constructor; [split; unfold byte_ok; cbn; lia|constructor]. }
  destruct (role_before rover_display show_rel _ u ru r s n (si_junk w) (si_dbg w) ds0 s1 e1 xs0 Hu Hru HJ rover_displays HS HR HT EL HP HRp HC HN Hok0 Hb0 HM0 HX0 E1)
    as (n1 & d1 & ea & t1 & Q1 & -> & Q2 & Q3 & Q4 & HR1 & HI1 & SI1).
  set (sl := [(0x01, 0x3C)]) in *.
  assert (Hls : Forall listener_ok [mkListener 2 sl]) by (constructor; [apply HS|constructor]).
  assert (HL : forall x, In x [mkListener 2 sl] -> lid x <> 1) by (intros x [<-|[]]; discriminate).
  assert (HZ : Zlen (u_out s1) = 2048) by (destruct (ureach_inv u ru r s1 Hu Hru HR1) as ((_ & _ & _ & Z) & _); exact Z).
  destruct (config_rover_spec s1 3 HZ) as (o & ev & EC & _). rewrite E2 in EC. assert (ES2 : s2 = uw_out (uw_mode s1 (u_nreg s1) T_ROVER 3) o) by congruence.
  assert (HI2 : idle_as T_ROVER (parser_and 1 [mkListener 2 sl]) s2) by (rewrite ES2; destruct HI1 as (_ & I2 & I3 & I4); split; [reflexivity|]; split; [exact I2|]; split; [exact I3|exact I4]).
  destruct (calm_events T_ROVER 1 _ s2 (port_frames l) s3 e3 (or_intror HN1) Hls HL HI2 Hok Hb E3) as (EV3 & _ & _ & _ & HCo).
  destruct (station_stream (si_junk w) T_ROVER rover_display show_rel 2 1 [mkListener 2 sl] true rover_displays HJ Hls HL (role_heard _ _ sl rover_displays HS) l s2 n1 (si_dbg w) s3 e3 xs
    (or_intror HN1) HI2 SI1 (fun _ => rreach_idle rd _ Hrd HD HDp) Hok Hb Hn E3 (HCo HM) HX) as (n3 & d3 & eb & t3 & P1 & P2 & P3 & P4 & _).
  exists n1, n3, t1, t3, (ea ++ e2 ++ eb).
  split.
  { unfold rover_rest. change (subscribe (mkML 2 []) 1 60) with (build (mkListener 2 sl)).
    change rover_handler with (only (k_cls rover_display) (k_id rover_display) show_rel). rewrite EB, Q1. cbn [bind]. rewrite EU. cbn [negb]. rewrite E2. cbn [bind]. rewrite EA, P1. cbn [bind].
    unfold line. reflexivity. }
  split; [exact Q2|]. split; [exact P2|]. split; [rewrite !ser_of_app, Q3, P3; reflexivity|].
  rewrite !rtk_of_app, Q4, P4, EV3, (none_forwarded _ _ _ _ _ HN1), app_nil_r. cbn [app].
  destruct (rover_sends_reach u ru r s1 3 Hu Hru HR1) as (sx & ex & EX & _ & X & _). rewrite E2 in EX. assert (ex = e2) by congruence. subst ex. exact X.
Qed.
Lemma base_no_socket u ru s n w ds0 s1 e1 xs0 : uninit_ok u -> runinit_ok ru -> junk_ok (si_junk w) ->
  UReach u ru 0 s -> u_type s <> T_BASE -> u_ls s = map build [mkListener 1 [(0x02, 0x13)]] -> parsing_message (u_ubx s) = false -> rtcm_parsing (u_rtcm s) = false -> calm_parser (si_junk w) n ->
  si_udp w = false -> si_before w = ditems_bytes ds0 ->
  no_rtcm ds0 -> ditems_ok (prev (u_ubx s)) ds0 -> bytes_ok (ditems_bytes ds0) -> (forall m, In m (dsfr_msgs (inbuf (u_ubx s)) ds0) -> calm (NMsg m)) ->
  Forall2 svin_payload (dframes_of 0x01 0x3B ds0) xs0 ->
  ublox_read (ublox_register s (build (mkListener 2 [(0x01, 0x3B); (0x01, 0x07)]))) (ditems_bytes ds0) = Ok (s1, e1) ->
  exists n1 t1 ev, base_rest w s n = Ok (mkRun (Uncaught "Failed to initialize Rover receive UDP") t1 "", ev) /\
    shows (si_junk w) false base_display (ublox_register s (build (mkListener 2 [(0x01, 0x3B); (0x01, 0x07)]))) n (map FromPort ds0) s1 n1 t1 /\ ser_of ev = [] /\ rtk_of ev = [].
Proof.
  intros Hu Hru HJ HR HT EL HP HRp HC EU EB HN Hok0 Hb0 HM0 HX0 E1.
  assert (HS : role_listener base_display [(0x01, 0x3B); (0x01, 0x07)]).
  { split; [left; reflexivity|]. constructor; [split; unfold byte_ok; cbn; lia|]. constructor; [split; unfold byte_ok; cbn; lia|constructor]. }
  destruct (role_before base_display show_svin _ u ru 0%nat s n (si_junk w) (si_dbg w) ds0 s1 e1 xs0 Hu Hru HJ base_displays HS HR HT EL HP HRp HC HN Hok0 Hb0 HM0 HX0 E1)
    as (n1 & d1 & ea & t1 & Q1 & -> & Q2 & Q3 & Q4 & _).
  set (sl := [(0x01, 0x3B); (0x01, 0x07)]) in *. exists n1, t1, ea. split; [|auto].
  unfold base_rest. change (subscribe (subscribe (mkML 2 []) 1 7) 1 59) with (build (mkListener 2 sl)). change base_handler with (only (k_cls base_display) (k_id base_display) show_svin).
  rewrite EB, Q1. cbn [bind]. rewrite EU. reflexivity.
Qed.
Lemma rover_no_socket u ru s n w ds0 s1 e1 xs0 : uninit_ok u -> runinit_ok ru -> junk_ok (si_junk w) ->
  UReach u ru 0 s -> u_type s <> T_BASE -> u_ls s = map build [mkListener 1 [(0x02, 0x13)]] -> parsing_message (u_ubx s) = false -> rtcm_parsing (u_rtcm s) = false -> calm_parser (si_junk w) n ->
  si_udp w = false -> si_before w = ditems_bytes ds0 ->
  no_rtcm ds0 -> ditems_ok (prev (u_ubx s)) ds0 -> bytes_ok (ditems_bytes ds0) -> (forall m, In m (dsfr_msgs (inbuf (u_ubx s)) ds0) -> calm (NMsg m)) ->
  Forall2 rel_payload (dframes_of 0x01 0x3C ds0) xs0 ->
  ublox_read (ublox_register s (build (mkListener 2 [(0x01, 0x3C)]))) (ditems_bytes ds0) = Ok (s1, e1) ->
  exists n1 t1 ev, rover_rest w s n = Ok (mkRun (Uncaught "Failed to initialize Rover receive UDP") t1 "", ev) /\
    shows (si_junk w) false rover_display (ublox_register s (build (mkListener 2 [(0x01, 0x3C)]))) n (map FromPort ds0) s1 n1 t1 /\ ser_of ev = [] /\ rtk_of ev = [].
Proof.
  intros Hu Hru HJ HR HT EL HP HRp HC EU EB HN Hok0 Hb0 HM0 HX0 E1.
  assert (HS : role_listener rover_display [(0x01, 0x3C)]).
  { split; [left; reflexivity|]. constructor; [split; unfold byte_ok; cbn; lia|constructor]. }
  destruct (role_before rover_display show_rel _ u ru 0%nat s n (si_junk w) (si_dbg w) ds0 s1 e1 xs0 Hu Hru HJ rover_displays HS HR HT EL HP HRp HC HN Hok0 Hb0 HM0 HX0 E1)
    as (n1 & d1 & ea & t1 & Q1 & -> & Q2 & Q3 & Q4 & _).
  set (sl := [(0x01, 0x3C)]) in *. exists n1, t1, ea. split; [|auto].
  unfold rover_rest. change (subscribe (mkML 2 []) 1 60) with (build (mkListener 2 sl)). change rover_handler with (only (k_cls rover_display) (k_id rover_display) show_rel).
  rewrite EB, Q1. cbn [bind]. rewrite EU. reflexivity.
Qed.
