(* The dispatcher of class UBLOX. *)
From Verif Require Import Base UbxSpec UbxModel UbxProofs UbxStream UbxMain UbxHist RtcmModel RtcmSpec RtcmProofs RtcmApi UbxTx UbloxModel UbloxSpec.

Lemma ublox_read_app a b : forall s,
  ublox_read s (a ++ b) = (let* (s1, e1) := ublox_read s a in let* (s2, e2) := ublox_read s1 b in Ok (s2, e1 ++ e2)).
Proof.
  induction a as [|x a IH]; intros s; cbn [app ublox_read bind].
  - destruct (ublox_read s b) as [[s2 e2]|k]; reflexivity.
  - destruct (ublox_byte s x) as [[s1 e1]|k]; cbn [bind]; [|reflexivity]. rewrite IH.
    destruct (ublox_read s1 a) as [[s2 e2]|k]; cbn [bind]; [|reflexivity].
    destruct (ublox_read s2 b) as [[s3 e3]|k]; cbn [bind]; [|reflexivity]. rewrite app_assoc. reflexivity.
Qed.

(* ---------------------------------------------------------------- one reader active *)
Definition ubx_events (outs : list byte_out) : list event := map EvUbx (flat_map fst outs).
Definition lift_ubx (s : ublox) (r : outcome (ubx * list byte_out)) : outcome (ublox * list event) :=
  let* (x, outs) := r in Ok (uw_ubx s x, ubx_events outs).

Lemma run_ubx : forall bs s,
  (forall a b xa o, bs = a ++ b -> b <> [] -> feed (u_ls s) (u_ubx s) a = Ok (xa, o) -> parsing_message xa = true) ->
  ublox_read s bs = lift_ubx s (feed (u_ls s) (u_ubx s) bs).
Proof.
  induction bs as [|b r IH]; intros s H.
  - destruct s; reflexivity.
  - cbn [ublox_read feed]. unfold ublox_byte.
    rewrite (H [] (b :: r) (u_ubx s) []) by (reflexivity || discriminate). unfold to_ubx.
    destruct (read_cb (u_ls s) (u_ubx s) b) as [[[x c] ok]|k] eqn:E; cbn [bind]; [|reflexivity].
    rewrite IH.
    + cbn [uw_ubx u_ls u_ubx]. destruct (feed (u_ls s) x r) as [[x2 outs]|k]; cbn [lift_ubx bind]; [|reflexivity].
      unfold ubx_events. cbn [flat_map fst uw_ubx u_out u_ls u_rtcm u_nreg u_type u_rtk]. rewrite map_app. reflexivity.
    + cbn [uw_ubx u_ls u_ubx]. intros a b0 xa o Er Hb EF. subst r.
      apply (H (b :: a) b0 xa ((c, ok) :: o)); [reflexivity|exact Hb|].
      cbn [feed]. rewrite E. cbn [bind]. rewrite EF. reflexivity.
Qed.

Definition rtk_events (s : ublox) (outs : list (list (Z * list Z))) : list event :=
  flat_map (fun cs => flat_map (fun c => got_rtcm s (snd c)) cs) outs.
Definition rls (s : ublox) : list Z := repeat 0 (u_nreg s).
Definition lift_rtcm (s : ublox) (r : outcome (rtcm * list (list (Z * list Z)))) : outcome (ublox * list event) :=
  let* (x, outs) := r in Ok (uw_rtcm s x, rtk_events s outs).

Lemma run_rtcm : forall bs s,
  u_type s = T_BASE -> parsing_message (u_ubx s) = false ->
  (forall a b xa o, bs = a ++ b -> b <> [] -> rtcm_feed (rls s) (u_rtcm s) a = Ok (xa, o) -> rtcm_parsing xa = true) ->
  ublox_read s bs = lift_rtcm s (rtcm_feed (rls s) (u_rtcm s) bs).
Proof.
  induction bs as [|b r IH]; intros s HT HP H.
  - destruct s; reflexivity.
  - cbn [ublox_read rtcm_feed]. unfold ublox_byte. rewrite HP.
    rewrite (H [] (b :: r) (u_rtcm s) []) by (reflexivity || discriminate). rewrite HT, Z.eqb_refl. cbn [andb].
    unfold to_rtcm. fold (rls s).
    destruct (rtcm_byte (rls s) (u_rtcm s) b) as [[x c]|k] eqn:E; cbn [bind]; [|reflexivity].
    rewrite IH.
    + unfold rls. cbn [uw_rtcm u_nreg u_rtcm]. fold (rls s).
      destruct (rtcm_feed (rls s) x r) as [[x2 outs]|k]; cbn [lift_rtcm bind]; [|reflexivity]. reflexivity.
    + exact HT.
    + exact HP.
    + unfold rls. cbn [uw_rtcm u_nreg u_rtcm]. fold (rls s). intros a b0 xa o Er Hb EF. subst r.
      apply (H (b :: a) b0 xa (c :: o)); [reflexivity|exact Hb|].
      cbn [rtcm_feed]. rewrite E. cbn [bind]. rewrite EF. reflexivity.
Qed.

(* ---------------------------------------------------------------- prefixes of items are unfinished *)
Lemma split_prefix {A} (h : list A) : forall r b q, r ++ b = h ++ q -> (length h <= length r)%nat -> exists rest, r = h ++ rest /\ rest ++ b = q.
Proof.
  induction h as [|x h IH]; intros r b q E HL.
  - exists r. auto.
  - destruct r as [|y r]; cbn [length] in HL; [lia|]. cbn [app] in E. injection E as -> E.
    destruct (IH r b q E) as (rest & -> & Hq); [lia|]. exists rest. auto.
Qed.

Lemma hdr_prefix cls id n pl e r b :
  r ++ b = [cls; id; n mod 256; n / 256] ++ pl ++ e -> Zlen pl = n -> 1 <= n <= 2048 -> Zlen e = 2 -> b <> [] ->
  tail_ok 0xB5 (0x62 :: r).
Proof.
  intros E Hpl Hn He Hb. right. split; [reflexivity|]. exists r. split; [reflexivity|].
  destruct (Z.ltb_spec (Zlen r) 4) as [H|H]; [left; exact H|right].
  destruct (split_prefix [cls; id; n mod 256; n / 256] r b (pl ++ e) E) as (rest & -> & Hq).
  { unfold Zlen in H. cbn [length]. lia. }
  exists cls, id, n, rest. split; [reflexivity|]. split; [lia|]. right.
  assert (HZ : Zlen (rest ++ b) = Zlen (pl ++ e)) by congruence. rewrite !Zlen_app in HZ.
  assert (0 < Zlen b) by (destruct b; [congruence|rewrite Zlen_cons; pose proof (Zlen_nonneg b); lia]). lia.
Qed.

Lemma item_prefix_tail it a b :
  item_ok 0xB5 it -> is_noise it = false -> item_bytes it = a ++ b -> a <> [] -> b <> [] -> tail_ok 0xB5 a.
Proof.
  intros Hok Hn E Ha Hb. destruct a as [|x r]; [congruence|]. clear Ha.
  destruct it as [y|cls id pl|cls id pl ka kb|cls id n]; cbn [is_noise] in Hn; [discriminate| | |];
    cbn [item_ok] in Hok; cbn [item_bytes] in E; injection E as <- E.
  - destruct Hok as [_ Hl]. eapply hdr_prefix with (n := Zlen pl) (pl := pl); [symmetry; exact E|reflexivity|lia|reflexivity|exact Hb].
  - destruct Hok as [_ [Hl _]]. eapply hdr_prefix with (n := Zlen pl) (pl := pl); [symmetry; exact E|reflexivity|lia|reflexivity|exact Hb].
  - right. split; [reflexivity|]. exists r. split; [reflexivity|]. left.
    assert (HZ : Zlen (r ++ b) = 4) by (rewrite <- E; reflexivity). rewrite Zlen_app in HZ.
    assert (0 < Zlen b) by (destruct b; [congruence|rewrite Zlen_cons; pose proof (Zlen_nonneg b); lia]). lia.
Qed.

Lemma ritem_prefix_pending ls s it a b sa o :
  RSt s [] -> ritem_ok it -> bytes_ok (ritem_bytes it) -> ritem_bytes it = a ++ b -> a <> [] -> b <> [] ->
  rtcm_feed ls s a = Ok (sa, o) -> rtcm_parsing sa = true.
Proof.
  intros HS Hok Hb E Ha Hb0 EF.
  assert (Hba : bytes_ok a) by (rewrite E in Hb; apply bytes_ok_app in Hb; tauto).
  destruct (rsegment ls a s [] HS) as (its & t & E1 & Hits & Ht & HC); [constructor|exact Hba|]. cbn [app] in E1.
  destruct its as [|it' its].
  - cbn in E1. subst t. destruct HC as [(s' & outs & EF' & HS' & _)|[_ EF']]; rewrite EF in EF'; [|discriminate].
    injection EF' as <- _. destruct (rtcm_parsing sa) eqn:EP; [reflexivity|]. apply (rst_parsing sa a HS') in EP. congruence.
  - exfalso. inversion Hits as [|? ? Hi _]; subst.
    cbn [ritems_bytes flat_map] in E. rewrite <- !app_assoc in E.
    rewrite <- (app_nil_r (ritem_bytes it)) in E. apply ritem_unique in E; [|assumption|assumption].
    destruct E as [_ E]. symmetry in E. apply app_eq_nil in E. destruct E as [_ E]. apply app_eq_nil in E. tauto.
Qed.

(* ---------------------------------------------------------------- one byte to both readers *)
Lemma rnoise_byte ls s b : RSt s [] -> byte_ok b -> b <> 0xD3 -> exists s', rtcm_byte ls s b = Ok (s', []) /\ RSt s' [].
Proof.
  intros HS Hb Hne. destruct (items_feed ls s [RNoise b] HS) as (s' & E & HS' & _).
  - constructor; [exact Hne|constructor].
  - cbn. constructor; [exact Hb|constructor].
  - cbn [ritems_bytes flat_map ritem_bytes app rtcm_feed ritems_outs ritem_outs length rquiet repeat] in E.
    destruct (rtcm_byte ls s b) as [[s1 c]|k]; cbn [bind] in E; [|discriminate].
    injection E as -> ->. exists s'. auto.
Qed.

Lemma idle_parsing x : Idle x -> parsing_message x = false.
Proof. intros (_ & H & _). unfold parsing_message. rewrite H. reflexivity. Qed.
Lemma idle_prev x b : Idle x -> Idle (w_prev x b).
Proof. intros (H1 & H2 & H3 & H4). repeat split; assumption. Qed.

Lemma byte_both s b x c ok r :
  parsing_message (u_ubx s) = false -> rtcm_parsing (u_rtcm s) = false ->
  read_cb (u_ls s) (u_ubx s) b = Ok (x, c, ok) -> rtcm_byte (rls s) (u_rtcm s) b = Ok (r, []) ->
  ublox_byte s b = Ok (uw_rtcm (uw_ubx s x) r, map EvUbx c).
Proof.
  intros H1 H2 E1 E2. unfold ublox_byte. rewrite H1, H2. cbn [andb]. unfold to_ubx. rewrite E1. cbn [bind].
  unfold to_rtcm, rls in *. cbn [uw_ubx u_nreg u_rtcm]. rewrite E2. cbn [bind flat_map]. rewrite app_nil_r. reflexivity.
Qed.

(* ---------------------------------------------------------------- between items, in mode T *)
Definition idle_as (T : Z) (ls : list listener) (s : ublox) : Prop :=
  u_type s = T /\ u_ls s = map build ls /\ Idle (u_ubx s) /\ RSt (u_rtcm s) [].
Definition base_idle : list listener -> ublox -> Prop := idle_as T_BASE.
Definition same_cfg (s s' : ublox) : Prop :=
  u_type s' = u_type s /\ u_ls s' = u_ls s /\ u_nreg s' = u_nreg s /\ u_rtk s' = u_rtk s /\ u_out s' = u_out s.
Lemma same_cfg_refl s : same_cfg s s. Proof. repeat split. Qed.
Lemma same_cfg_trans a b c : same_cfg a b -> same_cfg b c -> same_cfg a c.
Proof. unfold same_cfg. intuition congruence. Qed.

Definition is_ver (d : ditem) : bool := match d with DUbx it => is_good_of 10 4 it | _ => false end.

Lemma read_noise_both T ls s b : idle_as T ls s -> byte_ok b -> b <> 0xD3 -> ~ (prev (u_ubx s) = 0xB5 /\ b = 0x62) ->
  exists s', ublox_byte s b = Ok (s', []) /\ idle_as T ls s' /\ same_cfg s s' /\ u_ubx s' = w_prev (u_ubx s) b.
Proof.
  intros (HT & HL & HI & HR) Hb Hne Hn.
  destruct (rnoise_byte (rls s) (u_rtcm s) b HR Hb Hne) as (r & E2 & HR').
  exists (uw_rtcm (uw_ubx s (w_prev (u_ubx s) b)) r). split.
  - apply (byte_both s b _ [] false); [apply idle_parsing; exact HI|apply (rst_parsing _ [] HR); reflexivity| |exact E2].
    apply read_noise; [apply HI|exact Hn].
  - split; [|split; [repeat split|reflexivity]]. repeat split; try assumption; apply HI.
Qed.

Lemma flat_quiet n : flat_map fst (quiet n) = [].
Proof. induction n as [|n IH]; [reflexivity|exact IH]. Qed.
Lemma item_outs_calls ls mem it :
  flat_map fst (item_outs ls mem it) = match it with Good cls id pl => calls_for ls cls id (item_mem mem it) | _ => [] end.
Proof.
  destruct it; cbn [item_outs]; rewrite ?flat_map_app, ?flat_quiet; try reflexivity.
  cbn [flat_map fst app]. apply app_nil_r.
Qed.

Lemma ubx_item_idle T ls s it :
  Forall listener_ok ls -> idle_as T ls s -> item_ok 0xB5 it -> is_noise it = false -> bytes_ok (0xB5 :: item_bytes it) ->
  (exists s', ublox_read s (0xB5 :: item_bytes it) = Ok (s', ditem_events ls (u_nreg s) (u_rtk s) (inbuf (u_ubx s)) (DUbx it)) /\
     idle_as T ls s' /\ same_cfg s s' /\ prev (u_ubx s') = item_last it /\ inbuf (u_ubx s') = item_mem (inbuf (u_ubx s)) it)
  \/ (is_good_of 10 4 it = true /\ ublox_read s (0xB5 :: item_bytes it) = UB UB_cstring).
Proof.
  intros Hls HB Hok Hn Hby. inversion Hby as [|? ? Hb5 Hit]; subst.
  destruct (read_noise_both T ls s 0xB5 HB Hb5) as (s1 & E1 & HB1 & HC1 & EU1); [lia|lia|].
  destruct HB1 as (HT1 & HL1 & HI1 & HR1).
  assert (HP1 : prev (u_ubx s1) = 0xB5) by (rewrite EU1; reflexivity).
  assert (HM1 : inbuf (u_ubx s1) = inbuf (u_ubx s)) by (rewrite EU1; reflexivity).
  (* the 62 *)
  destruct (item_bytes it) as [|y body] eqn:EB; [destruct it; discriminate|].
  assert (y = 0x62) as -> by (destruct it; cbn [is_noise] in Hn; [discriminate| | |]; cbn [item_bytes] in EB; congruence).
  inversion Hit as [|? ? H62 Hbody]; subst.
  destruct (rnoise_byte (rls s1) (u_rtcm s1) 0x62 HR1 H62) as (r2 & Er2 & HR2); [lia|].
  assert (Hok1 : item_ok (prev (u_ubx s1)) it) by (rewrite HP1; exact Hok).
  assert (Hiby : item_bytes_ok it) by (unfold item_bytes_ok; rewrite EB; exact Hit).
  (* what the UBX reader alone does from s1 *)
  assert (HX : exists x2 o2, read_cb (map build ls) (u_ubx s1) 0x62 = Ok (x2, [], o2)).
  { assert (HT : tail_ok (prev (u_ubx s1)) [0x62]).
    { rewrite HP1. right. split; [reflexivity|]. exists []. split; [reflexivity|]. left. reflexivity. }
    destruct (exec_tail (map build ls) (u_ubx s1) [0x62] HI1 HT) as (x' & EF & _); [constructor; [exact H62|constructor]|].
    cbn [feed] in EF. destruct (read_cb (map build ls) (u_ubx s1) 0x62) as [[[x2 c2] o2]|k]; cbn [bind] in EF; [|discriminate].
    cbn [quiet repeat length] in EF. injection EF as -> -> ->. eauto. }
  destruct HX as (x2 & o2 & Ex2).
  set (s2 := uw_rtcm (uw_ubx s1 x2) r2).
  assert (Eb2 : ublox_byte s1 0x62 = Ok (s2, [])).
  { apply (byte_both s1 0x62 x2 [] o2); [apply idle_parsing; exact HI1|apply (rst_parsing _ [] HR1); reflexivity| |exact Er2].
    rewrite HL1. exact Ex2. }
  assert (ER : ublox_read s2 body = lift_ubx s2 (feed (map build ls) x2 body)).
  { assert (Els : u_ls s2 = map build ls) by (unfold s2; cbn [uw_rtcm uw_ubx u_ls]; exact HL1).
    rewrite run_ubx; [rewrite Els; reflexivity|]. rewrite Els.
    change (u_ubx s2) with x2. intros a b xa o Eab Hb EF.
    assert (HT : tail_ok (prev (u_ubx s1)) (0x62 :: a)).
    { rewrite HP1. apply (item_prefix_tail it (0x62 :: a) b Hok Hn); [rewrite EB, Eab; reflexivity|discriminate|exact Hb]. }
    destruct (exec_tail (map build ls) (u_ubx s1) (0x62 :: a) HI1 HT) as (x' & EF' & _ & _ & HPa).
    { constructor; [exact H62|]. rewrite Eab in Hbody. apply bytes_ok_app in Hbody. tauto. }
    cbn [feed] in EF'. rewrite Ex2 in EF'. cbn [bind] in EF'. rewrite EF in EF'. cbn [bind] in EF'. injection EF' as -> _.
    apply HPa. discriminate. }
  destruct (exec_item ls (u_ubx s1) it Hls HI1 Hok1 Hiby) as [(x3 & EF & HI3 & HP3)|[Hv EF]]; rewrite EB in EF; cbn [feed] in EF; rewrite Ex2 in EF; cbn [bind] in EF.
  - left. destruct (feed (map build ls) x2 body) as [[x4 outs]|k] eqn:EFb; cbn [bind] in EF; [|discriminate].
    assert (x4 = x3) by congruence. subst x4.
    assert (EO : ([], o2) :: outs = item_outs ls (inbuf (u_ubx s1)) it) by congruence.
    exists (uw_ubx s2 x3). split.
    + cbn [ublox_read]. rewrite E1. cbn [bind]. rewrite Eb2. cbn [bind]. rewrite ER. cbn [lift_ubx bind]. cbn [app].
      do 2 f_equal. unfold ubx_events.
      change (flat_map fst outs) with (flat_map fst (([], o2) :: outs)). rewrite EO, item_outs_calls, HM1.
      destruct it; reflexivity.
    + split; [|split].
      * split; [reflexivity|]. split; [exact HL1|]. split; [exact HI3|exact HR2].
      * eapply same_cfg_trans; [exact HC1|]. repeat split.
      * destruct HP3 as (H1 & H2 & _). rewrite HM1 in H2. split; [exact H1|exact H2].
  - right. split; [exact Hv|].
    destruct (feed (map build ls) x2 body) as [[x4 outs]|k] eqn:EFb; cbn [bind] in EF; [discriminate|].
    cbn [ublox_read]. rewrite E1. cbn [bind]. rewrite Eb2. cbn [bind]. rewrite ER. cbn [lift_ubx bind]. congruence.
Qed.

Lemma rquiet_events s n : rtk_events s (rquiet n) = [].
Proof. induction n as [|n IH]; [reflexivity|exact IH]. Qed.
Lemma rtk_events_app s a b : rtk_events s (a ++ b) = rtk_events s a ++ rtk_events s b.
Proof. apply flat_map_app. Qed.
Lemma ritem_events s it : u_type s = T_BASE ->
  rtk_events s (ritem_outs (rls s) it) = match it with RGood f => repeat (EvRtk (u_rtk s) f) (u_nreg s) | _ => [] end.
Proof.
  intros HT. destruct it; cbn [ritem_outs]; rewrite ?rtk_events_app, ?rquiet_events; try reflexivity.
  unfold rtk_events. cbn [flat_map app]. rewrite app_nil_r. unfold rls, got_rtcm. rewrite HT, Z.eqb_refl.
  induction (u_nreg s) as [|n IH]; [reflexivity|]. cbn [repeat map flat_map app snd]. f_equal. exact IH.
Qed.

Lemma rtcm_item_base ls s it :
  base_idle ls s -> ritem_ok it -> is_rnoise it = false -> bytes_ok (ritem_bytes it) ->
  exists s', ublox_read s (ritem_bytes it) = Ok (s', ditem_events ls (u_nreg s) (u_rtk s) (inbuf (u_ubx s)) (DRtcm it)) /\
     base_idle ls s' /\ same_cfg s s' /\ prev (u_ubx s') = 0xD3 /\ inbuf (u_ubx s') = inbuf (u_ubx s).
Proof.
  intros (HT & HL & HI & HR) Hok Hn Hby.
  destruct (items_feed (rls s) (u_rtcm s) [it] HR) as (r' & EF & HR' & _); [constructor; [exact Hok|constructor]|cbn; rewrite app_nil_r; exact Hby|].
  cbn [ritems_bytes flat_map ritems_outs] in EF. rewrite !app_nil_r in EF.
  assert (HD : exists body, ritem_bytes it = 0xD3 :: body).
  { destruct (ritem_cases it Hok) as [(b & -> & _)|[(h & -> & _)|(h1 & h2 & q & EB & _)]]; [discriminate Hn|eexists; reflexivity|eauto]. }
  destruct HD as [body EB]. rewrite EB in *. inversion Hby as [|? ? HD3 Hbody]; subst.
  set (x1 := w_prev (u_ubx s) 0xD3).
  assert (Ex : read_cb (u_ls s) (u_ubx s) 0xD3 = Ok (x1, [], false)) by (apply read_noise; [apply HI|lia]).
  cbn [rtcm_feed] in EF. destruct (rtcm_byte (rls s) (u_rtcm s) 0xD3) as [[r1 c1]|k] eqn:Er; cbn [bind] in EF; [|discriminate].
  destruct (rtcm_feed (rls s) r1 body) as [[r2 outs]|k] eqn:Er2; cbn [bind] in EF; [|discriminate].
  assert (r2 = r') by congruence. subst r2. assert (EO : c1 :: outs = ritem_outs (rls s) it) by congruence. clear EF.
  set (s1 := uw_rtcm (uw_ubx s x1) r1).
  assert (Eb : ublox_byte s 0xD3 = Ok (s1, flat_map (fun c => got_rtcm s (snd c)) c1)).
  { unfold ublox_byte. rewrite (idle_parsing _ HI). rewrite (proj2 (rst_parsing _ [] HR) eq_refl). cbn [andb].
    unfold to_ubx. rewrite Ex. cbn [bind]. unfold to_rtcm. cbn [uw_ubx u_nreg u_rtcm]. fold (rls s). rewrite Er. cbn [bind map app]. reflexivity. }
  assert (ER : ublox_read s1 body = lift_rtcm s1 (rtcm_feed (rls s1) r1 body)).
  { apply run_rtcm; [exact HT|reflexivity + (unfold s1; cbn [uw_rtcm uw_ubx u_ubx]; unfold x1; apply idle_parsing, idle_prev; exact HI)|].
    intros a b xa o Eab Hb EF.
    apply (ritem_prefix_pending (rls s) (u_rtcm s) it (0xD3 :: a) b xa (c1 :: o) HR Hok); [rewrite EB; exact Hby|rewrite EB, Eab; reflexivity|discriminate|exact Hb|].
    cbn [rtcm_feed]. rewrite Er. cbn [bind]. change (rtcm_feed (rls s) r1 a = Ok (xa, o)) in EF. rewrite EF. reflexivity. }
  exists (uw_rtcm s1 r'). split; [|split; [|split; [|split]]].
  - cbn [ublox_read]. rewrite Eb. cbn [bind]. rewrite ER. change (rls s1) with (rls s). rewrite Er2. cbn [lift_rtcm bind].
    change (rtk_events s1 outs) with (rtk_events s outs).
    change (flat_map (fun c => got_rtcm s (snd c)) c1 ++ rtk_events s outs) with (rtk_events s (c1 :: outs)).
    rewrite EO, ritem_events by exact HT. destruct it; reflexivity.
  - split; [exact HT|]. split; [exact HL|]. split; [apply idle_prev; exact HI|exact HR'].
  - repeat split.
  - reflexivity.
  - reflexivity.
Qed.

Theorem base_demux ls ds : forall s,
  Forall listener_ok ls -> base_idle ls s -> ditems_ok (prev (u_ubx s)) ds -> bytes_ok (ditems_bytes ds) ->
  (exists s', ublox_read s (ditems_bytes ds) = Ok (s', ditems_events ls (u_nreg s) (u_rtk s) (inbuf (u_ubx s)) ds) /\
     base_idle ls s' /\ same_cfg s s')
  \/ (existsb is_ver ds = true /\ ublox_read s (ditems_bytes ds) = UB UB_cstring).
Proof.
  induction ds as [|d ds IH]; intros s Hls HB Hok Hby.
  - left. exists s. split; [reflexivity|]. split; [exact HB|apply same_cfg_refl].
  - cbn [ditems_ok] in Hok. destruct Hok as [Hd Hds]. cbn [ditems_bytes flat_map] in Hby |- *. apply bytes_ok_app in Hby. destruct Hby as [Hbd Hbds].
    assert (HSTEP : (exists s1, ublox_read s (ditem_bytes d) = Ok (s1, ditem_events ls (u_nreg s) (u_rtk s) (inbuf (u_ubx s)) d) /\
        base_idle ls s1 /\ same_cfg s s1 /\ prev (u_ubx s1) = ditem_last d /\ inbuf (u_ubx s1) = ditem_mem (inbuf (u_ubx s)) d)
        \/ (is_ver d = true /\ ublox_read s (ditem_bytes d) = UB UB_cstring)).
    { destruct d as [b|it|it]; cbn [ditem_ok ditem_bytes ditem_last ditem_mem is_ver] in *.
      - left. destruct Hd as [Hne Hn]. inversion Hbd as [|? ? Hb _]; subst.
        destruct (read_noise_both T_BASE ls s b HB Hb Hne Hn) as (s1 & E & HB1 & HC1 & EU). exists s1.
        split; [cbn [ublox_read]; rewrite E; reflexivity|]. split; [exact HB1|]. split; [exact HC1|]. rewrite EU. split; reflexivity.
      - destruct Hd as [Hi Hn]. apply ubx_item_idle; assumption.
      - destruct Hd as [Hi Hn]. left. apply rtcm_item_base; assumption. }
    rewrite ublox_read_app. destruct HSTEP as [(s1 & E & HB1 & HC1 & HP1 & HM1)|[Hv E]]; rewrite E; cbn [bind].
    + fold (ditems_bytes ds). rewrite <- HP1 in Hds.
      destruct (IH s1 Hls HB1 Hds Hbds) as [(s2 & E2 & HB2 & HC2)|[Hv E2]]; rewrite E2; cbn [bind].
      * left. exists s2. split; [|split; [exact HB2|eapply same_cfg_trans; eassumption]].
        cbn [ditems_events]. destruct HC1 as (_ & _ & EN & ER & _). rewrite EN, ER, HM1. reflexivity.
      * right. split; [cbn [existsb]; rewrite Hv; apply orb_true_r|reflexivity].
    + right. split; [cbn [existsb]; rewrite Hv; reflexivity|reflexivity].
Qed.

(* without RTCM frames the mode does not matter *)
Definition no_rtcm (ds : list ditem) : Prop := forall it, ~ In (DRtcm it) ds.
Theorem plain_demux T ls ds : forall s, no_rtcm ds ->
  Forall listener_ok ls -> idle_as T ls s -> ditems_ok (prev (u_ubx s)) ds -> bytes_ok (ditems_bytes ds) ->
  (exists s', ublox_read s (ditems_bytes ds) = Ok (s', ditems_events ls (u_nreg s) (u_rtk s) (inbuf (u_ubx s)) ds) /\
     idle_as T ls s' /\ same_cfg s s')
  \/ (existsb is_ver ds = true /\ ublox_read s (ditems_bytes ds) = UB UB_cstring).
Proof.
  induction ds as [|d ds IH]; intros s HN Hls HB Hok Hby.
  - left. exists s. split; [reflexivity|]. split; [exact HB|apply same_cfg_refl].
  - cbn [ditems_ok] in Hok. destruct Hok as [Hd Hds]. cbn [ditems_bytes flat_map] in Hby |- *. apply bytes_ok_app in Hby. destruct Hby as [Hbd Hbds].
    assert (HSTEP : (exists s1, ublox_read s (ditem_bytes d) = Ok (s1, ditem_events ls (u_nreg s) (u_rtk s) (inbuf (u_ubx s)) d) /\
        idle_as T ls s1 /\ same_cfg s s1 /\ prev (u_ubx s1) = ditem_last d /\ inbuf (u_ubx s1) = ditem_mem (inbuf (u_ubx s)) d)
        \/ (is_ver d = true /\ ublox_read s (ditem_bytes d) = UB UB_cstring)).
    { destruct d as [b|it|it]; cbn [ditem_ok ditem_bytes ditem_last ditem_mem is_ver] in *.
      - left. destruct Hd as [Hne Hn]. inversion Hbd as [|? ? Hb _]; subst.
        destruct (read_noise_both T ls s b HB Hb Hne Hn) as (s1 & E & HB1 & HC1 & EU). exists s1.
        split; [cbn [ublox_read]; rewrite E; reflexivity|]. split; [exact HB1|]. split; [exact HC1|]. rewrite EU. split; reflexivity.
      - destruct Hd as [Hi Hn]. apply ubx_item_idle; assumption.
      - exfalso. apply (HN it). left. reflexivity. }
    assert (HN' : no_rtcm ds) by (intros it Hin; apply (HN it); right; exact Hin).
    rewrite ublox_read_app. destruct HSTEP as [(s1 & E & HB1 & HC1 & HP1 & HM1)|[Hv E]]; rewrite E; cbn [bind].
    + fold (ditems_bytes ds). rewrite <- HP1 in Hds.
      destruct (IH s1 HN' Hls HB1 Hds Hbds) as [(s2 & E2 & HB2 & HC2)|[Hv E2]]; rewrite E2; cbn [bind].
      * left. exists s2. split; [|split; [exact HB2|eapply same_cfg_trans; eassumption]].
        cbn [ditems_events]. destruct HC1 as (_ & _ & EN & ER & _). rewrite EN, ER, HM1. reflexivity.
      * right. split; [cbn [existsb]; rewrite Hv; apply orb_true_r|reflexivity].
    + right. split; [cbn [existsb]; rewrite Hv; reflexivity|reflexivity].
Qed.
