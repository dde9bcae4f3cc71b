(* C60: the navigation parser inside a UBLOX object (ublox.h:79, ublox.cpp:32): from bytes to ephemerides. *)
From Verif Require Import Base UbxSpec UbxModel UbxProofs UbxStream UbxMain UbxMore UbxHist UbxApi
  UbxTx UbxTxSpec UbxTxApi CrcSpec RtcmModel RtcmSpec RtcmProofs RtcmApi UbloxModel UbloxSpec UbloxProofs UbloxApi UbloxThm
  BitModel UtcModel UtcSpec Dbl NavModel NavSpec NavGpsSpec NavObj NavGpsThm.

(* ---------------------------------------------------------------- model *)
(* NavParser::got_ubx nav.h:169-173 for every call made to it, in order.  The parser does not touch the UBLOX object. *)
Definition to_nav (id : Z) (e : event) : list nop :=
  match e with EvUbx c => if c_lid c =? id then [NMsg (sfrbx_of (c_msg c))] else [] | _ => [] end.
(* UBLOX::read_cb ublox.cpp:120-139 with the parser member attached: byte by byte, the parser runs inside the call *)
Fixpoint dev_read (junk : list Z) (id : Z) (s : ublox) (n : nav) (bs : list Z) : outcome (ublox * nav * list event * list nev) :=
  match bs with
  | [] => Ok (s, n, [], [])
  | b :: r =>
      let* (s1, e1) := ublox_byte s b in
      let* (n1, v1) := nav_run junk n (flat_map (to_nav id) e1) in
      let* (s2, n2, e2, v2) := dev_read junk id s1 n1 r in
      Ok (s2, n2, e1 ++ e2, v1 ++ v2)
  end.

(* ---------------------------------------------------------------- specification *)
(* the RXM-SFRBX messages in a segmented stream, in order; mem: the receive buffer before it *)
Fixpoint sfr_msgs (mem : list Z) (its : list item) : list sfrbx :=
  match its with
  | [] => []
  | it :: r =>
      match it with
      | Good cls id pl => if (cls =? 0x02) && (id =? 0x13) then [sfrbx_of (pl ++ skipn (length pl) mem)] else []
      | _ => []
      end ++ sfr_msgs (item_mem mem it) r
  end.
Fixpoint dsfr_msgs (mem : list Z) (ds : list ditem) : list sfrbx :=
  match ds with
  | [] => []
  | d :: r => match d with DUbx it => sfr_msgs mem [it] | _ => [] end ++ dsfr_msgs (ditem_mem mem d) r
  end.
(* payload bytes the decoder of a constellation reads: header of 8 bytes and 10, 8 or 4 words; other constellations: none
   of the words *)
Definition sfr_need (gnss : Z) : Z := if gnss =? 0 then 48 else if gnss =? 2 then 40 else if gnss =? 6 then 24 else 4.

(* ---------------------------------------------------------------- proofs *)
Lemma dev_read_split junk id : forall bs s n s' ev, ublox_read s bs = Ok (s', ev) ->
  dev_read junk id s n bs = (let* (n', v) := nav_run junk n (flat_map (to_nav id) ev) in Ok (s', n', ev, v)).
Proof.
  induction bs as [|b r IH]; intros s n s' ev H; cbn [ublox_read] in H; cbn [dev_read].
  - injection H as <- <-. reflexivity.
  - destruct (ublox_byte s b) as [[s1 e1]|k]; cbn [bind] in *; [|discriminate].
    destruct (ublox_read s1 r) as [[s2 e2]|k] eqn:E2; cbn [bind] in *; [|discriminate].
    assert (s2 = s') by congruence. assert (ev = e1 ++ e2) by congruence. subst s2 ev. rewrite flat_map_app, nav_run_app.
    destruct (nav_run junk n (flat_map (to_nav id) e1)) as [[n1 v1]|k]; cbn [bind]; [|reflexivity].
    rewrite (IH s1 n1 s' e2 E2). destruct (nav_run junk n1 (flat_map (to_nav id) e2)) as [[n2 v2]|k]; reflexivity.
Qed.

Lemma nav_calls_for nid ls cls id msg : (forall l, In l ls -> lid l <> nid) ->
  flat_map (to_nav nid) (map EvUbx (calls_for (mkListener nid [(0x02, 0x13)] :: ls) cls id msg)) =
  if (cls =? 0x02) && (id =? 0x13) then [NMsg (sfrbx_of msg)] else [].
Proof.
  intros HL.
  assert (H0 : flat_map (to_nav nid) (map EvUbx (calls_for ls cls id msg)) = []).
  { unfold calls_for. induction ls as [|l ls IH]; [reflexivity|]. cbn [filter].
    assert (IH' := IH (fun x Hx => HL x (or_intror Hx))). destruct (wants l cls id); [|exact IH'].
    cbn [map flat_map to_nav c_lid]. destruct (Z.eqb_spec (lid l) nid) as [E|_]; [exfalso; apply (HL l (or_introl eq_refl) E)|]. exact IH'. }
  unfold calls_for in *. cbn [filter]. unfold wants at 1. cbn [subs existsb].
  rewrite orb_false_r. change (pair_eqb (cls, id) (2, 19)) with ((cls =? 2) && (id =? 19)). destruct ((cls =? 2) && (id =? 19)); [|exact H0].
  cbn [map flat_map to_nav c_lid lid c_msg]. rewrite Z.eqb_refl, H0. reflexivity.
Qed.

Lemma nav_outs nid ls : (forall l, In l ls -> lid l <> nid) -> forall its mem,
  flat_map (to_nav nid) (map EvUbx (flat_map fst (items_outs (mkListener nid [(0x02, 0x13)] :: ls) mem its))) = map NMsg (sfr_msgs mem its).
Proof.
  intros HL. assert (HQ : forall k, flat_map fst (quiet k) = @nil call) by (unfold quiet; induction k; [reflexivity|exact IHk]).
  induction its as [|it r IH]; intros mem; [reflexivity|].
  cbn [items_outs sfr_msgs]. rewrite flat_map_app, map_app, flat_map_app, map_app, IH. f_equal.
  destruct it as [b|c i pl|c i pl ka kb|c i m]; cbn [item_outs]; try (rewrite HQ; reflexivity).
  rewrite flat_map_app, HQ. cbn [app flat_map fst]. rewrite app_nil_r. rewrite (nav_calls_for nid ls c i _ HL).
  cbn [item_mem]. destruct ((c =? 2) && (i =? 19)); reflexivity.
Qed.

Lemma nav_input u ru n s ls nid its t s' ev :
  uninit_ok u -> runinit_ok ru -> UReach u ru n s -> u_type s <> T_BASE ->
  Forall listener_ok ls -> (forall l, In l ls -> lid l <> nid) -> u_ls s = map build (mkListener nid [(0x02, 0x13)] :: ls) ->
  parsing_message (u_ubx s) = false -> items_ok (prev (u_ubx s)) its -> tail_ok (items_last (prev (u_ubx s)) its) t ->
  bytes_ok (items_bytes its ++ t) -> ublox_read s (items_bytes its ++ t) = Ok (s', ev) ->
  flat_map (to_nav nid) ev = map NMsg (sfr_msgs (inbuf (u_ubx s)) its).
Proof.
  intros Hu Hru HR HT Hls HL EL HP Hok Ht Hb E.
  assert (Hls' : Forall listener_ok (mkListener nid [(0x02, 0x13)] :: ls)).
  { constructor; [|exact Hls]. constructor; [|constructor]. split; unfold byte_ok; cbn; lia. }
  destruct (ureach_inv u ru n s Hu Hru HR) as ((K1 & _) & _).
  pose proof (inv_idle _ K1 HP) as HId. destruct K1 as (_ & _ & _ & HSm).
  destruct (nonbase_reach u ru n s _ Hu Hru HR HT Hb) as [(s1 & outs & E1 & EF)|[[E1 _]|E1]]; rewrite E in E1; [|discriminate..].
  assert (ev = map EvUbx (flat_map fst outs)) by congruence. subst ev. rewrite EL, feed_app in EF.
  apply bytes_ok_app in Hb. destruct Hb as [Hb1 Hb2].
  destruct (exec_items _ its (u_ubx s) Hls' HId HSm Hok Hb1) as [(x & EX & HId1 & _ & HPo)|[_ EX]]; rewrite EX in EF; cbn [bind] in EF; [|discriminate].
  assert (Hp1 : prev x = items_last (prev (u_ubx s)) its) by apply HPo.
  destruct (exec_tail (map build (mkListener nid [(2, 19)] :: ls)) x t HId1) as (y & EY & _); [rewrite Hp1; exact Ht|exact Hb2|].
  rewrite EY in EF. cbn [bind] in EF.
  assert (EO : outs = items_outs (mkListener nid [(2, 19)] :: ls) (inbuf (u_ubx s)) its ++ quiet (length t)) by congruence.
  rewrite EO, flat_map_app. assert (HQ : forall k, flat_map fst (quiet k) = @nil call) by (unfold quiet; induction k; [reflexivity|assumption]).
  rewrite HQ, app_nil_r. apply nav_outs. exact HL.
Qed.

Lemma nav_input_base u ru n s ls nid ds s' ev :
  uninit_ok u -> runinit_ok ru -> UReach u ru n s -> u_type s = T_BASE ->
  Forall listener_ok ls -> (forall l, In l ls -> lid l <> nid) -> u_ls s = map build (mkListener nid [(0x02, 0x13)] :: ls) ->
  parsing_message (u_ubx s) = false -> rtcm_parsing (u_rtcm s) = false -> ditems_ok (prev (u_ubx s)) ds -> bytes_ok (ditems_bytes ds) ->
  ublox_read s (ditems_bytes ds) = Ok (s', ev) ->
  flat_map (to_nav nid) ev = map NMsg (dsfr_msgs (inbuf (u_ubx s)) ds).
Proof.
  intros Hu Hru HR HT Hls HL EL HP HRp Hok Hb E.
  assert (Hls' : Forall listener_ok (mkListener nid [(0x02, 0x13)] :: ls)).
  { constructor; [|exact Hls]. constructor; [|constructor]. split; unfold byte_ok; cbn; lia. }
  destruct (demux_reach u ru n s _ ds Hu Hru HR HT Hls' EL HP HRp Hok Hb) as [(x & EX & _)|[_ EX]]; rewrite E in EX; [|discriminate].
  assert (EV : ev = ditems_events (mkListener nid [(2, 19)] :: ls) n (u_rtk s) (inbuf (u_ubx s)) ds) by congruence. subst ev. clear E EX Hok Hb.
  assert (HRt : forall k i f, flat_map (to_nav nid) (repeat (EvRtk i f) k) = []) by (induction k; intros; [reflexivity|exact (IHk i f)]).
  generalize (inbuf (u_ubx s)) as mem. induction ds as [|d ds IH]; intros mem; [reflexivity|].
  cbn [ditems_events dsfr_msgs]. rewrite flat_map_app, map_app, IH. f_equal.
  destruct d as [b|it|it]; cbn [ditem_events].
  - reflexivity.
  - destruct it as [b|c i pl|c i pl ka kb|c i m]; try reflexivity. rewrite (nav_calls_for nid ls c i _ HL). cbn [sfr_msgs].
    rewrite app_nil_r. destruct ((c =? 2) && (i =? 19)); reflexivity.
  - destruct it; try reflexivity. apply HRt.
Qed.

(* ---------------------------------------------------------------- which bytes matter *)
Lemma nth_app_l (a b : list Z) k : (k < length a)%nat -> nth k (a ++ b) 0 = nth k a 0.
Proof. intros H. apply app_nth1. exact H. Qed.
Lemma nth_firstn (l : list Z) : forall n k, (k < n)%nat -> nth k (firstn n l) 0 = nth k l 0.
Proof. induction l as [|x l IH]; intros [|n] [|k] H; try reflexivity; try lia. cbn. apply IH. lia. Qed.
Lemma nth_skipn (l : list Z) : forall n k, nth k (skipn n l) 0 = nth (n + k) l 0.
Proof. induction l as [|x l IH]; intros [|n] k; try reflexivity; [destruct k; reflexivity|]. cbn. apply IH. Qed.
Lemma dw_nth msg k : (k < 40)%nat -> nth k (sf_dw (sfrbx_of msg)) 0 = nth (8 + k) msg 0.
Proof. intros H. cbn [sfrbx_of sf_dw]. rewrite nth_firstn by exact H. apply nth_skipn. Qed.
Lemma swap_ext n a b : (forall k, (k < 4 * n)%nat -> nth k a 0 = nth k b 0) -> swap_words n a = swap_words n b.
Proof.
  intros H. unfold swap_words. rewrite !flat_map_concat_map. f_equal. apply map_ext_in. intros i Hi. apply in_seq in Hi.
  rewrite !H by lia. reflexivity.
Qed.

Lemma complete_frames junk s pl x y : 4 <= Zlen pl -> sfr_need (nth 0 pl 0) <= Zlen pl ->
  convertUBX junk s (sfrbx_of (pl ++ x)) = convertUBX junk s (sfrbx_of (pl ++ y)).
Proof.
  intros H4 HN. unfold Zlen, sfr_need in *.
  assert (HB : forall k z, Z.of_nat k < Z.of_nat (length pl) -> nth k (pl ++ z) 0 = nth k pl 0) by (intros; apply nth_app_l; lia).
  unfold convertUBX.
  change (sf_gnss (sfrbx_of (pl ++ x))) with (nth 0 (pl ++ x) 0). change (sf_gnss (sfrbx_of (pl ++ y))) with (nth 0 (pl ++ y) 0).
  change (sf_sv (sfrbx_of (pl ++ x))) with (nth 1 (pl ++ x) 0). change (sf_sv (sfrbx_of (pl ++ y))) with (nth 1 (pl ++ y) 0).
  change (sf_freq (sfrbx_of (pl ++ x))) with (nth 3 (pl ++ x) 0). change (sf_freq (sfrbx_of (pl ++ y))) with (nth 3 (pl ++ y) 0).
  rewrite !(HB 0%nat), !(HB 1%nat), !(HB 3%nat) by lia.
  assert (HW : forall n, 8 + 4 * Z.of_nat n <= Z.of_nat (length pl) -> (n <= 10)%nat -> swap_words n (sf_dw (sfrbx_of (pl ++ x))) = swap_words n (sf_dw (sfrbx_of (pl ++ y)))).
  { intros n Hn Hn'. apply swap_ext. intros k Hk. rewrite !dw_nth by lia. rewrite !HB by lia. reflexivity. }
  destruct (Z.eqb_spec (nth 0 pl 0) 6) as [E6|N6].
  { rewrite E6 in HN. cbn [Z.eqb Pos.eqb] in HN.
    destruct (slot _ _ _) as [l i]. unfold decodeGlonass. rewrite HW by lia. reflexivity. }
  destruct (slot _ _ _) as [l i]. destruct (Z.eqb_spec (nth 0 pl 0) 0) as [E0|N0].
  { assert (ED : sf_dw (sfrbx_of (pl ++ x)) = sf_dw (sfrbx_of (pl ++ y))).
    { cbn [sfrbx_of sf_dw]. rewrite !skipn_app, !firstn_app. replace (40 - length (skipn 8 pl))%nat with 0%nat by (rewrite skipn_length; lia). reflexivity. }
    rewrite ED. reflexivity. }
  destruct (Z.eqb_spec (nth 0 pl 0) 2) as [E2|N2]; [|reflexivity].
  unfold decodeGalileo. rewrite HW by lia. reflexivity.
Qed.
(* the bytes numWords, chn, version and the two reserved ones *)
Lemma header_ignored junk s b0 b1 b2 b3 r2 h h' w : length h = 4%nat -> length h' = 4%nat ->
  convertUBX junk s (sfrbx_of ([b0; b1; b2; b3] ++ h ++ w)) = convertUBX junk s (sfrbx_of ([b0; b1; r2; b3] ++ h' ++ w)).
Proof. intros H H'. do 4 (destruct h as [|? h]; [discriminate|]). do 4 (destruct h' as [|? h']; [discriminate|]).
  destruct h; [|discriminate]. destruct h'; [|discriminate]. reflexivity. Qed.

(* ---------------------------------------------------------------- frames shorter than the decoder assumes *)
Lemma short_frame mem p g sv r f : length mem = 2048%nat -> (48 <= length p <= 2048)%nat ->
  sfr_msgs mem [Good 0x02 0x13 p; Noise 0xB5; Good 0x02 0x13 [g; sv; r; f]] =
  [sfrbx_of p; mkSf g sv f (sf_dw (sfrbx_of p))].
Proof.
  intros HM HP. cbn [sfr_msgs]. change ((2 =? 2) && (19 =? 19)) with true. cbn [app item_mem].
  assert (E1 : sfrbx_of (p ++ skipn (length p) mem) = sfrbx_of p).
  { unfold sfrbx_of. rewrite !nth_app_l by lia. rewrite skipn_app, firstn_app. replace (40 - length (skipn 8 p))%nat with 0%nat by (rewrite skipn_length; lia).
    cbn [firstn]. rewrite app_nil_r. reflexivity. }
  rewrite E1. f_equal. f_equal. set (q := p ++ skipn (length p) mem).
  assert (EQ : sf_dw (sfrbx_of p) = sf_dw (sfrbx_of q)) by (unfold q; rewrite E1; reflexivity). rewrite EQ.
  assert (HQ : (48 <= length q)%nat) by (unfold q; rewrite app_length; lia). clearbody q. clear - HQ.
  do 8 (destruct q as [|? q]; [cbn in HQ; lia|]). reflexivity.
Qed.
