(* Base mode: every correction frame handed to the radio is a contiguous piece of what was received; frames are disjoint and in
   order.  Then the whole path base -> lossy datagram link -> rover. *)
From Verif Require Import Base UbxSpec UbxModel UbxProofs UbxStream UbxMain UbxMore UbxHist UbxApi
  UbxTx UbxTxSpec UbxTxApi CrcSpec RtcmModel RtcmSpec RtcmProofs RtcmApi UbloxModel UbloxSpec UbloxProofs UbloxApi UbloxThm.

(* ---------------------------------------------------------------- specification *)
(* the frames fs are disjoint contiguous pieces of bs, in this order *)
Inductive woven : list (list Z) -> list Z -> Prop :=
| woven_nil g : woven [] g
| woven_cons g f r fs : woven fs r -> woven (f :: fs) (g ++ f ++ r).

Lemma woven_cons0 f r fs : woven fs r -> woven (f :: fs) (f ++ r).
Proof. intros H. exact (woven_cons [] f r fs H). Qed.
Lemma woven_skip g fs r : woven fs r -> woven fs (g ++ r).
Proof. intros H. destruct H as [g'|g' f r fs H]; [constructor|]. rewrite app_assoc. constructor. exact H. Qed.
Lemma woven_bytes fs bs : woven fs bs -> bytes_ok bs -> Forall bytes_ok fs.
Proof.
  intros H. induction H as [g|g f r fs H IH]; intros Hb; [constructor|].
  apply bytes_ok_app in Hb. destruct Hb as [_ Hb]. apply bytes_ok_app in Hb. destruct Hb as [Hf Hr].
  constructor; [exact Hf|apply IH; exact Hr].
Qed.
Lemma woven_in fs bs f : woven fs bs -> In f fs -> exists a c, bs = a ++ f ++ c.
Proof.
  intros H. induction H as [g|g f' r fs H IH]; intros Hin; [destruct Hin|]. destruct Hin as [->|Hin]; [eauto|].
  destruct (IH Hin) as (a & c & ->). exists (g ++ f' ++ a), c. rewrite <- !app_assoc. reflexivity.
Qed.

(* ---------------------------------------------------------------- one byte *)
(* what one byte did to the pending correction bytes p: frames handed over, new pending bytes *)
Definition pend (p : list Z) (b : Z) (fs : list (list Z)) (p' : list Z) : Prop :=
  (p' = p ++ [b] /\ fs = []) \/ (p' = [] /\ (fs = [] \/ (fs = [p ++ [b]] /\ good_rtcm (p ++ [b])))).

Lemma to_rtcm_pend s b p s' ev : RSt (u_rtcm s) p -> byte_ok b -> u_type s = T_BASE -> to_rtcm s b = Ok (s', ev) ->
  same_cfg s s' /\ u_ubx s' = u_ubx s /\ exists p' fs, RSt (u_rtcm s') p' /\ rtk_of ev = copies s fs /\ pend p b fs p'.
Proof.
  intros HR Hb HT E. unfold to_rtcm in E. fold (rls s) in E.
  destruct (rstep (rls s) (u_rtcm s) p b HR Hb (rst_pending_bytes _ _ HR)) as [r E1 HR' _|r it cs E1 HR' Hit EB EO _|E1 HL]; rewrite E1 in E; cbn [bind] in E; [| |discriminate].
  - cbn [flat_map] in E. assert (s' = uw_rtcm s r /\ ev = []) as [-> ->] by (split; congruence). split; [repeat split|]. split; [reflexivity|].
    exists (p ++ [b]), []. split; [exact HR'|]. split; [reflexivity|]. left. auto.
  - assert (s' = uw_rtcm s r /\ ev = flat_map (fun c => got_rtcm s (snd c)) cs) as [-> ->] by (split; congruence). split; [repeat split|]. split; [reflexivity|].
    destruct it as [y|h|f|f]; cbn [ritem_outs] in EO.
    1,2,4: assert (cs = []) as -> by (apply (f_equal (fun l => last l [])) in EO; rewrite last_last in EO; rewrite <- EO; apply rquiet_last);
      exists [], []; split; [exact HR'|]; split; [reflexivity|]; right; auto.
    assert (cs = map (fun l => (l, f)) (rls s)) as ->.
    { apply (f_equal (fun l => last l [])) in EO. rewrite !last_last in EO. symmetry. exact EO. }
    exists [], [f]. split; [exact HR'|]. split.
    + unfold copies, rls, got_rtcm. cbn [flat_map]. rewrite app_nil_r, HT, Z.eqb_refl.
      induction (u_nreg s) as [|m IH]; [reflexivity|]. cbn [repeat map flat_map snd app rtk_of]. f_equal. exact IH.
    + right. split; [reflexivity|]. right. cbn [ritem_bytes] in EB. rewrite <- EB. split; [reflexivity|exact Hit].
Qed.

Lemma base_byte s b p s' ev : Inv (u_ubx s) -> RSt (u_rtcm s) p -> u_type s = T_BASE -> (p = [] \/ parsing_message (u_ubx s) = false) ->
  byte_ok b -> ublox_byte s b = Ok (s', ev) ->
  same_cfg s s' /\ Inv (u_ubx s') /\ exists p' fs, RSt (u_rtcm s') p' /\ (p' = [] \/ parsing_message (u_ubx s') = false) /\
    rtk_of ev = copies s fs /\ pend p b fs p'.
Proof.
  intros HI HR HT HP Hb E. unfold ublox_byte in E. destruct (parsing_message (u_ubx s)) eqn:EP.
  - destruct HP as [->|HP]; [|discriminate].
    destruct (to_ubx_step s b HI Hb) as [(s1 & e1 & x & c & o & E1 & _ & -> & -> & HI')|[E1 _]]; rewrite E1 in E; [|discriminate].
    assert (s' = uw_ubx s x /\ ev = map EvUbx c) as [-> ->] by (split; congruence). split; [repeat split|]. split; [exact HI'|].
    exists [], []. split; [exact HR|]. split; [left; reflexivity|]. split; [apply rtk_of_ubx|]. right. auto.
  - destruct (rtcm_parsing (u_rtcm s) && (u_type s =? T_BASE)) eqn:EB.
    + destruct (to_rtcm_pend s b p s' ev HR Hb HT E) as (HC & EU & p' & fs & HR' & EV & HQ).
      split; [exact HC|]. rewrite EU. split; [exact HI|]. exists p', fs. auto.
    + rewrite HT, Z.eqb_refl, Bool.andb_true_r in EB. apply (rst_parsing _ _ HR) in EB. subst p.
      destruct (to_ubx_step s b HI Hb) as [(s1 & e1 & x & c & o & E1 & ER & -> & -> & HI')|[E1 _]]; rewrite E1 in E; cbn [bind] in E; [|discriminate].
      destruct (to_rtcm (uw_ubx s x) b) as [[s2 e2]|k] eqn:E2; cbn [bind] in E; [|discriminate].
      assert (s2 = s' /\ ev = map EvUbx c ++ e2) as [-> ->] by (split; congruence).
      destruct (to_rtcm_pend (uw_ubx s x) b [] s' e2 HR Hb HT E2) as (HC & EU & p' & fs & HR' & EV & HQ).
      split; [exact HC|]. rewrite EU. split; [exact HI'|]. exists p', fs. split; [exact HR'|].
      rewrite rtk_of_app, rtk_of_ubx, EV. split; [|split; [reflexivity|exact HQ]].
      destruct HQ as [[-> ->]|[-> _]]; [|left; reflexivity]. right.
      destruct (rst_tail _ _ HR') as [Ht|(r & Ht & _)]; [discriminate|]. cbn [app] in Ht. injection Ht as -> _.
      pose proof (inv_idle _ HI EP) as HId. destruct HId as (Hst & _). cbn [uw_ubx u_ubx]. unfold read_cb, read_switch in ER. rewrite Hst in ER.
      change (0xD3 =? START_BYTE_2) with false in ER. cbn [andb bind] in ER. rewrite Hst in ER. cbn [is_ckb] in ER.
      assert (x = w_prev (u_ubx s) 0xD3) as -> by congruence. exact EP.
Qed.

(* ---------------------------------------------------------------- a stream *)
Lemma base_stream bs : forall s p s' ev, Inv (u_ubx s) -> RSt (u_rtcm s) p -> u_type s = T_BASE -> (p = [] \/ parsing_message (u_ubx s) = false) ->
  bytes_ok bs -> ublox_read s bs = Ok (s', ev) ->
  exists fs, rtk_of ev = copies s fs /\ Forall good_rtcm fs /\ woven fs (p ++ bs).
Proof.
  induction bs as [|b bs IH]; intros s p s' ev HI HR HT HP Hb E; cbn [ublox_read] in E.
  - assert (ev = []) as -> by congruence. exists []. repeat split; constructor.
  - inversion Hb as [|? ? Hb0 Hb1]; subst. destruct (ublox_byte s b) as [[s1 e1]|k] eqn:E1; cbn [bind] in E; [|discriminate].
    destruct (ublox_read s1 bs) as [[s2 e2]|k] eqn:E2; cbn [bind] in E; [|discriminate].
    assert (ev = e1 ++ e2) as -> by congruence.
    destruct (base_byte s b p s1 e1 HI HR HT HP Hb0 E1) as (HC & HI' & p' & fs & HR' & HP' & EV & HQ).
    assert (HT' : u_type s1 = T_BASE) by (destruct HC as (A & _); congruence).
    destruct (IH s1 p' s2 e2 HI' HR' HT' HP' Hb1 E2) as (fs2 & EV2 & HG & HW).
    exists (fs ++ fs2). rewrite rtk_of_app, EV, EV2, copies_app, (copies_same s s1 fs2 HC). split; [reflexivity|].
    change (b :: bs) with ([b] ++ bs). rewrite app_assoc.
    destruct HQ as [[-> ->]|[-> [->|[-> HG1]]]]; cbn [app] in *.
    + auto.
    + split; [exact HG|]. apply woven_skip. exact HW.
    + split; [constructor; assumption|]. apply woven_cons0. exact HW.
Qed.

Lemma forwarded_received u ru n s bs s' ev :
  uninit_ok u -> runinit_ok ru -> UReach u ru n s -> u_type s = T_BASE -> rtcm_parsing (u_rtcm s) = false -> bytes_ok bs ->
  ublox_read s bs = Ok (s', ev) ->
  exists fs, woven fs bs /\ Forall good_rtcm fs /\ rtk_of ev = flat_map (fun f => repeat (u_rtk s, f) n) fs.
Proof.
  intros Hu Hru HR HT HP Hb E. destruct (ureach_inv u ru n s Hu Hru HR) as ((K1 & (p & K2) & _ & _) & EN).
  apply (rst_parsing _ _ K2) in HP. subst p.
  destruct (base_stream bs s [] s' ev K1 K2 HT (or_introl eq_refl) Hb E) as (fs & EV & HG & HW). exists fs.
  unfold copies in EV. rewrite EN in EV. auto.
Qed.

(* ---------------------------------------------------------------- base -> link -> rover *)
Lemma good_frames_items fs : Forall good_rtcm fs -> Forall ritem_ok (map RGood fs) /\ ritems_bytes (map RGood fs) = concat fs.
Proof.
  intros H. induction H as [|f fs Hf H [I1 I2]]; [split; [constructor|reflexivity]|]. split; [constructor; assumption|].
  unfold ritems_bytes in *. cbn [map flat_map concat ritem_bytes]. rewrite I2. reflexivity.
Qed.
Lemma good_len f : good_rtcm f -> 7 <= Zlen f <= 1024.
Proof. intros (n & Hn & Hf & _). rewrite (shape_len n f Hf). lia. Qed.

Lemma rover_takes_frames ru d ws : runinit_ok ru -> RReach ru d -> rtcm_parsing d = false -> Forall good_rtcm ws -> Forall bytes_ok ws ->
  exists d', rover_chunks d ws = Ok (d', map EvSer ws) /\ rtcm_parsing d' = false.
Proof.
  intros Hru HR HP HG HB. rewrite rover_feed. destruct (good_frames_items ws HG) as [H1 H2]. rewrite <- H2.
  assert (Hb : bytes_ok (ritems_bytes (map RGood ws))).
  { rewrite H2. clear -HB. induction HB; [constructor|]. cbn [concat]. apply bytes_ok_app. split; assumption. }
  destruct (stream_feed ru d [] (map RGood ws) Hru HR HP H1 Hb) as (d' & E & HP'). exists d'. rewrite E. cbn [bind]. auto.
Qed.

(* the link: what arrives is any list of sent datagrams (lost, duplicated, reordered, never altered) *)
Definition link (sent arrived : list (list Z)) : Prop := incl arrived sent.

Lemma base_to_rover u ru n s bs s' ev ru' d arrived :
  uninit_ok u -> runinit_ok ru -> UReach u ru n s -> u_type s = T_BASE -> rtcm_parsing (u_rtcm s) = false -> bytes_ok bs ->
  ublox_read s bs = Ok (s', ev) -> runinit_ok ru' -> RReach ru' d -> rtcm_parsing d = false -> link (map snd (rtk_of ev)) arrived ->
  exists d', rover_chunks d arrived = Ok (d', map EvSer arrived) /\ rtcm_parsing d' = false /\
    forall w, In w arrived -> good_rtcm w /\ Zlen w <= 1024 /\ exists a c, bs = a ++ w ++ c.
Proof.
  intros Hu Hru HR HT HP Hb E Hru' HD HPd HL.
  destruct (forwarded_received u ru n s bs s' ev Hu Hru HR HT HP Hb E) as (fs & HW & HG & EV).
  assert (HIN : forall w, In w arrived -> In w fs).
  { intros w Hw. apply HL in Hw. rewrite EV in Hw. clear -Hw. apply in_map_iff in Hw. destruct Hw as ([i f] & <- & Hw). apply in_flat_map in Hw.
    destruct Hw as (f' & Hf & Hw). apply repeat_spec in Hw. cbn. congruence. }
  assert (HGa : Forall good_rtcm arrived) by (apply Forall_forall; intros w Hw; exact (proj1 (Forall_forall _ _) HG w (HIN w Hw))).
  pose proof (woven_bytes fs bs HW Hb) as HBf.
  assert (HBa : Forall bytes_ok arrived) by (apply Forall_forall; intros w Hw; exact (proj1 (Forall_forall _ _) HBf w (HIN w Hw))).
  destruct (rover_takes_frames ru' d arrived Hru' HD HPd HGa HBa) as (d' & E' & HP'). exists d'. split; [exact E'|]. split; [exact HP'|].
  intros w Hw. pose proof (proj1 (Forall_forall _ _) HGa w Hw) as G. split; [exact G|]. split; [apply good_len; exact G|].
  apply (woven_in fs bs w HW (HIN w Hw)).
Qed.

(* with a perfect link and one registration: the rover's receiver gets exactly the good frames of the stream, in order *)
Definition good_frames (ds : list ditem) : list (list Z) := flat_map (fun d => match d with DRtcm (RGood f) => [f] | _ => [] end) ds.
Lemma rtk_ditems ls i : forall ds mem, rtk_of (ditems_events ls 1 i mem ds) = map (pair i) (good_frames ds).
Proof.
  induction ds as [|d ds IH]; intros mem; [reflexivity|]. cbn [ditems_events]. rewrite rtk_of_app, IH.
  change (good_frames (d :: ds)) with ((match d with DRtcm (RGood f) => [f] | _ => [] end) ++ good_frames ds). rewrite map_app. f_equal.
  destruct d as [b|it|it]; [reflexivity| |destruct it; reflexivity]. destruct it; try reflexivity. cbn [ditem_events]. apply rtk_of_ubx.
Qed.
Lemma perfect_link u ru s ls ds s' ev ru' d :
  uninit_ok u -> runinit_ok ru -> UReach u ru 1 s -> u_type s = T_BASE -> Forall listener_ok ls -> u_ls s = map build ls ->
  parsing_message (u_ubx s) = false -> rtcm_parsing (u_rtcm s) = false -> ditems_ok (prev (u_ubx s)) ds -> bytes_ok (ditems_bytes ds) ->
  ublox_read s (ditems_bytes ds) = Ok (s', ev) -> runinit_ok ru' -> RReach ru' d -> rtcm_parsing d = false ->
  exists d', rover_chunks d (map snd (rtk_of ev)) = Ok (d', map EvSer (good_frames ds)) /\ rtcm_parsing d' = false.
Proof.
  intros Hu Hru HR HT Hls HL HP1 HP2 Hok Hb E Hru' HD HPd.
  destruct (base_to_rover u ru 1 s _ s' ev ru' d (map snd (rtk_of ev)) Hu Hru HR HT HP2 Hb E Hru' HD HPd (incl_refl _)) as (d' & E' & HP' & _).
  exists d'. split; [|exact HP']. rewrite E'. f_equal. f_equal. f_equal.
  destruct (demux_reach u ru 1 s ls ds Hu Hru HR HT Hls HL HP1 HP2 Hok Hb) as [(s2 & E2 & _)|[_ E2]]; rewrite E in E2; [|discriminate].
  assert (ev = ditems_events ls 1 (u_rtk s) (inbuf (u_ubx s)) ds) as -> by congruence. rewrite rtk_ditems, map_map. cbn. apply map_id.
Qed.
