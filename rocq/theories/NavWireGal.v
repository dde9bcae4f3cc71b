(* C81: Galileo ephemerides from the bytes on the port.  Composition of the receive path (NavDev, NavWire) and the Galileo rules (NavGalThm). *)
From Coq Require Import Permutation.
From Verif Require Import Base UbxSpec UbxModel UbxProofs UbxStream UbxMain UbxMore UbxHist UbxApi
  UbxTx UbxTxSpec UbxTxApi CrcSpec RtcmModel RtcmSpec RtcmProofs RtcmApi UbloxModel UbloxSpec UbloxProofs UbloxApi UbloxThm
  BitModel BitProofs UtcModel UtcSpec Dbl NavModel NavSpec NavStrSpec NavObj NavGpsSpec NavGpsThm NavGpsApi NavIso NavDev NavWire NavGloThm NavGalSpec NavGal NavGalThm.
Local Open Scope Z_scope.

(* ---------------------------------------------------------------- specification *)
(* the payloads of the RXM-SFRBX frames of a stream, in order *)
Definition sfr_pls (ds : list ditem) : list (list Z) :=
  flat_map (fun d => match d with DUbx (Good c i pl) => if (c =? 0x02) && (i =? 0x13) then [pl] else [] | _ => [] end) ds.
(* the words of a payload, words it does not have read as zero *)
Definition pwords (pl : list Z) : list Z := firstn 40 (skipn 8 (pl ++ repeat 0 48)).
(* a frame of Galileo satellite sv; a frame that names satellite number sv, GLONASS apart *)
Definition gal_frame (sv : Z) (pl : list Z) : bool := (nth 0 pl 0 =? 2) && (nth 1 pl 0 =? sv).
Definition gal_pages (sv : Z) (ds : list ditem) : list (list Z) := map pwords (filter (gal_frame sv) (sfr_pls ds)).
(* every frame has the four bytes that name the satellite; frames of Galileo satellite sv have the eight words of a page;
   there is none of the GPS satellite of the same number *)
Definition gal_stream (sv : Z) (ds : list ditem) : Prop :=
  forall pl, In pl (sfr_pls ds) -> 4 <= Zlen pl /\ (nth 1 pl 0 = sv -> nth 0 pl 0 <> 0 /\ (nth 0 pl 0 = 2 -> 40 <= Zlen pl)).
(* the sets released while pages are received, from the words held before *)
Fixpoint gal_fires (H : held) (pages : list (list Z)) : list held :=
  match pages with
  | [] => []
  | dw :: r => let H' := l_step H dw in (if l_usable dw && l_ready H' then [H'] else []) ++ gal_fires H' r
  end.
(* a valid page with word w of type k *)
Definition is_page (k w : Z) (dw : list Z) : Prop := page_valid dw = true /\ inav dw = w /\ wtype w = k.

(* ---------------------------------------------------------------- proofs *)
Definition zmsg (pl : list Z) : sfrbx := sfrbx_of (pl ++ repeat 0 48).
Definition minep (sv : Z) (pl : list Z) : bool := negb (nth 0 pl 0 =? 6) && (nth 1 pl 0 =? sv).
Definition wholep (pl : list Z) : Prop := 4 <= Zlen pl /\ sfr_need (nth 0 pl 0) <= Zlen pl.
Lemma sfr_pls_cons d r : sfr_pls (d :: r) = sfr_pls [d] ++ sfr_pls r.
Proof. unfold sfr_pls. cbn [flat_map]. rewrite app_nil_r. reflexivity. Qed.
Lemma dmsgs_pls mem d : dsfr_msgs mem [d] = map (fun pl => sfrbx_of (pl ++ skipn (length pl) mem)) (sfr_pls [d]).
Proof.
  destruct d as [b|it|it]; try reflexivity. destruct it as [b|c i pl|c i pl ka kb|c i n]; try reflexivity.
  cbn [dsfr_msgs sfr_msgs sfr_pls flat_map]. rewrite !app_nil_r. destruct ((c =? 2) && (i =? 19)); reflexivity.
Qed.
Lemma mine_stale sv pl x : 4 <= Zlen pl -> mine sv (NMsg (sfrbx_of (pl ++ x))) = minep sv pl.
Proof. intros H. unfold Zlen in H. cbn [mine sfrbx_of sf_gnss sf_sv]. rewrite !nth_app_l by lia. reflexivity. Qed.
Lemma one_at_most d : sfr_pls [d] = [] \/ exists pl, sfr_pls [d] = [pl].
Proof.
  destruct d as [b|it|it]; auto. destruct it as [b|c i pl|c i pl ka kb|c i n]; auto.
  cbn [sfr_pls flat_map]. rewrite app_nil_r. destruct (_ && _); eauto.
Qed.
(* stale bytes after the payloads do not matter *)
Lemma own_run junk sv : forall ds mem s,
  (forall pl, In pl (sfr_pls ds) -> 4 <= Zlen pl /\ (minep sv pl = true -> wholep pl)) ->
  nav_run junk s (filter (mine sv) (map NMsg (dsfr_msgs mem ds))) = nav_run junk s (map NMsg (map zmsg (filter (minep sv) (sfr_pls ds)))).
Proof.
  induction ds as [|d ds IH]; intros mem s HW; [reflexivity|].
  rewrite (sfr_pls_cons d ds) in *. rewrite dmsgs_cons, dmsgs_pls, map_app, !filter_app, map_app, map_app.
  assert (HW2 : forall pl, In pl (sfr_pls ds) -> 4 <= Zlen pl /\ (minep sv pl = true -> wholep pl)) by (intros pl Hp; apply HW; apply in_or_app; auto).
  destruct (one_at_most d) as [E|(pl & E)]; rewrite E in *; cbn [map filter app]; [apply IH; exact HW2|].
  destruct (HW pl (or_introl eq_refl)) as [H4 HP]. rewrite mine_stale by exact H4. destruct (minep sv pl); [|apply IH; exact HW2].
  cbn [map app nav_run nav_step]. destruct (HP eq_refl) as [_ HN]. unfold zmsg at 1.
  rewrite (complete_frames junk s pl (skipn (length pl) mem) (repeat 0 48) H4 HN).
  destruct (convertUBX junk s (sfrbx_of (pl ++ repeat 0 48))) as [((s1, e1), b1)|k]; [cbn [bind]|reflexivity]. rewrite IH by exact HW2. reflexivity.
Qed.
Lemma zmsg_ok pl : bytes_ok pl -> 1 <= Zlen pl <= 2048 -> msg_ok (zmsg pl).
Proof.
  intros Hb Hl. apply sfrbx_ok; [apply bytes_ok_app; split; [exact Hb|apply Forall_forall; intros z Hz; apply repeat_spec in Hz; subst; unfold byte_ok; lia]|].
  rewrite app_length, repeat_length. lia.
Qed.
Lemma pls_fit ds pl : Forall fits ds -> In pl (sfr_pls ds) -> bytes_ok pl /\ 1 <= Zlen pl <= 2048.
Proof.
  intros HF Hin. unfold sfr_pls in Hin. apply in_flat_map in Hin. destruct Hin as (d & Hd & Hin). pose proof (proj1 (Forall_forall _ _) HF d Hd) as Hf.
  destruct d as [b|it|it]; try contradiction. destruct it as [b|c i p|c i p ka kb|c i n]; try contradiction.
  destruct (_ && _); [|contradiction]. destruct Hin as [<-|[]]. exact Hf.
Qed.
(* the satellite's own messages, one after the other *)
Lemma gal_story junk sv (NZ : sv <> 0) : forall pls s (H : held) cbs s' v,
  row_ok (n_rows s (sv - 1)) -> (forall k, row_held (n_rows s (sv - 1)) k = H k) -> n_ecb s = cbs ->
  (forall pl, In pl pls -> msg_ok (zmsg pl) /\ 4 <= Zlen pl /\ nth 1 pl 0 = sv /\ nth 0 pl 0 <> 0 /\ nth 0 pl 0 <> 6) ->
  nav_run junk s (map NMsg (map zmsg pls)) = Ok (s', v) ->
  exists ds, filter (ev_for sv) v = flat_map (fun d => map (fun c => EvEph c d) cbs) ds /\
    Forall2 (gal_release sv) (gal_fires H (map pwords (filter (gal_frame sv) pls))) ds.
Proof.
  induction pls as [|pl pls IH]; intros s H cbs s' v HR HH HC HP HN.
  - cbn in HN. assert (v = []) by congruence. subst. exists []. split; [reflexivity|constructor].
  - cbn [map nav_run nav_step] in HN. destruct (HP pl (or_introl eq_refl)) as (Hm & H4 & HSV & N0 & N6).
    assert (HP2 : forall p, In p pls -> msg_ok (zmsg p) /\ 4 <= Zlen p /\ nth 1 p 0 = sv /\ nth 0 p 0 <> 0 /\ nth 0 p 0 <> 6) by (intros p Hp; apply HP; right; exact Hp).
    assert (EG : sf_gnss (zmsg pl) = nth 0 pl 0) by (cbn [zmsg sfrbx_of sf_gnss]; unfold Zlen in H4; apply nth_app_l; lia).
    assert (ES : sf_sv (zmsg pl) = sv) by (cbn [zmsg sfrbx_of sf_sv]; unfold Zlen in H4; rewrite nth_app_l by lia; exact HSV).
    apply bind_inv in HN. destruct HN as ((s1, e1) & E1 & HN). apply bind_inv in HN. destruct HN as ((s2, e2) & E2 & HN).
    assert (v = e1 ++ e2) by congruence. subst v. clear HN. apply bind_inv in E1. destruct E1 as (((s1', e1'), b1) & E1 & E1').
    assert (s1' = s1) by congruence. assert (e1' = e1) by congruence. subst s1' e1'. clear E1'.
    cbn [filter]. unfold gal_frame at 1. destruct (Z.eqb_spec (nth 0 pl 0) 2) as [G2|G2].
    + replace (nth 1 pl 0 =? sv) with true by lia. cbn [andb map gal_fires]. cbv zeta.
      assert (IG : is_gal sv (zmsg pl) = true) by (unfold is_gal; rewrite EG, ES; lia).
      pose proof (gal_message junk s (zmsg pl) sv Hm IG (fun _ => HR)) as HX. cbv zeta in HX. replace (sv =? 0) with false in HX by lia.
      rewrite andb_false_r in HX. change (sf_dw (zmsg pl)) with (pwords pl) in HX.
      assert (EX : forall k, l_step (row_held (n_rows s (sv - 1))) (pwords pl) k = l_step H (pwords pl) k) by (apply l_step_ext; exact HH).
      destruct (ready_ext' _ _ EX) as (X1 & X2 & X3). rewrite X1, X2 in HX.
      destruct (l_usable (pwords pl) && l_ready (l_step H (pwords pl)) && l_toolate _); [rewrite HX in E1; discriminate|].
      destruct HX as (s3 & d & EC & EQ & _ & HRW). rewrite EC in E1. assert (s3 = s1) by congruence.
      assert (EE : e1 = if l_usable (pwords pl) && l_ready (l_step H (pwords pl)) then EvFell FN_PRINT :: map (fun c => EvEph c d) (n_ecb s) else []) by congruence. subst s3.
      destruct (HRW NZ) as [R1 R2]. assert (C1 : n_ecb s1 = cbs).
      { assert (RR : nav_run junk s [NMsg (zmsg pl)] = Ok (s1, e1 ++ [])) by (cbn [nav_run nav_step]; rewrite EC; cbn [bind]; rewrite EE; reflexivity).
        apply gcb_hist in RR. destruct RR as [_ RR]. rewrite RR. cbn [ecbs flat_map]. rewrite app_nil_r. exact HC. }
      destruct (IH s1 (l_step H (pwords pl)) cbs s2 e2 R1 (fun k => eq_trans (R2 k) (EX k)) C1 HP2 E2) as (ds & F1 & F2).
      rewrite filter_app, F1, EE. destruct (l_usable (pwords pl) && l_ready (l_step H (pwords pl))) eqn:EF.
      * pose proof (X3 sv d (EQ eq_refl)) as HD. exists (d :: ds). cbn [flat_map app]. split; [|constructor; assumption].
        f_equal. change (filter (ev_for sv) (map (fun c => EvEph c d) (n_ecb s)) = map (fun c => EvEph c d) cbs). rewrite HC. apply own_event.
        destruct HD as (w0 & w1 & w2 & w3 & w4 & w5 & _ & _ & _ & _ & _ & _ & HD). apply HD.
      * exists ds. split; [reflexivity|exact F2].
    + cbn [andb]. destruct (convert_other junk s (zmsg pl) ltac:(lia) ltac:(lia) ltac:(lia)) as (s3 & EC & EE & (K0 & K1 & K2 & K3) & R1 & _).
      rewrite EC in E1. assert (s3 = s1) by congruence. assert (EV : e1 = [EvFell (if sf_gnss (zmsg pl) =? 3 then FN_BEIDOU else FN_CONVERT)]) by congruence. subst s3.
      destruct (IH s1 H cbs s2 e2) as (ds & F1 & F2); [rewrite R1; exact HR|intros k; rewrite R1; apply HH|congruence|exact HP2|exact E2|].
      exists ds. rewrite filter_app, F1, EV. split; [reflexivity|exact F2].
Qed.
(* GPS/Galileo messages of other numbers and GLONASS messages left out *)
Lemma galwire_core junk s0 sv h nv ev0 mem ds nv' v : sv <> 0 -> row_ok (n_rows s0 (sv - 1)) -> n_ecb s0 = [] -> msgs_ok h -> nav_run junk s0 h = Ok (nv, ev0) ->
  Forall fits ds -> gal_stream sv ds -> nav_run junk nv (map NMsg (dsfr_msgs mem ds)) = Ok (nv', v) ->
  exists rs, filter (ev_for sv) v = flat_map (fun d => map (fun c => EvEph c d) (ecbs h)) rs /\
    Forall2 (gal_release sv) (gal_fires (l_hist sv (row_held (n_rows s0 (sv - 1))) h) (gal_pages sv ds)) rs.
Proof.
  intros NZ R0 C0 HM HR HF HG HS. destruct (gal_hist junk s0 sv NZ R0 h nv ev0 HM HR) as [I1 I2].
  destruct (isolation_from junk sv _ nv nv nv' v (sim_refl sv nv) HS) as (s1 & v1 & E1 & _ & EF). rewrite EF.
  rewrite own_run in E1.
  2:{ intros pl Hp. destruct (HG pl Hp) as [H4 H]. split; [exact H4|]. unfold minep, wholep, sfr_need. intros HM1. assert (N1 : nth 1 pl 0 = sv) by lia.
      destruct (H N1) as [N0 N2]. split; [exact H4|]. replace (nth 0 pl 0 =? 0) with false by lia. destruct (Z.eqb_spec (nth 0 pl 0) 2); [apply N2; assumption|].
      replace (nth 0 pl 0 =? 6) with false by lia. exact H4. }
  destruct (gal_story junk sv NZ (filter (minep sv) (sfr_pls ds)) nv (l_hist sv (row_held (n_rows s0 (sv - 1))) h) (ecbs h) s1 v1 I1 I2) as (rs & F1 & F2).
  - apply gcb_hist in HR. destruct HR as [_ HR]. rewrite HR, C0. reflexivity.
  - intros pl Hp. apply filter_In in Hp. destruct Hp as [Hp HM1]. destruct (HG pl Hp) as [H4 H]. unfold minep in HM1. destruct (H ltac:(lia)) as [N0 _].
    destruct (pls_fit ds pl HF Hp) as [B L]. split; [apply zmsg_ok; assumption|]. repeat split; lia.
  - exact E1.
  - exists rs. split; [exact F1|]. replace (gal_pages sv ds) with (map pwords (filter (gal_frame sv) (filter (minep sv) (sfr_pls ds)))); [exact F2|].
    unfold gal_pages. f_equal. clear. induction (sfr_pls ds) as [|pl r IH]; [reflexivity|]. cbn [filter].
    destruct (minep sv pl) eqn:E1; cbn [filter]; destruct (gal_frame sv pl) eqn:E2; rewrite ?IH; try reflexivity.
    exfalso. unfold minep, gal_frame in *. lia.
Qed.

(* ---------------------------------------------------------------- one complete set *)
Lemma step_page H k w dw : is_page k w dw -> 0 <= k <= 6 -> l_usable dw = true /\ forall j, l_step H dw j = if j =? k then Some w else if k =? 2 then None else H j.
Proof.
  intros (HV & HI & HT) HK. assert (HU : l_usable dw = true) by (unfold l_usable; rewrite HV, HI, HT; cbn [andb]; lia).
  split; [exact HU|]. intros j. unfold l_step, l_recv. rewrite HU, HI, HT. reflexivity.
Qed.
Lemma not_ready H k : 0 <= k <= 6 -> H k = None -> l_ready H = false.
Proof.
  intros HK E. unfold l_ready. assert (C : k = 0 \/ k = 1 \/ k = 2 \/ k = 3 \/ k = 4 \/ k = 5 \/ k = 6) by lia.
  destruct C as [->|[->|[->|[->|[->|[->| ->]]]]]]; rewrite E; destruct (H 0), (H 1), (H 2), (H 3), (H 4), (H 5), (H 6); reflexivity || discriminate.
Qed.
(* the words received so far are held; nothing is released before the last *)
Lemma fires_set : forall ks (W : Z -> Z) pages H, Forall2 (fun k dw => is_page k (W k) dw) ks pages -> NoDup ks ->
  (forall k, In k ks -> 0 <= k <= 6 /\ k <> 2 /\ H k = None) -> (forall k, 0 <= k <= 6 -> ~ In k ks -> H k = Some (W k)) -> ks <> [] ->
  exists H', (forall k, 0 <= k <= 6 -> H' k = Some (W k)) /\ gal_fires H pages = if l_ready H' then [H'] else [].
Proof.
  induction ks as [|k ks IH]; intros W pages H HP HN HA HB NE; [congruence|].
  inversion HP as [|? dw ? r HP1 HP2]; subst. inversion HN as [|? ? HN1 HN2]; subst.
  destruct (HA k (or_introl eq_refl)) as (HK & K2 & EK). destruct (step_page H k (W k) dw HP1 HK) as [HU HS]. cbn [gal_fires]. cbv zeta. rewrite HU. cbn [andb].
  replace (k =? 2) with false in HS by lia.
  destruct ks as [|k2 ks].
  - inversion HP2; subst. exists (l_step H dw). split; [|cbn [gal_fires]; apply app_nil_r].
    intros j Hj. rewrite HS. destruct (Z.eqb_spec j k) as [->|NJ]; [reflexivity|]. apply HB; [exact Hj|]. intros [E|[]]. congruence.
  - assert (E2 : l_step H dw k2 = None).
    { rewrite HS. destruct (HA k2 (or_intror (or_introl eq_refl))) as (_ & _ & E2). destruct (Z.eqb_spec k2 k) as [->|_]; [exfalso; apply HN1; left; reflexivity|exact E2]. }
    rewrite (not_ready _ k2); [|apply HA; right; left; reflexivity|exact E2]. cbn [app].
    apply (IH W r); [exact HP2|exact HN2| | |discriminate].
    + intros j Hj. destruct (HA j (or_intror Hj)) as (A1 & A2 & A3). split; [exact A1|]. split; [exact A2|]. rewrite HS.
      destruct (Z.eqb_spec j k) as [->|_]; [contradiction|exact A3].
    + intros j Hj NJ. rewrite HS. destruct (Z.eqb_spec j k) as [->|NK]; [reflexivity|]. apply HB; [exact Hj|]. intros [E|E]; [congruence|contradiction].
Qed.
(* word 2 first, then the others in any order, each once: one release, whatever was held before *)
Lemma fires_seven W ks dw2 pages H : Permutation ks [0; 1; 3; 4; 5; 6] -> is_page 2 (W 2) dw2 -> Forall2 (fun k dw => is_page k (W k) dw) ks pages ->
  exists H', (forall k, 0 <= k <= 6 -> H' k = Some (W k)) /\ gal_fires H (dw2 :: pages) = if l_ready H' then [H'] else [].
Proof.
  intros HP H2 HF. destruct (step_page H 2 (W 2) dw2 H2 ltac:(lia)) as [HU HS]. cbn [gal_fires]. cbv zeta.
  assert (IN : forall k, In k ks <-> In k [0; 1; 3; 4; 5; 6]) by (intros k; split; apply Permutation_in; [exact HP|apply Permutation_sym; exact HP]).
  rewrite (not_ready (l_step H dw2) 0); [|lia|rewrite HS; reflexivity]. rewrite andb_false_r. cbn [app].
  apply (fires_set ks W pages); [exact HF| | | |].
  - apply (Permutation_NoDup (Permutation_sym HP)). repeat constructor; cbn [In]; intuition discriminate.
  - intros k Hk. apply IN in Hk. cbn [In] in Hk. assert (HK : 0 <= k <= 6 /\ k <> 2) by (intuition lia). destruct HK as [K1 K2].
    split; [exact K1|]. split; [exact K2|]. rewrite HS. replace (k =? 2) with false by lia. reflexivity.
  - intros k Hk NI. rewrite HS. destruct (Z.eqb_spec k 2) as [->|N2]; [reflexivity|]. exfalso. apply NI. apply IN. cbn [In].
    assert (k = 0 \/ k = 1 \/ k = 3 \/ k = 4 \/ k = 5 \/ k = 6) by lia. intuition.
  - intros E. subst. apply Permutation_nil in HP. discriminate.
Qed.
(* hence of the stream *)
Definition one_set (W : Z -> Z) (pages : list (list Z)) : Prop :=
  exists ks dw2 rest, pages = dw2 :: rest /\ Permutation ks [0; 1; 3; 4; 5; 6] /\ is_page 2 (W 2) dw2 /\ Forall2 (fun k dw => is_page k (W k) dw) ks rest.
Definition set_agrees (W : Z -> Z) : bool := (wfield (W 0) 6 2 =? 2) && (wiod (W 1) =? wiod (W 2)) && (wiod (W 1) =? wiod (W 3)) && (wiod (W 1) =? wiod (W 4)).
Lemma one_round sv W pages H rs cbs (v : list nev) : one_set W pages -> filter (ev_for sv) v = flat_map (fun d => map (fun c => EvEph c d) cbs) rs ->
  Forall2 (gal_release sv) (gal_fires H pages) rs ->
  (set_agrees W = false -> filter (ev_for sv) v = []) /\
  (set_agrees W = true -> exists d, filter (ev_for sv) v = map (fun c => EvEph c d) cbs /\ gal_content sv (W 0) (W 1) (W 2) (W 3) (W 4) (W 5) d).
Proof.
  intros (ks & dw2 & rest & -> & HP & H2 & HF) EV HR. destruct (fires_seven W ks dw2 rest H HP H2 HF) as (H' & HW & EF). rewrite EF in HR.
  assert (ER : l_ready H' = set_agrees W) by (unfold l_ready, set_agrees; rewrite !HW by lia; reflexivity). rewrite ER in HR.
  split; intros EA; rewrite EA in HR.
  - inversion HR; subst. exact EV.
  - inversion HR as [|? d ? r2 HD HR2]; subst. inversion HR2; subst. exists d. cbn [flat_map] in EV. rewrite app_nil_r in EV. split; [exact EV|].
    destruct HD as (w0 & w1 & w2 & w3 & w4 & w5 & E0 & E1 & E2 & E3 & E4 & E5 & HC). rewrite !HW in * by lia.
    assert (w0 = W 0) by congruence. assert (w1 = W 1) by congruence. assert (w2 = W 2) by congruence. assert (w3 = W 3) by congruence. assert (w4 = W 4) by congruence. assert (w5 = W 5) by congruence.
    subst. exact HC.
Qed.

(* ---------------------------------------------------------------- the device *)
Lemma dev_ok junk nid : forall bs s nv s' nv' ev v, dev_read junk nid s nv bs = Ok (s', nv', ev, v) -> exists s2 ev2, ublox_read s bs = Ok (s2, ev2).
Proof.
  induction bs as [|b r IH]; intros s nv s' nv' ev v HD; [exists s, []; reflexivity|].
  cbn [dev_read ublox_read] in *. apply bind_inv in HD. destruct HD as ((s1, e1) & E1 & HD). rewrite E1. cbn [bind].
  apply bind_inv in HD. destruct HD as ((n1, v1) & _ & HD). apply bind_inv in HD. destruct HD as ((((s2, n2), e2), v2) & E2 & _).
  destruct (IH _ _ _ _ _ _ E2) as (s3 & ev3 & E3). rewrite E3. eexists _, _. reflexivity.
Qed.
(* the parser's part of a reception *)
Lemma dev_part junk u ru n s ls nid nv its t s' nv' ev v :
  uninit_ok u -> runinit_ok ru -> UReach u ru n s -> u_type s <> T_BASE ->
  Forall listener_ok ls -> (forall l, In l ls -> lid l <> nid) -> u_ls s = map build (mkListener nid [(0x02, 0x13)] :: ls) ->
  parsing_message (u_ubx s) = false -> items_ok (prev (u_ubx s)) its -> tail_ok (items_last (prev (u_ubx s)) its) t -> bytes_ok (items_bytes its ++ t) ->
  dev_read junk nid s nv (items_bytes its ++ t) = Ok (s', nv', ev, v) ->
  nav_run junk nv (map NMsg (dsfr_msgs (inbuf (u_ubx s)) (map DUbx its))) = Ok (nv', v) /\ Forall fits (map DUbx its).
Proof.
  intros Hu Hru HR HT Hls HL EL HPm Hok Ht Hb HD. destruct (dev_ok _ _ _ _ _ _ _ _ _ HD) as (s2 & ev2 & E2).
  rewrite (dev_read_split junk nid _ s nv s2 ev2 E2), (nav_input u ru n s ls nid its t s2 ev2 Hu Hru HR HT Hls HL EL HPm Hok Ht Hb E2) in HD.
  apply bind_inv in HD. destruct HD as ((nv2, v2) & HS & HD). rewrite dmsgs_ubx. apply bytes_ok_app in Hb. split; [rewrite HS; congruence|]. apply (items_fit its _ Hok). apply Hb.
Qed.
Lemma dev_part_base junk u ru n s ls nid nv ds s' nv' ev v :
  uninit_ok u -> runinit_ok ru -> UReach u ru n s -> u_type s = T_BASE ->
  Forall listener_ok ls -> (forall l, In l ls -> lid l <> nid) -> u_ls s = map build (mkListener nid [(0x02, 0x13)] :: ls) ->
  parsing_message (u_ubx s) = false -> rtcm_parsing (u_rtcm s) = false -> ditems_ok (prev (u_ubx s)) ds -> bytes_ok (ditems_bytes ds) ->
  dev_read junk nid s nv (ditems_bytes ds) = Ok (s', nv', ev, v) ->
  nav_run junk nv (map NMsg (dsfr_msgs (inbuf (u_ubx s)) ds)) = Ok (nv', v) /\ Forall fits ds.
Proof.
  intros Hu Hru HR HT Hls HL EL HPm HRp Hok Hb HD. destruct (dev_ok _ _ _ _ _ _ _ _ _ HD) as (s2 & ev2 & E2).
  rewrite (dev_read_split junk nid _ s nv s2 ev2 E2), (nav_input_base u ru n s ls nid ds s2 ev2 Hu Hru HR HT Hls HL EL HPm HRp Hok Hb E2) in HD.
  apply bind_inv in HD. destruct HD as ((nv2, v2) & HS & HD). split; [rewrite HS; congruence|]. exact (ditems_fit ds _ Hok Hb).
Qed.
