(* Proofs about the ROS node model. *)
From Coq Require Import QArith Qabs Qround.
From Verif Require Import Base UbxModel UbxTx RtcmModel UbloxModel BitModel UtcModel UtcSpec Dbl UtcDouble NavModel NavSpec NavAcc NavObj NavDev RosModel RosSpec.
Local Open Scope Z_scope.

(* ---------------------------------------------------------------- who is called *)
Lemma notify_lids ls s c : In c (notify ls s) -> In (c_lid c) (map ml_id ls).
Proof. unfold notify. intros H. apply in_map_iff in H. destruct H as (l & <- & Hl). apply filter_In in Hl. cbn. apply in_map, Hl. Qed.
Lemma read_lids ls s b s' cs ok c : read_cb ls s b = Ok (s', cs, ok) -> In c cs -> In (c_lid c) (map ml_id ls).
Proof.
  unfold read_cb. intros H Hc. destruct (read_switch s b) as [[e s1]|k]; cbn [bind] in H; [|discriminate].
  destruct e; [assert (cs = []) by congruence; subst; destruct Hc|].
  destruct (is_ckb (st s1)); [|assert (cs = []) by congruence; subst; destruct Hc].
  unfold decode_message in H. destruct (calculate_checksum _ _ _ _) as [[a b0]|k]; cbn [bind] in H; [|discriminate].
  destruct (negb (a =? cka s1) || negb (b0 =? ckb s1)); cbn [bind] in H; [assert (cs = []) by congruence; subst; destruct Hc|].
  destruct (decode_switch _) as [s2|k]; cbn [bind] in H; [|discriminate].
  assert (E : cs = notify ls s2) by congruence. subst cs. eapply notify_lids; exact Hc.
Qed.
Definition lids_in (ids : list Z) (e : event) : Prop := match e with EvUbx c => In (c_lid c) ids | _ => True end.
Lemma to_ubx_lids s b s' ev : to_ubx s b = Ok (s', ev) -> u_ls s' = u_ls s /\ Forall (lids_in (map ml_id (u_ls s))) ev.
Proof.
  unfold to_ubx. intros H. destruct (read_cb (u_ls s) (u_ubx s) b) as [[[x c] o]|k] eqn:E; cbn [bind] in H; [|discriminate].
  assert (s' = uw_ubx s x /\ ev = map EvUbx c) as [-> ->] by (split; congruence). split; [reflexivity|].
  apply Forall_forall. intros v Hv. apply in_map_iff in Hv. destruct Hv as (q & <- & Hq). cbn. eapply read_lids; eassumption.
Qed.
Lemma to_rtcm_lids s b s' ev ids : to_rtcm s b = Ok (s', ev) -> u_ls s' = u_ls s /\ Forall (lids_in ids) ev.
Proof.
  unfold to_rtcm. intros H. destruct (rtcm_byte _ _ _) as [[x c]|k]; cbn [bind] in H; [|discriminate].
  assert (s' = uw_rtcm s x /\ ev = flat_map (fun c => got_rtcm s (snd c)) c) as [-> ->] by (split; congruence). split; [reflexivity|].
  apply Forall_forall. intros v Hv. apply in_flat_map in Hv. destruct Hv as (q & _ & Hq). unfold got_rtcm in Hq.
  destruct (u_type s =? T_BASE); [|destruct Hq]. destruct Hq as [<-|[]]. exact I.
Qed.
Lemma ublox_byte_lids s b s' ev : ublox_byte s b = Ok (s', ev) -> u_ls s' = u_ls s /\ Forall (lids_in (map ml_id (u_ls s))) ev.
Proof.
  unfold ublox_byte. intros H. destruct (parsing_message (u_ubx s)); [eapply to_ubx_lids; exact H|].
  destruct (rtcm_parsing (u_rtcm s) && (u_type s =? T_BASE)); [eapply to_rtcm_lids; exact H|].
  destruct (to_ubx s b) as [[s1 e1]|k] eqn:E1; cbn [bind] in H; [|discriminate].
  destruct (to_rtcm s1 b) as [[s2 e2]|k] eqn:E2; cbn [bind] in H; [|discriminate].
  assert (s' = s2 /\ ev = e1 ++ e2) as [-> ->] by (split; congruence).
  destruct (to_ubx_lids _ _ _ _ E1) as [A1 B1]. destruct (to_rtcm_lids _ _ _ _ (map ml_id (u_ls s)) E2) as [A2 B2].
  split; [congruence|]. apply Forall_app. split; assumption.
Qed.
Lemma ublox_read_lids bs : forall s s' ev, ublox_read s bs = Ok (s', ev) -> u_ls s' = u_ls s.
Proof.
  induction bs as [|b r IH]; intros s s' ev H; cbn [ublox_read] in H; [congruence|].
  destruct (ublox_byte s b) as [[s1 e1]|k] eqn:E1; cbn [bind] in H; [|discriminate].
  destruct (ublox_read s1 r) as [[s2 e2]|k] eqn:E2; cbn [bind] in H; [|discriminate].
  rewrite <- (proj1 (ublox_byte_lids _ _ _ _ E1)), <- (IH _ _ _ E2). congruence.
Qed.
Lemma usends_ls fs : forall s s' ev, usends fs s = Ok (s', ev) -> u_ls s' = u_ls s.
Proof.
  induction fs as [|f fs IH]; intros s s' ev H; cbn [usends] in H; [congruence|]. unfold usend in H.
  destruct (f (u_out s)) as [[o w]|k]; cbn [bind] in H; [|discriminate].
  destruct (usends fs (uw_out s o)) as [[s2 e2]|k] eqn:E2; cbn [bind] in H; [|discriminate].
  assert (s' = s2) by congruence. subst s'. exact (IH _ _ _ E2).
Qed.
Lemma get_version_ls s rx s' ev ok : get_version s rx = Ok (s', ev, ok) -> u_ls s' = u_ls s.
Proof.
  unfold get_version, usend. intros H. destruct (send_ver_poll _) as [[o w]|k]; cbn [bind] in H; [|discriminate].
  destruct (ublox_read _ rx) as [[s2 e2]|k] eqn:E; cbn [bind] in H; [|discriminate].
  assert (s' = s2) by congruence. subst s'. rewrite (ublox_read_lids _ _ _ _ E). reflexivity.
Qed.
Lemma ctor_ls u ru out0 nid rx1 rx2 s ev : ctor u ru out0 nid rx1 rx2 = Ok (Some s, ev) -> u_ls s = [nav_ml nid].
Proof.
  unfold ctor. intros H. destruct (get_version _ rx1) as [[[s1 e1] k1]|k] eqn:E1; cbn [bind] in H; [|discriminate].
  pose proof (get_version_ls _ _ _ _ _ E1) as L1. destruct k1.
  - destruct (usends _ s1) as [[s' e']|k] eqn:E; cbn [bind] in H; [|discriminate].
    assert (s = s') by congruence. subst s'. rewrite (usends_ls _ _ _ _ E), L1. reflexivity.
  - destruct (get_version s1 rx2) as [[[s2 e2] k2]|k] eqn:E2; cbn [bind] in H; [|discriminate].
    pose proof (get_version_ls _ _ _ _ _ E2) as L2. destruct k2; [|discriminate].
    destruct (usends _ s2) as [[s' e']|k] eqn:E; cbn [bind] in H; [|discriminate].
    assert (s = s') by congruence. subst s'. rewrite (usends_ls _ _ _ _ E), L2, L1. reflexivity.
Qed.

(* ---------------------------------------------------------------- no ephemeris callbacks *)
Definition mute (v : nev) : Prop := match v with EvFell _ => True | _ => False end.
Ltac peel H := lazymatch type of H with
  | bind ?x _ = Ok _ => let v := fresh "v" in destruct x as [v|v]; cbn [bind] in H; [|discriminate H]; cbv beta iota in H
  | (if ?c then _ else _) = Ok _ => destruct c
  | match ?p with (_, _) => _ end = Ok _ => destruct p
  end.
Lemma glo_string_mute now buf g g' ev r : glo_string now buf g = Ok (g', ev, r) -> Forall mute ev.
Proof.
  unfold glo_string. generalize glo_f1 glo_f2 glo_f3 glo_f4. intros f1 f2 f3 f4 H.
  repeat peel H; (assert (E : ev = [] \/ ev = [EvFell FN_GLOFRAME]) by (first [left; congruence|right; congruence]); destruct E as [-> | ->]; repeat constructor).
Qed.
Lemma glonass_mute now gnss sv freq dw g g' ev r : decodeGlonass [] now gnss sv freq dw g = Ok (g', ev, r) -> Forall mute ev.
Proof.
  unfold decodeGlonass. cbn [map]. intros H.
  assert (D : ev = [] \/ exists b x y z w, glo_string now b x = Ok (y, z, w) /\ (ev = z \/ ev = z ++ [])).
  { peel H; [left; congruence|]. peel H; [left; congruence|]. cbv zeta in H. generalize dependent (swap_words 4 dw). intros buf H.
    peel H. peel H; [left; congruence|]. peel H. peel H. right.
    match type of H with context [glo_string now buf ?x] => generalize dependent x end. intros x H. exists buf, x.
    destruct (glo_string now buf x) as [[[y z] w]|k]; cbn [bind] in H; [|discriminate]. exists y, z, w. split; [reflexivity|].
    peel H; [left|right]; congruence. }
  destruct D as [->|(b & x & y & z & w & E & EV)]; [constructor|]. rewrite app_nil_r in EV.
  assert (ev = z) by tauto. subst ev. eapply glo_string_mute; exact E.
Qed.
Lemma galileo_mute st dw e st' e' ev r : decodeGalileo [] st dw e = Ok (st', e', ev, r) -> Forall mute ev.
Proof.
  unfold decodeGalileo. generalize gal_inav (swap_words 8 dw). intros gi buff H. cbv zeta in H. cbn [map] in H.
  assert (E : ev = [] \/ ev = [EvFell FN_PRINT]).
  { do 5 (peel H). left; congruence. peel H; [left; congruence|]. peel H. peel H; [left; congruence|]. peel H. peel H; [left; congruence|].
    peel H; [discriminate|]. peel H. peel H. peel H; [left; congruence|]. peel H. peel H. peel H; [left|right]; congruence. }
  destruct E as [-> | ->]; repeat constructor.
Qed.
Lemma convert_mute junk s m s' ev r : n_ecb s = [] -> n_gcb s = [] -> convertUBX junk s m = Ok (s', ev, r) ->
  n_ecb s' = [] /\ n_gcb s' = [] /\ Forall mute ev.
Proof.
  intros H1 H2 H. unfold convertUBX in H. rewrite H1, H2 in H. destruct (sf_gnss m =? 6).
  - destruct (slot _ _ (n_geph s)) as [l i]. destruct (decodeGlonass _ _ _ _ _ _ _) as [[[g e] b]|k] eqn:E; cbn [bind] in H; [|discriminate].
    assert (ev = e) by congruence. subst e. match type of H with Ok (?a, _, _) = _ => assert (s' = a) by congruence end. subst s'.
    split; [reflexivity|]. split; [reflexivity|]. eapply glonass_mute; exact E.
  - destruct (slot _ _ (n_eph s)) as [l i]. cbv zeta in H.
    match type of H with context [decodeGPS junk (sf_dw m) ?x] => generalize dependent x end. intros x H.
    destruct (sf_gnss m =? 0).
    + destruct (decodeGPS junk (sf_dw m) x) as [[[e d] b]|k]; cbn [bind] in H; [|discriminate].
      match type of H with Ok (?a, _, _) = _ => assert (s' = a) by congruence end. subst s'. split; [reflexivity|]. split; [reflexivity|].
      assert (ev = match d with Some e1 => map (fun c => EvEph c e1) [] | None => [] end) by congruence. subst ev. destruct d; constructor.
    + destruct (sf_gnss m =? 2).
      * destruct (decodeGalileo _ _ _ _) as [[[[st e] v] b]|k] eqn:E; cbn [bind] in H; [|discriminate].
        match type of H with Ok (?a, _, _) = _ => assert (s' = a) by congruence end. subst s'. split; [reflexivity|]. split; [reflexivity|].
        assert (ev = v) by congruence. subst ev. eapply galileo_mute; exact E.
      * destruct (sf_gnss m =? 3); (match type of H with Ok (?a, ?v, _) = _ => assert (s' = a) by congruence; assert (ev = v) by congruence end; subst s' ev;
          split; [reflexivity|]; split; [reflexivity|repeat constructor]).
Qed.
Definition is_msg (o : nop) : Prop := match o with NMsg _ => True | _ => False end.
Lemma nav_run_mute junk h : Forall is_msg h -> forall s s' ev, n_ecb s = [] -> n_gcb s = [] -> nav_run junk s h = Ok (s', ev) ->
  n_ecb s' = [] /\ n_gcb s' = [] /\ Forall mute ev.
Proof.
  induction 1 as [|o h Ho Hh IH]; intros s s' ev H1 H2 H; cbn [nav_run] in H.
  - assert (s' = s /\ ev = []) as [-> ->] by (split; congruence). repeat split; try assumption. constructor.
  - destruct o as [m| | |]; try contradiction. cbn [nav_step] in H.
    destruct (convertUBX junk s m) as [[[s1 e1] r]|k] eqn:E; cbn [bind] in H; [|discriminate].
    destruct (convert_mute _ _ _ _ _ _ H1 H2 E) as (A & B & C).
    destruct (nav_run junk s1 h) as [[s2 e2]|k] eqn:E2; cbn [bind] in H; [|discriminate].
    destruct (IH _ _ _ A B E2) as (A2 & B2 & C2). assert (s' = s2 /\ ev = e1 ++ e2) as [-> ->] by (split; congruence).
    repeat split; try assumption. apply Forall_app. split; assumption.
Qed.
Lemma to_nav_msgs nid ev : Forall is_msg (flat_map (to_nav nid) ev).
Proof.
  apply Forall_forall. intros o Ho. apply in_flat_map in Ho. destruct Ho as (e & _ & Ho). destruct e; cbn in Ho; try contradiction.
  destruct (c_lid c =? nid); [destruct Ho as [<-|[]]; exact I|destruct Ho].
Qed.

(* ---------------------------------------------------------------- C62 *)
Definition silent (nid : Z) (s : node) : Prop := map ml_id (u_ls (nd_u s)) = [nid] /\ n_ecb (nd_nav s) = [] /\ n_gcb (nd_nav s) = [].
Lemma to_ros_other rid nid ev : rid <> nid -> Forall (lids_in [nid]) ev -> flat_map (to_ros rid) ev = [].
Proof.
  intros Hn. induction 1 as [|e ev He _ IH]; [reflexivity|]. cbn [flat_map]. rewrite IH, app_nil_r. destruct e; try reflexivity.
  cbn in He. destruct He as [He|[]]. cbn. rewrite <- He. destruct (Z.eqb_spec nid rid); [congruence|reflexivity].
Qed.
Lemma nav_to_ros_mute rid ev : Forall mute ev -> flat_map (nav_to_ros rid) ev = [].
Proof. induction 1 as [|v ev Hv _ IH]; [reflexivity|]. cbn [flat_map]. rewrite IH. destruct v; try contradiction. reflexivity. Qed.
Lemma silent_read junk nid rid : rid <> nid -> forall bs s s' p, silent nid s -> node_read junk nid rid s bs = Ok (s', p) ->
  p = [] /\ silent nid s' /\ nd_ros s' = nd_ros s.
Proof.
  intros Hn. induction bs as [|b r IH]; intros s s' p HS H; cbn [node_read] in H.
  - assert (s' = s /\ p = []) as [-> ->] by (split; congruence). auto.
  - cbn [dev_read] in H. destruct (ublox_byte (nd_u s) b) as [[u1 e1]|k] eqn:E1; cbn [bind] in H; [|discriminate].
    destruct (nav_run junk (nd_nav s) (flat_map (to_nav nid) e1)) as [[n1 v1]|k] eqn:E2; cbn [bind] in H; [|discriminate].
    rewrite !app_nil_r in H. destruct HS as (A & B & C).
    destruct (ublox_byte_lids _ _ _ _ E1) as [L1 F1]. rewrite A in F1.
    destruct (nav_run_mute _ _ (to_nav_msgs nid e1) _ _ _ B C E2) as (B1 & C1 & M1).
    rewrite (to_ros_other rid nid _ Hn F1), (nav_to_ros_mute rid _ M1) in H. cbn [app ros_run bind] in H.
    destruct (node_read junk nid rid (mkNode u1 n1 (nd_ros s)) r) as [[s2 p2]|k] eqn:E3; cbn [bind] in H; [|discriminate].
    assert (s' = s2 /\ p = p2) as [-> ->] by (split; congruence).
    assert (HS1 : silent nid (mkNode u1 n1 (nd_ros s))) by (split; [cbn [nd_u]; rewrite L1; exact A|split; assumption]).
    destruct (IH _ _ _ HS1 E3) as (X & Y & Z0). auto.
Qed.
Lemma start_silent u ru out0 nid rx1 rx2 rows0 t0 rt i s ev :
  node_start u ru out0 nid rx1 rx2 rows0 t0 rt i = Ok (Some s, ev) -> silent nid s.
Proof.
  unfold node_start. intros H. destruct (ctor u ru out0 nid rx1 rx2) as [[[s0|] e0]|k] eqn:E; cbn [bind] in H; [|discriminate..].
  pose proof (ctor_ls _ _ _ _ _ _ _ _ E) as L.
  match type of H with bind ?x _ = _ => assert (D : forall s1 e1, x = Ok (s1, e1) -> u_ls s1 = u_ls s0); [|destruct x as [[s1 e1]|k]; cbn [bind] in H; [|discriminate]] end.
  { intros s1 e1. destruct (Z.land rt 2 =? 0); [congruence|]. destruct (rt =? T_ROVER).
    - unfold config_rover. intros G. destruct (usends _ _) as [[s2 e2]|k] eqn:E2; cbn [bind] in G; [|discriminate].
      match type of G with Ok (?a, _) = _ => assert (s1 = a) by congruence end. subst s1. exact (usends_ls _ _ _ _ E2).
    - destruct (rt =? T_BASE); [|congruence]. unfold config_base. intros G. exact (usends_ls _ _ _ _ G). }
  specialize (D s1 e1 eq_refl). match type of H with Ok (Some ?a, _) = _ => assert (s = a) by congruence end. subst s.
  repeat split. cbn [nd_u]. rewrite D, L. reflexivity.
Qed.

(* ---------------------------------------------------------------- reading what was encoded *)
Lemma i32_sle v : sl_ok v -> i32 (of_le (sle32 v)) = v.
Proof.
  unfold sl_ok, sle32. intros H. rewrite le32_inv by (apply Z.mod_pos_bound; reflexivity). unfold i32, sgn.
  change (2 ^ (32 - 1)) with 2147483648. change (2 ^ 31) with 2147483648 in H. change (2 ^ 32) with 4294967296.
  rewrite Z.mod_mod by lia. destruct (Z.ltb_spec (v mod 4294967296) 2147483648); lia.
Qed.
Lemma u32_sle v : of_le (sle32 v) = v mod 2 ^ 32.
Proof. unfold sle32. apply le32_inv. apply Z.mod_pos_bound. reflexivity. Qed.
Lemma i8_sb v : sb_ok v -> i8 (sbyte v) = v.
Proof.
  unfold sb_ok, sbyte. intros H. unfold i8, sgn. change (2 ^ (8 - 1)) with 128. change (2 ^ 7) with 128 in H. change (2 ^ 8) with 256.
  rewrite Z.mod_mod by lia. destruct (Z.ltb_spec (v mod 256) 128); lia.
Qed.

(* ---------------------------------------------------------------- accuracy of the scalings *)
Ltac zp10 := match goal with |- context [10 ^ ?k] => let v := eval vm_compute in (10 ^ k) in change (10 ^ k) with v end.
Ltac near10 raw := intros; unfold nearly, within, radians, deci, pi20, deg2rad;
  match goal with |- context [sc raw ?c] => unfold c | |- context [sc2 raw ?c ?d] => unfold c, d, sc2 end; try unfold D_DEG;
  unfold sc, dmul, d_of_int; cbn [dm de]; rewrite (rnd53_id raw) by assumption; unfold dQ; cbn [dm de Z.add]; qpow; repeat zp; repeat zp10;
  unfold Qle, Qabs, Qminus, Qplus, Qopp, Qdiv, Qmult, Qinv, inject_Z; cbn [Qnum Qden Pos.mul];
  rewrite ?Pos2Z.inj_mul;
  repeat match goal with |- context [rnd53 ?z] => lazymatch z with context [rnd53 _] => fail | _ => 
     let E := fresh "E" in pose proof (rnd53_err z) as E; change (2 ^ 53) with 9007199254740992 in E; let r := fresh "r" in set (r := rnd53 z) in *; clearbody r end end; lia.
Lemma nr_1em7 raw : Z.abs raw <= 2 ^ 53 -> nearly (sc raw D_1EM7) (deci raw 7). Proof. near10 raw. Qed.
Lemma nr_1em5 raw : Z.abs raw <= 2 ^ 53 -> nearly (sc raw D_1EM5) (deci raw 5). Proof. near10 raw. Qed.
Lemma nr_1em3 raw : Z.abs raw <= 2 ^ 53 -> nearly (sc raw D_1EM3) (deci raw 3). Proof. near10 raw. Qed.
Lemma nr_1em2 raw : Z.abs raw <= 2 ^ 53 -> nearly (sc raw D_1EM2) (deci raw 2). Proof. near10 raw. Qed.
Lemma nr_1em4 raw : Z.abs raw <= 2 ^ 53 -> nearly (sc2 raw D_1EM3 D_TENTH) (deci raw 4). Proof. near10 raw. Qed.
Lemma within_eq n d x y : (x == y)%Q -> within n d x -> within n d y.
Proof. unfold within. intros E H. rewrite <- E. exact H. Qed.
Lemma dQ_neg m e p : e < 0 -> 2 ^ (- e) = Zpos p -> (dQ (mkD m e) == m # p)%Q.
Proof. intros He E. unfold dQ. cbn [dm de]. replace e with (- - e) by lia. rewrite (two_pow_neg (- e)) by lia. rewrite E. unfold Qeq, Qmult, inject_Z, Qinv. cbn [Qnum Qden]. lia. Qed.
Lemma radians_eq v : (radians v 5 == v * 314159265358979323846 # 1800000000000000000000000000)%Q.
Proof.
  assert (K : (/ inject_Z (10 ^ 5) * (pi20 * / inject_Z 180) == 314159265358979323846 # 1800000000000000000000000000)%Q) by (vm_compute; reflexivity).
  unfold radians, deci, Qdiv. rewrite <- !Qmult_assoc. rewrite K. apply Qeq_refl.
Qed.
Lemma nr_rad raw : Z.abs raw <= 2 ^ 53 -> nearly (deg2rad (sc raw D_1EM5)) (radians raw 5).
Proof.
  intros H. unfold nearly. eapply within_eq; [symmetry; apply radians_eq|]. unfold within, deg2rad, sc, dmul, d_of_int, D_1EM5, D_DEG. cbn [dm de].
  rewrite (rnd53_id raw) by exact H.
  change (-58 + (0 + -69)) with (-127). rewrite (dQ_neg _ (-127) 170141183460469231731687303715884105728) by reflexivity.
  apply near_Z. pose proof (rnd53_err (raw * 5902958103587057)) as E1. set (r1 := rnd53 (raw * 5902958103587057)) in *. clearbody r1.
  pose proof (rnd53_err (5030569068109113 * r1)) as E2. set (r2 := rnd53 (5030569068109113 * r1)) in *. clearbody r2.
  change (2 ^ 53) with 9007199254740992 in *. change (2 ^ 50) with 1125899906842624. lia.
Qed.

(* ---------------------------------------------------------------- accHeading: a whole number of radians *)
Definition hA : Z := 314159265358979323846.
Definition hB : Z := 1800000000000000000000000000.
Definition hP : Z := 2 ^ 127.
(* no accuracy value lies within the rounding error of a whole number of radians *)
Definition gap (k : Z) : bool :=
  let t := k * hB / hA + 1 in (t * hA <=? 2 ^ 50 * (t * hA - k * hB)) && ((t - 1) * hA <? 2 ^ 50 * (k * hB - (t - 1) * hA)).
Lemma gaps : forallb (fun n => gap (Z.of_nat n)) (List.seq 1 750) = true.
Proof. vm_compute. reflexivity. Qed.
Lemma gap_k k : 1 <= k <= 750 -> gap k = true.
Proof.
  intros H. pose proof (proj1 (forallb_forall _ _) gaps (Z.to_nat k)) as G. cbv beta in G. rewrite Z2Nat.id in G by lia.
  apply G. apply in_seq. lia.
Qed.
Lemma floor_bounds a b : 0 < b -> a / b * b <= a < (a / b + 1) * b.
Proof. intros H. pose proof (Z.div_mod a b). pose proof (Z.mod_pos_bound a b H). nia. Qed.
Lemma acc_floor raw m : 0 <= raw < 2 ^ 32 -> 0 <= m -> 2 ^ 50 * Z.abs (m * hB - raw * hA * hP) <= Z.abs (raw * hA) * hP ->
  m / hP = raw * hA / hB /\ 0 <= raw * hA / hB <= 749.
Proof.
  intros Hr Hm H. assert (HB : 0 < hB) by reflexivity. assert (HA : 0 < hA) by reflexivity. assert (HP : 0 < hP) by reflexivity.
  rewrite (Z.abs_eq (raw * hA)) in H by nia.
  assert (HQ : 0 <= raw * hA / hB <= 749).
  { split; [apply Z.div_pos; nia|]. assert (raw * hA / hB < 750); [|lia]. apply Z.div_lt_upper_bound; [exact HB|].
    apply Z.le_lt_trans with ((2 ^ 32 - 1) * hA); [apply Z.mul_le_mono_nonneg_r; lia|reflexivity]. }
  split; [|exact HQ]. set (q := raw * hA / hB) in *.
  assert (D : q * hB <= raw * hA < (q + 1) * hB) by (apply floor_bounds; exact HB).
  clearbody q.
  assert (L : q * hP <= m).
  { destruct (Z.eq_dec q 0) as [->|Hq]; [lia|]. pose proof (gap_k q ltac:(lia)) as G. unfold gap in G.
    set (t := q * hB / hA + 1) in *. assert (T : (t - 1) * hA <= q * hB < t * hA) by (pose proof (floor_bounds (q * hB) hA HA); unfold t; lia).
    clearbody t. apply andb_true_iff in G. destruct G as [G1 G2]. apply Z.leb_le in G1. apply Z.ltb_lt in G2.
    assert (Ht : t <= raw).
    { destruct (Z.le_gt_cases t raw) as [|HC]; [assumption|]. exfalso. assert (raw * hA <= (t - 1) * hA) by (apply Z.mul_le_mono_nonneg_r; lia).
      assert ((t - 1) * hA < q * hB) by nia. lia. }
    assert (S1 : raw * hA <= 2 ^ 50 * (raw * hA - q * hB)) by nia.
    assert (S2 : 2 ^ 50 * (raw * hA * hP - m * hB) <= 2 ^ 50 * (raw * hA - q * hB) * hP) by nia.
    assert (q * hP * hB <= m * hB) by nia. nia. }
  assert (U : m < (q + 1) * hP).
  { pose proof (gap_k (q + 1) ltac:(lia)) as G. unfold gap in G. set (t := (q + 1) * hB / hA + 1) in *.
    assert (T : (t - 1) * hA <= (q + 1) * hB < t * hA) by (pose proof (floor_bounds ((q + 1) * hB) hA HA); unfold t; lia).
    clearbody t. apply andb_true_iff in G. destruct G as [G1 G2]. apply Z.leb_le in G1. apply Z.ltb_lt in G2.
    assert (Ht : raw <= t - 1) by nia.
    assert (S1 : raw * hA < 2 ^ 50 * ((q + 1) * hB - raw * hA)) by nia.
    assert (S2 : 2 ^ 50 * (m * hB - raw * hA * hP) < 2 ^ 50 * ((q + 1) * hB - raw * hA) * hP) by nia.
    assert (m * hB < (q + 1) * hP * hB) by nia. nia. }
  symmetry. apply Z.div_unique with (m - q * hP); [left; lia|lia].
Qed.
Lemma acc_heading raw : 0 <= raw < 2 ^ 32 ->
  d2u32 (deg2rad (sc raw D_1EM5)) = Ok (Qfloor (radians raw 5)) /\ 0 <= Qfloor (radians raw 5) <= 749.
Proof.
  intros Hr. assert (EF : Qfloor (radians raw 5) = raw * hA / hB) by (rewrite (radians_eq raw); reflexivity). rewrite EF.
  unfold deg2rad, sc, dmul, d_of_int, D_1EM5, D_DEG. cbn [dm de].
  rewrite (rnd53_id raw) by (change (2 ^ 53) with 9007199254740992; change (2 ^ 32) with 4294967296 in Hr; lia).
  pose proof (rnd53_err (raw * 5902958103587057)) as E1. set (r1 := rnd53 (raw * 5902958103587057)) in *. clearbody r1.
  pose proof (rnd53_err (5030569068109113 * r1)) as E2. set (r2 := rnd53 (5030569068109113 * r1)) in *. clearbody r2.
  change (2 ^ 53) with 9007199254740992 in *. change (2 ^ 32) with 4294967296 in Hr.
  assert (0 <= r2) by lia.
  destruct (acc_floor raw r2) as [E B]; [exact Hr|assumption| |].
  { unfold hA, hB, hP. change (2 ^ 50) with 1125899906842624. change (2 ^ 127) with 170141183460469231731687303715884105728. lia. }
  split; [|exact B]. unfold d2u32. change (-58 + (0 + -69)) with (-127).
  replace (dtrunc (mkD r2 (-127))) with (r2 / hP) by (rewrite dtrunc_nonneg by assumption; reflexivity).
  rewrite E. cbv zeta. assert (EB : (0 <=? raw * hA / hB) && (raw * hA / hB <? 2 ^ 32) = true); [|rewrite EB; reflexivity].
  apply andb_true_iff. split; [apply Z.leb_le; lia|apply Z.ltb_lt; change (2 ^ 32) with 4294967296; lia].
Qed.
Lemma no_heading_below raw : 0 <= raw <= 5729577 -> Qfloor (radians raw 5) = 0.
Proof. intros H. rewrite (radians_eq raw). unfold Qfloor. apply Z.div_small. lia. Qed.

(* ---------------------------------------------------------------- the callbacks on encoded messages *)
Lemma small_i v : sl_ok v -> Z.abs v <= 2 ^ 53. Proof. unfold sl_ok. change (2 ^ 31) with 2147483648. change (2 ^ 53) with 9007199254740992. lia. Qed.
Lemma small_u v : l_ok v -> Z.abs v <= 2 ^ 53. Proof. unfold l_ok. change (2 ^ 32) with 4294967296. change (2 ^ 53) with 9007199254740992. lia. Qed.
Lemma small_w v : w_ok v -> Z.abs v <= 2 ^ 53. Proof. unfold w_ok. change (2 ^ 16) with 65536. change (2 ^ 53) with 9007199254740992. lia. Qed.
Lemma small_b v : sb_ok v -> Z.abs v <= 2 ^ 53. Proof. unfold sb_ok. change (2 ^ 7) with 128. change (2 ^ 53) with 9007199254740992. lia. Qed.
Ltac small := first [apply small_i; assumption | apply small_u; assumption | apply small_w; assumption | apply small_b; assumption | assumption].
Ltac near := lazymatch goal with
  | |- nearly (sc _ D_1EM7) _ => apply nr_1em7; small | |- nearly (sc _ D_1EM5) _ => apply nr_1em5; small
  | |- nearly (sc _ D_1EM3) _ => apply nr_1em3; small | |- nearly (sc _ D_1EM2) _ => apply nr_1em2; small
  | |- nearly (sc2 _ D_1EM3 D_TENTH) _ => apply nr_1em4; small | |- nearly (deg2rad _) _ => apply nr_rad; small
  | |- _ = _ => reflexivity end.
(* the member at offset o is the encoding of v *)
Definition holds (m : list Z) (o : nat) (b : list Z) : Prop := firstn (length b) (skipn o m) = b.
Lemma at32 m o v : l_ok v -> holds m o (le32 v) -> u32_at m o = v.
Proof. intros Hv H. unfold u32_at. unfold holds in H. change (length (le32 v)) with 4%nat in H. rewrite H. apply le32_inv. exact Hv. Qed.
Lemma at32s m o v : sl_ok v -> holds m o (sle32 v) -> i32_at m o = v.
Proof. intros Hv H. unfold i32_at, u32_at. unfold holds in H. change (length (sle32 v)) with 4%nat in H. rewrite H. apply i32_sle. exact Hv. Qed.
Lemma at32u m o v : holds m o (sle32 v) -> u32_at m o = v mod 2 ^ 32.
Proof. intros H. unfold u32_at. unfold holds in H. change (length (sle32 v)) with 4%nat in H. rewrite H. apply u32_sle. Qed.
Lemma at16 m o v : w_ok v -> holds m o (le16 v) -> u16_at m o = v.
Proof. intros Hv H. unfold u16_at. unfold holds in H. change (length (le16 v)) with 2%nat in H. rewrite H. apply le16_inv. exact Hv. Qed.
Lemma at8s m o v : sb_ok v -> u8_at m o = sbyte v -> i8_at m o = v.
Proof. intros Hv H. unfold i8_at. rewrite H. apply i8_sb. exact Hv. Qed.

Lemma pvt_published x r0 r1 r2 r3 r4 r5 rest s : pvt_ok x ->
  exists i d s' more, ros_got_ubx s 0x01 0x07 (pvt_bytes x r0 r1 r2 r3 r4 r5 ++ rest) = Ok (s', PubPvt i d :: more) /\
    i Vyear = v_year x /\ i Vmonth = v_month x /\ i Vday = v_day x /\ i Vhour = v_hour x /\ i Vmin = v_min x /\ i Vsec = v_sec x /\
    i Vnano = v_nano x /\ i VtAcc = v_tacc x /\ i Vvalid = v_valid x /\ i VfixType = v_fix x /\ i Vflags = v_flags x /\
    i Vflags2 = v_flags2 x /\ i VnumSV = v_numsv x /\
    nearly (d Vlla0) (deci (v_lat x) 7) /\ nearly (d Vlla1) (deci (v_lon x) 7) /\ nearly (d Vlla2) (deci (v_height x) 3) /\
    nearly (d VhMSL) (deci (v_hmsl x) 3) /\ nearly (d VhAcc) (deci (v_hacc x) 3) /\ nearly (d VvAcc) (deci (v_vacc x) 3) /\
    nearly (d Vvel0) (deci (v_veln x) 3) /\ nearly (d Vvel1) (deci (v_vele x) 3) /\ nearly (d Vvel2) (deci (v_veld x) 3) /\
    nearly (d VgSpeed) (deci (v_gspeed x) 3) /\ nearly (d VheadMot) (deci (v_headmot x) 5) /\ nearly (d VsAcc) (deci (v_sacc x) 3) /\
    nearly (d VheadAcc) (deci (v_headacc x) 5) /\ nearly (d VpDOP) (deci (v_pdop x) 2) /\ nearly (d VheadVeh) (deci (v_headveh x) 5).
Proof.
  intros (H1 & H2 & H3 & H4 & H5 & H6 & H7 & H8 & H9 & H10 & H11 & H12 & H13 & H14 & H15 & H16 & H17 & H18 & H19).
  set (m := pvt_bytes x r0 r1 r2 r3 r4 r5 ++ rest). exists (pvt_i m), (pvt_d m). do 2 eexists. split; [reflexivity|].
  cbn [pvt_i pvt_d].
  rewrite (at16 m 4 (v_year x)), (at32s m 16 (v_nano x)), (at32 m 12 (v_tacc x)), (at32s m 28 (v_lat x)), (at32s m 24 (v_lon x)),
    (at32s m 32 (v_height x)), (at32s m 36 (v_hmsl x)), (at32 m 40 (v_hacc x)), (at32 m 44 (v_vacc x)), (at32s m 48 (v_veln x)),
    (at32s m 52 (v_vele x)), (at32s m 56 (v_veld x)), (at32s m 60 (v_gspeed x)), (at32s m 64 (v_headmot x)), (at32 m 68 (v_sacc x)),
    (at32 m 72 (v_headacc x)), (at16 m 76 (v_pdop x)), (at32s m 84 (v_headveh x)) by (assumption || reflexivity).
  repeat (split; [near|]).
  near.
Qed.

Lemma relpos_published x ver r0 r1 r2 r3 r4 q1 q2 q3 q4 rest s : relpos_ok x ->
  exists i d, ros_got_ubx s 0x01 0x3C (relpos_bytes x ver r0 r1 r2 r3 r4 q1 q2 q3 q4 ++ rest) = Ok (s, [PubRel i d]) /\
    i RrefStationId = p_ref x /\ i Rflags = p_flags x /\
    nearly (d Rned0) (deci (p_n x) 2) /\ nearly (d Rned1) (deci (p_e x) 2) /\ nearly (d Rned2) (deci (p_d x) 2) /\
    nearly (d Rlen) (deci (p_len x) 2) /\ nearly (d Rheading) (radians (p_heading x) 5) /\
    nearly (d Rhp0) (deci (p_hpn x) 4) /\ nearly (d Rhp1) (deci (p_hpe x) 4) /\ nearly (d Rhp2) (deci (p_hpd x) 4) /\
    nearly (d Rhplen) (deci (p_hplen x) 4) /\ nearly (d Racc0) (deci (p_accn x) 4) /\ nearly (d Racc1) (deci (p_acce x) 4) /\
    nearly (d Racc2) (deci (p_accd x) 4) /\ nearly (d Racclen) (deci (p_acclen x) 4) /\
    i RaccHeading = Qfloor (radians (p_accheading x) 5) /\ 0 <= i RaccHeading <= 749.
Proof.
  intros (H1 & H2 & H3 & H4 & H5 & H6 & H7 & H8 & H9 & H10 & H11 & H12 & H13 & H14 & H15 & H16 & H17).
  set (m := relpos_bytes x ver r0 r1 r2 r3 r4 q1 q2 q3 q4 ++ rest).
  assert (EA : u32_at m 52 = p_accheading x) by (apply at32; [assumption|reflexivity]).
  destruct (acc_heading (p_accheading x) H16) as [EH BH].
  exists (fun f => match f with RrefStationId => u16_at m 2 | RaccHeading => Qfloor (radians (p_accheading x) 5) | Rflags => u32_at m 60 end), (rel_d m).
  split. { change (ros_got_ubx s 1 60 m) with (let* p := relposCB m in Ok (s, p)). unfold relposCB. rewrite EA, EH. reflexivity. }
  cbn [rel_d].
  rewrite (at16 m 2 (p_ref x)), (at32 m 60 (p_flags x)), (at32s m 8 (p_n x)), (at32s m 12 (p_e x)), (at32s m 16 (p_d x)), (at32s m 20 (p_len x)),
    (at32s m 24 (p_heading x)), (at8s m 32 (p_hpn x)), (at8s m 33 (p_hpe x)), (at8s m 34 (p_hpd x)), (at8s m 35 (p_hplen x)),
    (at32 m 36 (p_accn x)), (at32 m 40 (p_acce x)), (at32 m 44 (p_accd x)), (at32 m 48 (p_acclen x)) by (assumption || reflexivity).
  repeat (split; [near|]).
  exact BH.
Qed.

Lemma svin_published x ver r0 r1 r2 q rest s : svin_ok x ->
  exists i d, ros_got_ubx s 0x01 0x3B (svin_bytes x ver r0 r1 r2 q ++ rest) = Ok (s, [PubSvin i d]) /\
    i Sdur = s_dur x /\ i SmeanAcc = s_acc x /\ i Sobs = s_obs x /\ i Svalid = s_valid x /\ i Sactive = s_active x /\
    nearly (d Smean0) (deci (s_x x mod 2 ^ 32) 2) /\ nearly (d Smean1) (deci (s_y x mod 2 ^ 32) 2) /\ nearly (d Smean2) (deci (s_z x mod 2 ^ 32) 2) /\
    nearly (d Shp0) (deci (s_hx x mod 256) 3) /\ nearly (d Shp1) (deci (s_hy x mod 256) 3) /\ nearly (d Shp2) (deci (s_hz x mod 256) 3).
Proof.
  intros (H1 & H2 & H3 & H4 & H5 & H6 & H7 & H8 & H9 & H10). set (m := svin_bytes x ver r0 r1 r2 q ++ rest). exists (svin_i m), (svin_d m).
  split; [reflexivity|]. cbn [svin_i svin_d].
  rewrite (at32 m 8 (s_dur x)), (at32 m 28 (s_acc x)), (at32 m 32 (s_obs x)), (at32u m 12 (s_x x)), (at32u m 16 (s_y x)), (at32u m 20 (s_z x)) by (assumption || reflexivity).
  change (u8_at m 24) with (s_hx x mod 256). change (u8_at m 25) with (s_hy x mod 256). change (u8_at m 26) with (s_hz x mod 256).
  assert (M : forall v, Z.abs (v mod 2 ^ 32) <= 2 ^ 53) by (intros v; change (2 ^ 53) with 9007199254740992; change (2 ^ 32) with 4294967296; lia).
  assert (M8 : forall v, Z.abs (v mod 256) <= 2 ^ 53) by (intros v; change (2 ^ 53) with 9007199254740992; lia).
  pose proof (M (s_x x)). pose proof (M (s_y x)). pose proof (M (s_z x)). pose proof (M8 (s_hx x)). pose proof (M8 (s_hy x)). pose proof (M8 (s_hz x)).
  repeat (split; [near|]). near.
Qed.
