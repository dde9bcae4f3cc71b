(* Registering a further UBX listener changes nothing else (C67). *)
From Verif Require Import Base UbxModel UbxTx RtcmModel UbloxModel UbloxSpec UbloxApi.

(* ---- specification *)
(* the same object with l as its only listener *)
Definition only (s : ublox) (l : mlistener) : ublox := uw_ls s [l].
Definition goes_to (id : Z) (e : event) : bool := match e with EvUbx c => c_lid c =? id | _ => false end.
(* no listener of s has this identity *)
Definition fresh_id (s : ublox) (id : Z) : Prop := ~ In id (map ml_id (u_ls s)).

(* ---- proofs *)
Lemma notify_app ls ls' s : notify (ls ++ ls') s = notify ls s ++ notify ls' s.
Proof. unfold notify. rewrite filter_app, map_app. reflexivity. Qed.
(* read_cb as a function of the listeners: same state and result; the calls are a function applied to the list *)
Lemma read_cb_shape s b :
  (exists k, forall ls, read_cb ls s b = UB k) \/
  (exists s' ok, forall ls, read_cb ls s b = Ok (s', [], ok)) \/
  (exists s' s2, forall ls, read_cb ls s b = Ok (s', notify ls s2, true)).
Proof.
  unfold read_cb. destruct (read_switch s b) as [[e s1]|k]; cbn [bind]; [|left; eexists; reflexivity].
  destruct e; [right; left; do 2 eexists; reflexivity|].
  destruct (is_ckb (st s1)); [|right; left; do 2 eexists; reflexivity].
  unfold decode_message. destruct (calculate_checksum _ _ _ _) as [[a b0]|k]; cbn [bind]; [|left; eexists; reflexivity].
  destruct (negb (a =? cka s1) || negb (b0 =? ckb s1)); cbn [bind]; [right; left; do 2 eexists; reflexivity|].
  destruct (decode_switch _) as [s2|k]; cbn [bind]; [|left; eexists; reflexivity].
  right; right. do 2 eexists. reflexivity.
Qed.
Lemma to_ubx_shape s b :
  (exists k, forall ls, to_ubx (uw_ls s ls) b = UB k) \/
  (exists x, forall ls, to_ubx (uw_ls s ls) b = Ok (uw_ls (uw_ubx s x) ls, [])) \/
  (exists x y, forall ls, to_ubx (uw_ls s ls) b = Ok (uw_ls (uw_ubx s x) ls, map EvUbx (notify ls y))).
Proof.
  unfold to_ubx. change (forall ls, u_ubx (uw_ls s ls) = u_ubx s) with (forall ls : list mlistener, u_ubx s = u_ubx s).
  destruct (read_cb_shape (u_ubx s) b) as [[k H]|[(x & ok & H)|(x & y & H)]].
  - left. exists k. intros ls. cbn [uw_ls u_ubx u_ls]. rewrite H. reflexivity.
  - right; left. exists x. intros ls. cbn [uw_ls u_ubx u_ls]. rewrite H. reflexivity.
  - right; right. exists x, y. intros ls. cbn [uw_ls u_ubx u_ls]. rewrite H. reflexivity.
Qed.
Lemma to_rtcm_shape s b :
  (exists k, forall ls, to_rtcm (uw_ls s ls) b = UB k) \/
  (exists r ev, Forall (fun e => match e with EvUbx _ => False | _ => True end) ev /\ forall ls, to_rtcm (uw_ls s ls) b = Ok (uw_ls (uw_rtcm s r) ls, ev)).
Proof.
  unfold to_rtcm. destruct (rtcm_byte (repeat 0 (u_nreg s)) (u_rtcm s) b) as [[r cs]|k] eqn:E.
  - right. exists r, (flat_map (fun c => got_rtcm s (snd c)) cs). split.
    + apply Forall_forall. intros e He. apply in_flat_map in He. destruct He as (c & _ & He). unfold got_rtcm in He.
      destruct (u_type s =? T_BASE); [destruct He as [<-|[]]; exact I|destruct He].
    + intros ls. cbn [uw_ls u_nreg u_rtcm]. rewrite E. reflexivity.
  - left. exists k. intros ls. cbn [uw_ls u_nreg u_rtcm]. rewrite E. reflexivity.
Qed.
Definition not_ubx (ev : list event) : Prop := Forall (fun e => match e with EvUbx _ => False | _ => True end) ev.
(* one byte: the calls, as a function of the listeners, then the rest *)
Lemma byte_shape s b :
  (exists k, forall ls, ublox_byte (uw_ls s ls) b = UB k) \/
  (exists s1 ev, not_ubx ev /\ forall ls, ublox_byte (uw_ls s ls) b = Ok (uw_ls s1 ls, ev)) \/
  (exists s1 y ev, not_ubx ev /\ forall ls, ublox_byte (uw_ls s ls) b = Ok (uw_ls s1 ls, map EvUbx (notify ls y) ++ ev)).
Proof.
  unfold ublox_byte. destruct (parsing_message (u_ubx s)) eqn:Ep.
  { destruct (to_ubx_shape s b) as [[k H]|[(x & H)|(x & y & H)]].
    - left. exists k. intros ls. cbn [uw_ls u_ubx]. rewrite Ep. apply H.
    - right; left. exists (uw_ubx s x), []. split; [constructor|]. intros ls. cbn [uw_ls u_ubx]. rewrite Ep. apply H.
    - right; right. exists (uw_ubx s x), y, []. split; [constructor|]. intros ls. cbn [uw_ls u_ubx]. rewrite Ep. rewrite app_nil_r. apply H. }
  destruct (rtcm_parsing (u_rtcm s) && (u_type s =? T_BASE)) eqn:Er.
  { destruct (to_rtcm_shape s b) as [[k H]|(r & ev & Hn & H)].
    - left. exists k. intros ls. cbn [uw_ls u_ubx u_rtcm u_type]. rewrite Ep, Er. apply H.
    - right; left. exists (uw_rtcm s r), ev. split; [exact Hn|]. intros ls. cbn [uw_ls u_ubx u_rtcm u_type]. rewrite Ep, Er. apply H. }
  destruct (to_ubx_shape s b) as [[k H]|[(x & H)|(x & y & H)]].
  - left. exists k. intros ls. cbn [uw_ls u_ubx u_rtcm u_type]. rewrite Ep, Er. fold (uw_ls s ls). rewrite H. reflexivity.
  - destruct (to_rtcm_shape (uw_ubx s x) b) as [[k H2]|(r & ev & Hn & H2)].
    + left. exists k. intros ls. cbn [uw_ls u_ubx u_rtcm u_type]. rewrite Ep, Er. fold (uw_ls s ls). rewrite H. cbn [bind]. rewrite H2. reflexivity.
    + right; left. exists (uw_rtcm (uw_ubx s x) r), ev. split; [exact Hn|]. intros ls. cbn [uw_ls u_ubx u_rtcm u_type]. rewrite Ep, Er.
      fold (uw_ls s ls). rewrite H. cbn [bind]. rewrite H2. reflexivity.
  - destruct (to_rtcm_shape (uw_ubx s x) b) as [[k H2]|(r & ev & Hn & H2)].
    + left. exists k. intros ls. cbn [uw_ls u_ubx u_rtcm u_type]. rewrite Ep, Er. fold (uw_ls s ls). rewrite H. cbn [bind]. rewrite H2. reflexivity.
    + right; right. exists (uw_rtcm (uw_ubx s x) r), y, ev. split; [exact Hn|]. intros ls. cbn [uw_ls u_ubx u_rtcm u_type]. rewrite Ep, Er.
      fold (uw_ls s ls). rewrite H. cbn [bind]. rewrite H2. reflexivity.
Qed.
Lemma uw_ls_self s : uw_ls s (u_ls s) = s.
Proof. destruct s; reflexivity. Qed.
Lemma ubx_of_map cs : ubx_of (map EvUbx cs) = cs.
Proof. unfold ubx_of. induction cs as [|c cs IH]; [reflexivity|]. cbn [map flat_map]. rewrite IH. reflexivity. Qed.
Lemma ubx_of_not ev : not_ubx ev -> ubx_of ev = [].
Proof. unfold ubx_of. induction 1 as [|e ev He _ IH]; [reflexivity|]. cbn [flat_map]. rewrite IH. destruct e; [contradiction|reflexivity..]. Qed.
Lemma filter_to id ev : not_ubx ev -> filter (goes_to id) ev = [].
Proof. induction 1 as [|e ev He _ IH]; [reflexivity|]. cbn [filter]. destruct e; cbn [goes_to]; [contradiction|exact IH..]. Qed.
Lemma filter_not id ev : not_ubx ev -> filter (fun e => negb (goes_to id e)) ev = ev.
Proof. induction 1 as [|e ev He _ IH]; [reflexivity|]. cbn [filter]. destruct e; cbn [goes_to negb]; [contradiction|f_equal; exact IH..]. Qed.
Lemma filter_calls_fresh ls id y : ~ In id (map ml_id ls) ->
  filter (goes_to id) (map EvUbx (notify ls y)) = [] /\ filter (fun e => negb (goes_to id e)) (map EvUbx (notify ls y)) = map EvUbx (notify ls y).
Proof.
  intros H. unfold notify. rewrite map_map. assert (HA : forall l, In l (filter (fun l => subscribed l (mcls y) (mtyp y)) ls) -> ml_id l <> id).
  { intros l Hl E. apply H. rewrite <- E. apply in_map. apply filter_In in Hl. tauto. }
  induction (filter (fun l => subscribed l (mcls y) (mtyp y)) ls) as [|l r IH]; [split; reflexivity|].
  cbn [map filter goes_to c_lid]. destruct (Z.eqb_spec (ml_id l) id) as [E|E]; [exfalso; apply (HA l); [left; reflexivity|exact E]|].
  cbn [negb]. destruct IH as [I1 I2]; [intros l' Hl'; apply HA; right; exact Hl'|]. split; [exact I1|f_equal; exact I2].
Qed.
Lemma filter_calls_only l y :
  filter (goes_to (ml_id l)) (map EvUbx (notify [l] y)) = map EvUbx (notify [l] y) /\
  filter (fun e => negb (goes_to (ml_id l) e)) (map EvUbx (notify [l] y)) = [].
Proof.
  unfold notify. cbn [filter]. destruct (subscribed l (mcls y) (mtyp y)); cbn [map filter goes_to c_lid]; [rewrite Z.eqb_refl|]; split; reflexivity.
Qed.

(* one byte *)
Lemma reg_byte s l b : 
  match ublox_byte s b with
  | UB k => ublox_byte (ublox_register s l) b = UB k
  | Ok (s1, e) => exists ex e',
      ublox_byte (only s l) b = Ok (only s1 l, ex) /\ ublox_byte (ublox_register s l) b = Ok (ublox_register s1 l, e') /\
      ubx_of e' = ubx_of e ++ ubx_of ex /\ (length (ubx_of ex) <= 1)%nat /\
      ser_of e' = ser_of e /\ rtk_of e' = rtk_of e /\
      (fresh_id s (ml_id l) -> filter (fun v => negb (goes_to (ml_id l) v)) e' = e /\ filter (goes_to (ml_id l)) e' = filter (goes_to (ml_id l)) ex)
  end.
Proof.
  destruct (byte_shape s b) as [[k H]|[(s1 & ev & Hn & H)|(s1 & y & ev & Hn & H)]].
  - pose proof (H (u_ls s)) as H0. rewrite uw_ls_self in H0. rewrite H0. exact (H (u_ls s ++ [l])).
  - pose proof (H (u_ls s)) as H0. rewrite uw_ls_self in H0. rewrite H0.
    exists ev, ev. split; [exact (H [l])|]. split; [exact (H (u_ls s ++ [l]))|]. rewrite !(ubx_of_not ev Hn). split; [reflexivity|].
    split; [cbn; lia|]. split; [reflexivity|]. split; [reflexivity|]. intros _. rewrite (filter_not _ _ Hn). auto.
  - pose proof (H (u_ls s)) as H0. rewrite uw_ls_self in H0. rewrite H0.
    exists (map EvUbx (notify [l] y) ++ ev), (map EvUbx (notify (u_ls s ++ [l]) y) ++ ev).
    split; [exact (H [l])|]. split; [exact (H (u_ls s ++ [l]))|]. rewrite !ubx_of_app, !ubx_of_map, (ubx_of_not ev Hn), !app_nil_r.
    split; [apply notify_app|]. split; [unfold notify; cbn [filter]; destruct (subscribed l _ _); cbn; lia|].
    assert (HS : forall cs, ser_of (map EvUbx cs ++ ev) = ser_of ev) by (intros cs; unfold ser_of; induction cs as [|c cs IH]; [reflexivity|exact IH]).
    assert (HR : forall cs, rtk_of (map EvUbx cs ++ ev) = rtk_of ev) by (intros cs; unfold rtk_of; induction cs as [|c cs IH]; [reflexivity|exact IH]).
    split; [rewrite !HS; reflexivity|]. split; [rewrite !HR; reflexivity|]. intros Hf.
    rewrite notify_app, map_app, !filter_app, (filter_not _ _ Hn), (filter_to _ _ Hn), !app_nil_r.
    destruct (filter_calls_fresh (u_ls s) (ml_id l) y Hf) as [A1 A2]. destruct (filter_calls_only l y) as [B1 B2].
    rewrite A1, A2, B1, B2, app_nil_r. split; reflexivity.
Qed.
Lemma byte_ls_same s b s1 e : ublox_byte s b = Ok (s1, e) -> u_ls s1 = u_ls s.
Proof.
  intros E. destruct (byte_shape s b) as [[k H]|[(x & ev & Hn & H)|(x & y & ev & Hn & H)]]; pose proof (H (u_ls s)) as H0; rewrite uw_ls_self in H0; rewrite E in H0.
  - discriminate.
  - assert (s1 = uw_ls x (u_ls s)) by congruence. subst s1. reflexivity.
  - assert (s1 = uw_ls x (u_ls s)) by congruence. subst s1. reflexivity.
Qed.
Lemma reg_stream bs : forall s l,
  match ublox_read s bs with
  | UB k => ublox_read (ublox_register s l) bs = UB k
  | Ok (s1, e) => exists ex e',
      ublox_read (only s l) bs = Ok (only s1 l, ex) /\ ublox_read (ublox_register s l) bs = Ok (ublox_register s1 l, e') /\
      ser_of e' = ser_of e /\ rtk_of e' = rtk_of e /\
      (fresh_id s (ml_id l) -> filter (fun v => negb (goes_to (ml_id l) v)) e' = e /\ filter (goes_to (ml_id l)) e' = filter (goes_to (ml_id l)) ex)
  end.
Proof.
  induction bs as [|b r IH]; intros s l; cbn [ublox_read].
  - exists [], []. repeat split.
  - pose proof (reg_byte s l b) as HB. destruct (ublox_byte s b) as [[s1 e1]|k] eqn:E1; cbn [bind]; [|rewrite HB; reflexivity].
    destruct HB as (ex & e' & A1 & A2 & _ & _ & A3 & A4 & A5). rewrite A1, A2. cbn [bind].
    specialize (IH s1 l). destruct (ublox_read s1 r) as [[s2 e2]|k] eqn:E2; cbn [bind]; [|rewrite IH; reflexivity].
    destruct IH as (ex2 & e2' & B1 & B2 & B3 & B4 & B5). rewrite B1, B2. cbn [bind].
    exists (ex ++ ex2), (e' ++ e2'). split; [reflexivity|]. split; [reflexivity|].
    unfold ser_of, rtk_of in *. rewrite !flat_map_app. split; [congruence|]. split; [congruence|]. intros Hf.
    destruct (A5 Hf) as [C1 C2]. assert (Hf1 : fresh_id s1 (ml_id l)) by (unfold fresh_id; rewrite (byte_ls_same _ _ _ _ E1); exact Hf).
    destruct (B5 Hf1) as [D1 D2]. rewrite !filter_app. split; congruence.
Qed.
(* commands do not look at the listeners *)
Lemma usends_reg l fs : forall s, 
  usends fs (ublox_register s l) = let* (s1, e) := usends fs s in Ok (ublox_register s1 l, e).
Proof.
  induction fs as [|f r IH]; intros s; cbn [usends bind]; [reflexivity|]. unfold usend. cbn [ublox_register uw_ls u_out].
  destruct (f (u_out s)) as [[o w]|k]; cbn [bind]; [|reflexivity].
  change (uw_out (ublox_register s l) o) with (ublox_register (uw_out s o) l).
  change (uw_out (mkUblox (u_ubx s) (u_out s) (u_ls s ++ [l]) (u_rtcm s) (u_nreg s) (u_type s) (u_rtk s)) o) with (ublox_register (uw_out s o) l).
  rewrite IH. destruct (usends r (uw_out s o)) as [[s2 e2]|k]; reflexivity.
Qed.
Lemma config_reg s l iface st :
  config_base (ublox_register s l) iface st = (let* (s1, e) := config_base s iface st in Ok (ublox_register s1 l, e)) /\
  config_rover (ublox_register s l) iface = (let* (s1, e) := config_rover s iface in Ok (ublox_register s1 l, e)).
Proof.
  split.
  - unfold config_base. apply (usends_reg l _ (uw_mode s (S (u_nreg s)) T_BASE iface)).
  - unfold config_rover. change (uw_mode (ublox_register s l) (u_nreg (ublox_register s l)) T_ROVER (u_rtk (ublox_register s l)))
      with (ublox_register (uw_mode s (u_nreg s) T_ROVER (u_rtk s)) l).
    rewrite usends_reg. destruct (usends _ _) as [[s1 e]|k]; reflexivity.
Qed.
