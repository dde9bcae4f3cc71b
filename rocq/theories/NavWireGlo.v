(* C82: GLONASS ephemerides from the bytes on the port; no fault before 2038. *)
From Coq Require Import Permutation.
From Verif Require Import Base UbxSpec UbxModel UbxProofs UbxStream UbxMain UbxMore UbxHist UbxApi
  UbxTx UbxTxSpec UbxTxApi CrcSpec RtcmModel RtcmSpec RtcmProofs RtcmApi UbloxModel UbloxSpec UbloxProofs UbloxApi UbloxThm
  BitModel BitProofs UtcModel UtcSpec Dbl NavModel NavSpec NavStrSpec NavGloSpec NavGlo NavObj NavGpsSpec NavGpsThm NavGpsApi NavIso NavDev NavWire NavGloThm NavGalSpec NavGal NavGalThm NavSafe NavWireGal.
Local Open Scope Z_scope.

(* ---------------------------------------------------------------- specification *)
Definition gev_for (sv : Z) (e : nev) : bool := match e with EvGeph _ g => gi g Gsat =? sv | _ => false end.
Definition glo_frame (sv : Z) (pl : list Z) : bool := (nth 0 pl 0 =? 6) && (nth 1 pl 0 =? sv).
(* What is called while the RXM-SFRBX payloads pls are processed one after the other, told from the point of view of GLONASS
   satellite sv: T what is held for it, t the parser's clock.  A GPS ephemeris d moves the clock to its reference time. *)
Inductive glo_story (sv : Z) (ecb gcb : list Z) : gtrack -> utc -> list (list Z) -> list nev -> Prop :=
| gs_end T t : glo_story sv ecb gcb T t [] []
| gs_own T t pl pls g fell v : glo_frame sv pl = true -> filter (gev_for sv) fell = [] ->
    (g_fires sv T t (pwords pl) = true -> glo_content sv (nth 3 pl 0) (g_step sv T (t, pwords pl)) g) ->
    glo_story sv ecb gcb (g_step sv T (t, pwords pl)) t pls v ->
    glo_story sv ecb gcb T t (pl :: pls) (fell ++ (if g_fires sv T t (pwords pl) then map (fun c => EvGeph c g) gcb else []) ++ v)
| gs_gps T t pl pls d v : nth 0 pl 0 = 0 ->
    (forall r, d = Some r -> e_toe r <> mkUtc 0 0) ->
    glo_story sv ecb gcb T (match d with Some r => e_toe r | None => t end) pls v ->
    glo_story sv ecb gcb T t (pl :: pls) (match d with Some r => map (fun c => EvEph c r) ecb | None => [] end ++ v)
| gs_other T t pl pls e v : glo_frame sv pl = false -> nth 0 pl 0 <> 0 -> filter (gev_for sv) e = [] ->
    glo_story sv ecb gcb T t pls v -> glo_story sv ecb gcb T t (pl :: pls) (e ++ v).
(* a complete frame with times before the end of 2037: GPS week numbers up to 977 (of the era the code assumes), Galileo up to
   2000 and no Galileo satellite 0 *)
Definition before2038 (pl : list Z) : Prop :=
  4 <= Zlen pl /\ sfr_need (nth 0 pl 0) <= Zlen pl /\
  (nth 0 pl 0 = 0 -> gps_id (pwords pl) = 1 -> dfield (pwords pl) 48 10 <= 977) /\
  (nth 0 pl 0 = 2 -> nth 1 pl 0 <> 0 /\ (l_usable (pwords pl) = true -> wtype (inav (pwords pl)) = 0 -> wfield (inav (pwords pl)) 96 12 <= 2000)).

(* ---------------------------------------------------------------- proofs *)
Lemma all_run junk : forall ds mem s, (forall pl, In pl (sfr_pls ds) -> wholep pl) ->
  nav_run junk s (map NMsg (dsfr_msgs mem ds)) = nav_run junk s (map NMsg (map zmsg (sfr_pls ds))).
Proof.
  induction ds as [|d ds IH]; intros mem s HW; [reflexivity|].
  rewrite (sfr_pls_cons d ds) in *. rewrite dmsgs_cons, dmsgs_pls, map_app, map_app, map_app.
  assert (HW2 : forall pl, In pl (sfr_pls ds) -> wholep pl) by (intros pl Hp; apply HW; apply in_or_app; auto).
  destruct (one_at_most d) as [E|(pl & E)]; rewrite E in *; cbn [map app]; [apply IH; exact HW2|].
  destruct (HW pl (or_introl eq_refl)) as [H4 HN].
  cbn [map app nav_run nav_step]. unfold zmsg at 1. rewrite (complete_frames junk s pl (skipn (length pl) mem) (repeat 0 48) H4 HN).
  destruct (convertUBX junk s (sfrbx_of (pl ++ repeat 0 48))) as [((s1, e1), b1)|k]; [cbn [bind]|reflexivity]. rewrite IH by exact HW2. reflexivity.
Qed.
Lemma zfields pl : 4 <= Zlen pl -> sf_gnss (zmsg pl) = nth 0 pl 0 /\ sf_sv (zmsg pl) = nth 1 pl 0 /\ sf_freq (zmsg pl) = nth 3 pl 0 /\ sf_dw (zmsg pl) = pwords pl.
Proof. intros H. unfold Zlen in H. cbn [zmsg sfrbx_of sf_gnss sf_sv sf_freq sf_dw]. rewrite !nth_app_l by lia. repeat split. Qed.
Lemma before_calm pl : before2038 pl -> bytes_ok pl -> 1 <= Zlen pl <= 2048 -> calm (NMsg (zmsg pl)).
Proof.
  intros (H4 & _ & HG & HE) Hb Hl. destruct (zfields pl H4) as (E1 & E2 & E3 & E4). cbn [calm]. split; [apply zmsg_ok; assumption|]. rewrite E1, E2, E4. split; assumption.
Qed.
(* the invariant of calm histories, and the clocks in them *)
Lemma calm_hist junk st : junk_ok junk -> (forall sv, 1 <= sv <= 255 -> st (sv - 1) = repeat 0 380) -> forall h s ev, (forall o, In o h -> calm o) ->
  nav_run junk (nav_init st) h = Ok (s, ev) -> SI s /\ forall sv, clocks_ok (glog junk (nav_init st) sv h).
Proof.
  intros HJ HZ. induction h as [|o h IH] using rev_ind; intros s ev HC HR.
  - cbn in HR. assert (s = nav_init st) by congruence. subst. split; [apply si_init; exact HZ|]. intros sv t dw [].
  - apply nav_run_snoc in HR. destruct HR as (s1 & e1 & e2 & R1 & RS & _).
    destruct (IH s1 e1) as [I1 I2]; [intros x Hx; apply HC; apply in_or_app; auto|exact R1|].
    destruct (calm_step junk s1 o HJ (HC o ltac:(apply in_or_app; right; left; reflexivity)) I1) as (s' & e' & ES & HS).
    assert (s' = s) by congruence. subst s'. split; [exact HS|]. intros sv t dw Hin. rewrite (glog_snoc junk sv o h _ s1 e1 s e2 R1 RS) in Hin.
    apply in_app_or in Hin. destruct Hin as [Hin|Hin]; [exact (I2 sv t dw Hin)|]. destruct I1 as [K1 _ _ _].
    destruct o as [m|x|c|c]; cbn [logged] in Hin; try contradiction. destruct (is_glo sv m); [|contradiction]. destruct Hin as [E|[]].
    assert (t = n_time s1) by congruence. subst t. unfold clock_ok. change (2 ^ 40) with 1099511627776. split; [apply K1|lia].
Qed.
Lemma msgs_calm h : (forall o, In o h -> calm o) -> msgs_ok h.
Proof. intros H m Hm. apply (H _ Hm). Qed.

(* a released GPS record's reference time is after 1970 *)
Lemma gps_clock junk s m s' ev : junk_ok junk -> SI s -> calm (NMsg m) -> sf_gnss m = 0 -> nav_step junk s (NMsg m) = Ok (s', ev) ->
  exists d, ev = calls_eph (n_ecb s) d /\ n_time s' = match d with Some r => e_toe r | None => n_time s end /\ forall r, d = Some r -> e_toe r <> mkUtc 0 0.
Proof.
  intros HJ HI (Hm & HGW & _) G RS. destruct HI as [H1 H2 H3 H4]. pose proof (convert_gps junk s m G) as HV.
  destruct (decodeGPS_range junk (sf_dw m) (start_rec s m) HJ (proj1 Hm) (HGW G) (erange_start s m (H2 _))) as (e' & d & r & ED & ER & CT). rewrite ED in HV.
  destruct HV as (x & EC & _ & _ & _ & KT). cbn [nav_step] in RS. rewrite EC in RS. cbn [bind] in RS. assert (x = s') by congruence. subst x.
  exists d. split; [congruence|]. split; [exact KT|]. intros r0 ->. destruct CT as [_ CT]. intros X. rewrite X in CT. cbn [sec] in CT. lia.
Qed.
Lemma gal_silent cbs st dw e st' e' ev b sv : decodeGalileo cbs st dw e = Ok (st', e', ev, b) -> filter (gev_for sv) ev = [].
Proof.
  assert (QE : forall d, filter (gev_for sv) (map (fun c => EvEph c d) cbs) = []) by (intros d; induction cbs as [|c r IH]; [reflexivity|exact IH]).
  unfold decodeGalileo. intros H.
  apply bind_inv in H; destruct H as (x1 & _ & H). apply bind_inv in H; destruct H as (x2 & _ & H). apply bind_inv in H; destruct H as (x3 & _ & H). apply bind_inv in H; destruct H as (x4 & _ & H).
  destruct (_ || _) in H; [assert (ev = []) as -> by congruence; reflexivity|]. destruct (_ || _) in H; [assert (ev = []) as -> by congruence; reflexivity|].
  apply bind_inv in H; destruct H as (ok & _ & H). destruct (negb ok); [assert (ev = []) as -> by congruence; reflexivity|].
  apply bind_inv in H; destruct H as (ty & _ & H). destruct (6 <? ty); [assert (ev = []) as -> by congruence; reflexivity|]. destruct (negb _) in H; [discriminate|].
  apply bind_inv in H; destruct H as (y1 & _ & H). apply bind_inv in H; destruct H as (y2 & _ & H). cbv zeta in H.
  destruct (negb _) in H; [assert (ev = []) as -> by congruence; reflexivity|].
  apply bind_inv in H; destruct H as ((e1 & k) & _ & H). destruct (negb k); [assert (ev = []) as -> by congruence; reflexivity|].
  assert (EV : ev = EvFell FN_PRINT :: map (fun c => EvEph c e1) cbs) by congruence. rewrite EV. exact (QE e1).
Qed.
(* other constellations and other satellites are not heard of by this one's listeners *)
Lemma other_silent junk s m s' ev sv : msg_ok m -> is_glo sv m = false -> clock_ok (n_time s) -> (forall v, exists T, GG T (geph_of s v)) -> nav_step junk s (NMsg m) = Ok (s', ev) ->
  filter (gev_for sv) ev = [].
Proof.
  intros Hm EG HC HI RS. cbn [nav_step] in RS. unfold is_glo in EG.
  assert (QE : forall cbs d, filter (gev_for sv) (map (fun c => EvEph c d) cbs) = []) by (induction cbs; intros; [reflexivity|exact (IHcbs d)]).
  destruct (Z.eq_dec (sf_gnss m) 6) as [G|G6]; [|destruct (Z.eq_dec (sf_gnss m) 2) as [G|G2]; [|destruct (Z.eq_dec (sf_gnss m) 0) as [G|G0]]].
  - assert (NE : sf_sv m <> sv) by lia. assert (EG' : is_glo (sf_sv m) m = true) by (unfold is_glo; lia). destruct (HI (sf_sv m)) as (T & HT).
    pose proof (glo_message junk s m (sf_sv m) T (n_gcb s) eq_refl Hm EG' HC HT) as HX. cbv zeta in HX.
    destruct (g_usable (sf_sv m) (n_time s) (sf_dw m) && late (n_time s) (sf_dw m)); [rewrite HX in RS; discriminate|].
    destruct HX as (x & g & EC & _ & _ & CT). rewrite EC in RS. cbn [bind] in RS.
    assert (EV : ev = (if g_usable (sf_sv m) (n_time s) (sf_dw m) && in14 (sf_dw m) then [EvFell FN_GLOFRAME] else []) ++
      (if g_fires (sf_sv m) T (n_time s) (sf_dw m) then map (fun c => EvGeph c g) (n_gcb s) else [])) by congruence. rewrite EV, filter_app.
    assert (F1 : forall b : bool, filter (gev_for sv) (if b then [EvFell FN_GLOFRAME] else []) = []) by (intros []; reflexivity). rewrite F1. cbn [app].
    destruct (g_fires _ _ _ _); [|reflexivity]. destruct (CT eq_refl) as (m1 & tof & m2 & toe & m3 & m4 & _ & _ & _ & _ & ES & _).
    clear -ES NE. induction (n_gcb s) as [|c r IH]; [reflexivity|]. cbn [map filter gev_for]. replace (gi g Gsat =? sv) with false by lia. exact IH.
  - pose proof (convert_gal junk s m G) as HV. destruct (decodeGalileo _ _ _ _) as [(((st', e'), ev'), b')|k] eqn:ED; [|rewrite HV in RS; discriminate].
    destruct HV as (x & EV & _). rewrite EV in RS. cbn [bind] in RS. assert (ev = ev') by congruence. subst ev.
    exact (gal_silent _ _ _ _ _ _ _ _ sv ED).
  - pose proof (convert_gps junk s m G) as HV. destruct (decodeGPS _ _ _) as [((e', d), b')|k]; [|rewrite HV in RS; discriminate].
    destruct HV as (x & EV & _). rewrite EV in RS. cbn [bind] in RS. assert (EE : ev = calls_eph (n_ecb s) d) by congruence. rewrite EE. destruct d; [apply QE|reflexivity].
  - destruct (convert_other junk s m G0 G2 G6) as (x & EV & _). rewrite EV in RS. cbn [bind] in RS.
    assert (EE : ev = [EvFell (if sf_gnss m =? 3 then FN_BEIDOU else FN_CONVERT)]) by congruence. rewrite EE. reflexivity.
Qed.

Lemma zglo sv pl : 4 <= Zlen pl -> is_glo sv (zmsg pl) = glo_frame sv pl.
Proof. intros H. destruct (zfields pl H) as (E1 & E2 & _). unfold is_glo, glo_frame. rewrite E1, E2. reflexivity. Qed.
Lemma cbs_kept junk m s s' ev : nav_step junk s (NMsg m) = Ok (s', ev) -> n_gcb s' = n_gcb s /\ n_ecb s' = n_ecb s.
Proof.
  intros RS. destruct (gcb_hist junk [NMsg m] s s' (ev ++ [])) as [H1 H2]; [cbn [nav_run]; rewrite RS; reflexivity|]. cbn in H1, H2. rewrite app_nil_r in H1, H2. auto.
Qed.
(* the story of the frames processed by the parser *)
Lemma glo_run junk sv : junk_ok junk -> forall pls s T, SI s -> GG T (geph_of s sv) -> (forall pl, In pl pls -> before2038 pl /\ bytes_ok pl /\ 1 <= Zlen pl <= 2048) ->
  exists s' v, nav_run junk s (map NMsg (map zmsg pls)) = Ok (s', v) /\ SI s' /\ glo_story sv (n_ecb s) (n_gcb s) T (n_time s) pls v.
Proof.
  intros HJ. induction pls as [|pl pls IH]; intros s T HI HG HB; [exists s, []; split; [reflexivity|]; split; [exact HI|constructor]|].
  destruct (HB pl (or_introl eq_refl)) as (B1 & B2 & B3). pose proof (before_calm pl B1 B2 B3) as HC. pose proof (proj1 B1) as H4.
  destruct (zfields pl H4) as (F1 & F2 & F3 & F4).
  destruct (calm_step junk s (NMsg (zmsg pl)) HJ HC HI) as (s1 & e1 & ES & HI1). destruct (cbs_kept _ _ _ _ _ ES) as [C1 C2].
  assert (HM : msg_ok (zmsg pl)) by apply HC.
  assert (CK : clock_ok (n_time s)) by (destruct HI as [[K1 K2] _ _ _]; split; [exact K1|change (2 ^ 40) with 1099511627776; lia]).
  pose proof (clock junk s (NMsg (zmsg pl)) s1 e1 ES) as CL. cbv beta iota in CL. rewrite F1 in CL.
  assert (REST : forall T1, GG T1 (geph_of s1 sv) -> exists s' v, nav_run junk s1 (map NMsg (map zmsg pls)) = Ok (s', v) /\ SI s' /\ glo_story sv (n_ecb s) (n_gcb s) T1 (n_time s1) pls v).
  { intros T1 HG1. destruct (IH s1 T1 HI1 HG1) as (s' & v & R & I' & S'); [intros q Hq; apply HB; right; exact Hq|]. exists s', v. split; [exact R|]. split; [exact I'|]. rewrite <- C1, <- C2. exact S'. }
  cbn [map nav_run]. rewrite ES. cbn [bind]. destruct (glo_frame sv pl) eqn:EF.
  - assert (EG : is_glo sv (zmsg pl) = true) by (rewrite zglo; assumption). assert (N0 : nth 0 pl 0 =? 0 = false) by (unfold glo_frame in EF; lia). rewrite N0 in CL.
    pose proof (glo_message junk s (zmsg pl) sv T (n_gcb s) eq_refl HM EG CK HG) as HX. cbv zeta in HX. rewrite F4, F3 in HX. cbn [nav_step] in ES.
    destruct (g_usable sv (n_time s) (pwords pl) && late (n_time s) (pwords pl)); [rewrite HX in ES; discriminate|].
    destruct HX as (x & g & EC & HG1 & _ & CT). rewrite EC in ES. cbn [bind] in ES. assert (x = s1) by congruence. subst x.
    destruct (REST _ HG1) as (s' & v & R & I' & S'). rewrite R. cbn [bind]. exists s', (e1 ++ v). split; [reflexivity|]. split; [exact I'|].
    assert (EV : e1 = (if g_usable sv (n_time s) (pwords pl) && in14 (pwords pl) then [EvFell FN_GLOFRAME] else []) ++
      (if g_fires sv T (n_time s) (pwords pl) then map (fun c => EvGeph c g) (n_gcb s) else [])) by congruence.
    rewrite EV, <- app_assoc. rewrite CL in S'. apply gs_own; [exact EF| |exact CT|exact S']. destruct (_ && _); reflexivity.
  - assert (EG : is_glo sv (zmsg pl) = false) by (rewrite zglo; assumption).
    assert (HG1 : GG T (geph_of s1 sv)).
    { pose proof ES as ES'. cbn [nav_step] in ES'. apply bind_inv in ES'. destruct ES' as (((x, y), z) & EC & E). assert (x = s1) by congruence. subst x. rewrite (geph_other junk s _ _ _ _ sv EC EG). exact HG. }
    destruct (REST _ HG1) as (s' & v & R & I' & S'). rewrite R. cbn [bind]. exists s', (e1 ++ v). split; [reflexivity|]. split; [exact I'|].
    destruct (Z.eqb_spec (nth 0 pl 0) 0) as [G|G].
    + destruct (gps_clock junk s (zmsg pl) s1 e1 HJ HI HC ltac:(rewrite F1; exact G) ES) as (d & -> & KT & NZ). rewrite KT in S'. apply gs_gps; assumption.
    + rewrite CL in S'. apply gs_other; [exact EF|exact G| |exact S'].
      apply (other_silent junk s (zmsg pl) s1 e1 sv HM EG CK); [apply HI|exact ES].
Qed.

(* ---------------------------------------------------------------- one set of strings *)
(* the check passes *)
Definition good_str (pl : list Z) : bool := str_accept (bn (pwords pl)).
(* a frame of the satellite with string number k of superframe mark mk, in order *)
Definition str_frame (sv k mk : Z) (pl : list Z) : Prop := glo_frame sv pl = true /\ good_str pl = true /\ str_no (pwords pl) = k /\ str_mark (pwords pl) = mk.
(* frames before and after the set: anything but an accepted string 4 of the satellite; frames inside it: of the
   satellite, only strings that fail the check and almanac strings (number not 1..4) of the same mark *)
Definition outside (sv : Z) (pl : list Z) : Prop := glo_frame sv pl = true -> good_str pl = true -> str_no (pwords pl) <> 4.
Definition inside (sv mk : Z) (pl : list Z) : Prop := glo_frame sv pl = true -> good_str pl = true -> ~ 1 <= str_no (pwords pl) <= 4 /\ str_mark (pwords pl) = mk.

Definition set_clock (t : utc) : Prop := t <> mkUtc 0 0.
Lemma set_clock_b t : set_clock t -> (sec t =? 0) && (nsec t =? 0) = false.
Proof. intros H. destruct t as [a b]. cbn [sec nsec]. apply not_true_is_false. intros E. apply H. f_equal; lia. Qed.
Lemma no_eph sv cbs d : filter (gev_for sv) (map (fun c => EvEph c d) cbs) = [].
Proof. induction cbs as [|c r IH]; [reflexivity|exact IH]. Qed.
Lemma clk_kept (d : option eph) t : set_clock t -> (forall r, d = Some r -> e_toe r <> mkUtc 0 0) -> set_clock (match d with Some r => e_toe r | None => t end).
Proof. intros H HD. destruct d; [apply HD; reflexivity|exact H]. Qed.
Lemma gps_nil sv ecb d : filter (gev_for sv) (match d with Some r => map (fun c => EvEph c r) ecb | None => [] end) = [].
Proof. destruct d; [apply no_eph|reflexivity]. Qed.
(* frames with no accepted string 4 release nothing; frames inside a set leave what is held *)
Lemma peel sv ecb gcb : forall p q T t v, Forall (outside sv) p -> glo_story sv ecb gcb T t (p ++ q) v ->
  exists T1 t1 v1 v2, v = v1 ++ v2 /\ filter (gev_for sv) v1 = [] /\ glo_story sv ecb gcb T1 t1 q v2 /\ (set_clock t -> set_clock t1) /\
    (forall mk, Forall (inside sv mk) p -> gk_mark T = mk -> T1 = T).
Proof.
  induction p as [|pl p IH]; intros q T t v HO HS; [exists T, t, [], v; repeat split; auto|].
  inversion HO as [|? ? O1 O2]; subst. cbn [app] in HS. inversion HS as [|T0 t0 pl0 pls0 g fell w F1 F2 F3 F4|T0 t0 pl0 pls0 d w G1 G2 G3|T0 t0 pl0 pls0 e w E1 E2 E3 E4]; subst.
  - assert (NF : g_fires sv T t (pwords pl) = false).
    { unfold g_fires. destruct (g_usable sv t (pwords pl)) eqn:U; [|reflexivity]. unfold g_usable in U. apply andb_true_iff in U. destruct U as [_ U].
      pose proof (O1 F1 U). replace (str_no (pwords pl) =? 4) with false by lia. reflexivity. }
    destruct (IH _ _ _ _ O2 F4) as (T1 & t1 & v1 & v2 & -> & N1 & S1 & K1 & M1). exists T1, t1, (fell ++ v1), v2. rewrite NF. cbn [app]. rewrite app_assoc.
    split; [reflexivity|]. split; [rewrite filter_app, F2, N1; reflexivity|]. split; [exact S1|]. split; [exact K1|].
    intros mk HI EM. inversion HI as [|? ? I1 I2]; subst. assert (ET : g_step sv T (t, pwords pl) = T).
    { unfold g_step. destruct (g_usable sv t (pwords pl)) eqn:U; [|reflexivity]. rewrite NF. unfold g_usable in U. apply andb_true_iff in U. destruct U as [_ U].
      destruct (I1 F1 U) as [I3 I4]. unfold g_recv. rewrite I4, Z.eqb_refl.
      replace (str_no (pwords pl) =? 1) with false by lia. replace (str_no (pwords pl) =? 2) with false by lia. replace (str_no (pwords pl) =? 3) with false by lia. replace (str_no (pwords pl) =? 4) with false by lia. reflexivity. }
    rewrite ET in M1. apply (M1 _ I2 eq_refl).
  - destruct (IH _ _ _ _ O2 G3) as (T1 & t1 & v1 & v2 & -> & N1 & S1 & K1 & M1). eexists T1, t1, (_ ++ v1), v2. rewrite app_assoc.
    split; [reflexivity|]. split; [rewrite filter_app, gps_nil, N1; reflexivity|]. split; [exact S1|]. split; [intros K; apply K1, clk_kept; assumption|].
    intros mk HI EM. inversion HI; subst. eapply M1; eauto.
  - destruct (IH _ _ _ _ O2 E4) as (T1 & t1 & v1 & v2 & -> & N1 & S1 & K1 & M1). exists T1, t1, (e ++ v1), v2. rewrite app_assoc.
    split; [reflexivity|]. split; [rewrite filter_app, E3, N1; reflexivity|]. split; [exact S1|]. split; [exact K1|].
    intros mk HI EM. inversion HI; subst. eapply M1; eauto.
Qed.
Lemma inside_outside sv mk p : Forall (inside sv mk) p -> Forall (outside sv) p.
Proof. intros H. eapply Forall_impl; [|exact H]. intros pl HI F1 F2. destruct (HI F1 F2). lia. Qed.
Lemma peel_in sv ecb gcb p q T t v mk : Forall (inside sv mk) p -> gk_mark T = mk -> glo_story sv ecb gcb T t (p ++ q) v ->
  exists t1 v1 v2, v = v1 ++ v2 /\ filter (gev_for sv) v1 = [] /\ glo_story sv ecb gcb T t1 q v2 /\ (set_clock t -> set_clock t1).
Proof.
  intros HI EM HS. destruct (peel sv ecb gcb p q T t v (inside_outside _ _ _ HI) HS) as (T1 & t1 & v1 & v2 & E & N & S & K & M).
  rewrite (M mk HI EM) in S. exists t1, v1, v2. auto.
Qed.
(* a frame of the set *)
Lemma take sv ecb gcb k mk pl q T t v : sv <> 255 -> set_clock t -> str_frame sv k mk pl -> k <> 4 -> glo_story sv ecb gcb T t (pl :: q) v ->
  exists v1 v2, v = v1 ++ v2 /\ filter (gev_for sv) v1 = [] /\ glo_story sv ecb gcb (g_recv T t (pwords pl)) t q v2 /\ gk_mark (g_recv T t (pwords pl)) = mk.
Proof.
  intros N5 HC (F1 & F2 & F3 & F4) K4 HS.
  assert (U : g_usable sv t (pwords pl) = true) by (unfold g_usable; rewrite (set_clock_b t HC); unfold good_str in F2; rewrite F2; replace (sv =? 255) with false by lia; reflexivity).
  assert (NF : g_fires sv T t (pwords pl) = false) by (unfold g_fires; rewrite U, F3; replace (k =? 4) with false by lia; reflexivity).
  assert (EM : gk_mark (g_recv T t (pwords pl)) = mk).
  { unfold g_recv. rewrite F4. destruct (Z.eqb_spec mk (gk_mark T)) as [E|E]; repeat (destruct (str_no (pwords pl) =? _); [cbn [gk_mark]; congruence|]); cbn [gk_mark]; congruence. }
  inversion HS as [|T0 t0 pl0 pls0 g fell w E1 E2 E3 E4|T0 t0 pl0 pls0 d w G1 G2 G3|T0 t0 pl0 pls0 e w E1 E2 E3 E4]; subst.
  - rewrite NF. exists fell, w. split; [reflexivity|]. split; [exact E2|]. split; [|exact EM]. unfold g_step in E4. rewrite U, NF in E4. exact E4.
  - unfold glo_frame in F1. lia.
  - congruence.
Qed.
Definition tod1 (m : list Z) (x : Z) : Prop := (x + 10800) mod 86400 = (3600 * sfield m 9 5 + 60 * sfield m 14 6 + 30 * sfield m 20 1) mod 86400.
Definition tod2 (m : list Z) (x : Z) : Prop := (x + 10800) mod 86400 = (900 * sfield m 9 7) mod 86400.
Lemma day0_tod t x : (day0 t + x + 10800) mod 86400 = x mod 86400.
Proof. unfold day0. replace ((sec t + 10800) / 86400 * 86400 - 10800 + x + 10800) with (x + ((sec t + 10800) / 86400) * 86400) by ring. apply Z_mod_plus_full. Qed.
Lemma near_tod t x : (near_day t x + 10800) mod 86400 = (x + 10800) mod 86400.
Proof.
  unfold near_day. destruct (_ <? _); [replace (x + 86400 + 10800) with (x + 10800 + 1 * 86400) by ring; apply Z_mod_plus_full|].
  destruct (_ <? _); [replace (x - 86400 + 10800) with (x + 10800 + (-1) * 86400) by ring; apply Z_mod_plus_full|reflexivity].
Qed.
(* string k (1, 2 or 3) of the set is held *)
Definition got (T : gtrack) (k : Z) (m : list Z) : Prop :=
  (k = 1 -> exists x, gk1 T = Some (m, x) /\ tod1 m x) /\ (k = 2 -> exists x, gk2 T = Some (m, x) /\ tod2 m x) /\ (k = 3 -> gk3 T = Some m).
Lemma got_new T t dw k : str_no dw = k -> got (g_recv T t dw) k dw.
Proof.
  intros E. unfold got, g_recv. rewrite E. repeat split; intros ->; cbn [Z.eqb Pos.eqb gk1 gk2 gk3].
  - eexists. split; [reflexivity|]. unfold tod1. replace (day0 t + 3600 * sfield dw 9 5 + 60 * sfield dw 14 6 + 30 * sfield dw 20 1) with (day0 t + (3600 * sfield dw 9 5 + 60 * sfield dw 14 6 + 30 * sfield dw 20 1)) by ring. apply day0_tod.
  - eexists. split; [reflexivity|]. apply day0_tod.
  - reflexivity.
Qed.
Lemma got_keep T t dw k m : str_mark dw = gk_mark T -> str_no dw <> k -> got T k m -> got (g_recv T t dw) k m.
Proof.
  intros EM NE (H1 & H2 & H3). unfold got, g_recv. rewrite EM, Z.eqb_refl.
  repeat split; intros ->; (destruct (Z.eqb_spec (str_no dw) 1); [|destruct (Z.eqb_spec (str_no dw) 2); [|destruct (Z.eqb_spec (str_no dw) 3); [|destruct (Z.eqb_spec (str_no dw) 4)]]]); cbn [gk1 gk2 gk3]; auto; congruence.
Qed.
Lemma all_calls sv gcb g : gi g Gsat = sv -> filter (gev_for sv) (map (fun c => EvGeph c g) gcb) = map (fun c => EvGeph c g) gcb.
Proof. intros E. induction gcb as [|c r IH]; [reflexivity|]. cbn [map filter gev_for]. rewrite E, Z.eqb_refl, IH. reflexivity. Qed.
(* the release *)
Lemma fire sv ecb gcb mk pl q T t v m1 m2 m3 : sv <> 255 -> set_clock t -> str_frame sv 4 mk pl -> gk_mark T = mk -> got T 1 m1 -> got T 2 m2 -> got T 3 m3 ->
  glo_story sv ecb gcb T t (pl :: q) v -> exists g T1 v1 v2 tof toe, v = v1 ++ v2 /\ filter (gev_for sv) v1 = map (fun c => EvGeph c g) gcb /\ glo_story sv ecb gcb T1 t q v2 /\
    glo_content sv (nth 3 pl 0) (mkG mk (Some (m1, tof)) (Some (m2, toe)) (Some m3) (Some (pwords pl))) g /\ tod1 m1 tof /\ tod2 m2 toe.
Proof.
  intros N5 HC (F1 & F2 & F3 & F4) EM (G1 & _ & _) (_ & G2 & _) (_ & _ & G3) HS.
  destruct (G1 eq_refl) as (x1 & K1 & D1). destruct (G2 eq_refl) as (x2 & K2 & D2). pose proof (G3 eq_refl) as K3.
  assert (U : g_usable sv t (pwords pl) = true) by (unfold g_usable; rewrite (set_clock_b t HC); unfold good_str in F2; rewrite F2; replace (sv =? 255) with false by lia; reflexivity).
  assert (ER : g_recv T t (pwords pl) = mkG mk (Some (m1, x1)) (Some (m2, x2)) (Some m3) (Some (pwords pl))).
  { unfold g_recv. rewrite F3, F4, EM, Z.eqb_refl. cbn [Z.eqb Pos.eqb]. rewrite K1, K2, K3, EM. reflexivity. }
  assert (NF : g_fires sv T t (pwords pl) = true) by (unfold g_fires; rewrite U, F3, ER; reflexivity).
  assert (ES : g_step sv T (t, pwords pl) = mkG mk (Some (m1, near_day t x1)) (Some (m2, near_day t x2)) (Some m3) (Some (pwords pl))) by (unfold g_step; rewrite U, NF, ER; reflexivity).
  inversion HS as [|T0 t0 pl0 pls0 g fell w E1 E2 E3 E4|T0 t0 pl0 pls0 d w X1 X2 X3|T0 t0 pl0 pls0 e w E1 E2 E3 E4]; subst.
  2:{ unfold glo_frame in F1. lia. }
  2:{ congruence. }
  rewrite NF. specialize (E3 NF). rewrite ES in E3. exists g, (g_step sv T (t, pwords pl)), (fell ++ map (fun c => EvGeph c g) gcb), w, (near_day t x1), (near_day t x2).
  split; [apply app_assoc|]. split.
  { rewrite filter_app, E2. cbn [app]. apply all_calls. destruct E3 as (? & ? & ? & ? & ? & ? & _ & _ & _ & _ & ES' & _). exact ES'. }
  split; [exact E4|]. split; [exact E3|]. split; [unfold tod1; rewrite near_tod; exact D1|unfold tod2; rewrite near_tod; exact D2].
Qed.
Lemma one_glo_set sv ecb gcb mk ka kb kc pa pb pc pd p0 p1 p2 p3 p4 T t v : sv <> 255 -> set_clock t -> Permutation [ka; kb; kc] [1; 2; 3] ->
  str_frame sv ka mk pa -> str_frame sv kb mk pb -> str_frame sv kc mk pc -> str_frame sv 4 mk pd ->
  Forall (outside sv) (p0 ++ p4) -> Forall (inside sv mk) (p1 ++ p2 ++ p3) ->
  glo_story sv ecb gcb T t (p0 ++ [pa] ++ p1 ++ [pb] ++ p2 ++ [pc] ++ p3 ++ [pd] ++ p4) v ->
  exists g m1 m2 m3 tof toe, filter (gev_for sv) v = map (fun c => EvGeph c g) gcb /\
    Permutation [(ka, pwords pa); (kb, pwords pb); (kc, pwords pc)] [(1, m1); (2, m2); (3, m3)] /\
    glo_content sv (nth 3 pd 0) (mkG mk (Some (m1, tof)) (Some (m2, toe)) (Some m3) (Some (pwords pd))) g /\ tod1 m1 tof /\ tod2 m2 toe.
Proof.
  intros N5 HC HP Fa Fb Fc Fd HO HI HS. apply Forall_app in HO. destruct HO as [O0 O4]. apply Forall_app in HI. destruct HI as [I1 HI]. apply Forall_app in HI. destruct HI as [I2 I3].
  assert (KS : (ka = 1 \/ ka = 2 \/ ka = 3) /\ (kb = 1 \/ kb = 2 \/ kb = 3) /\ (kc = 1 \/ kc = 2 \/ kc = 3) /\ ka <> kb /\ ka <> kc /\ kb <> kc).
  { assert (IN : forall k, In k [ka; kb; kc] -> k = 1 \/ k = 2 \/ k = 3) by (intros k Hk; apply (Permutation_in _ HP) in Hk; cbn [In] in Hk; intuition).
    assert (ND : NoDup [ka; kb; kc]) by (apply (Permutation_NoDup (Permutation_sym HP)); repeat constructor; cbn [In]; intuition discriminate).
    inversion ND as [|? ? A1 A2]; subst. inversion A2 as [|? ? B1 _]; subst. cbn [In] in *.
    split; [apply IN; auto|]. split; [apply IN; auto|]. split; [apply IN; auto|]. intuition congruence. }
  destruct KS as (Ka & Kb & Kc & Nab & Nac & Nbc).
  destruct (peel _ _ _ _ _ _ _ _ O0 HS) as (T0 & t0 & v0 & w0 & -> & Z0 & S0 & C0 & _). pose proof (C0 HC) as H0. cbn [app] in S0.
  destruct (take _ _ _ ka mk _ _ _ _ _ N5 H0 Fa ltac:(lia) S0) as (va & wa & -> & Za & Sa & Ma).
  pose proof (got_new T0 t0 (pwords pa) ka (proj1 (proj2 (proj2 Fa)))) as Ga. set (Ta := g_recv T0 t0 (pwords pa)) in *.
  destruct (peel_in _ _ _ _ _ _ _ _ mk I1 Ma Sa) as (t1 & v1 & w1 & -> & Z1 & S1 & C1). pose proof (C1 H0) as H1.
  destruct (take _ _ _ kb mk _ _ _ _ _ N5 H1 Fb ltac:(lia) S1) as (vb & wb & -> & Zb & Sb & Mb).
  pose proof (got_new Ta t1 (pwords pb) kb (proj1 (proj2 (proj2 Fb)))) as Gb.
  assert (Gab : got (g_recv Ta t1 (pwords pb)) ka (pwords pa)) by (apply got_keep; [destruct Fb as (_ & _ & _ & ->); congruence|destruct Fb as (_ & _ & -> & _); congruence|exact Ga]).
  set (Tb := g_recv Ta t1 (pwords pb)) in *.
  destruct (peel_in _ _ _ _ _ _ _ _ mk I2 Mb Sb) as (t2 & v2 & w2 & -> & Z2 & S2 & C2). pose proof (C2 H1) as H2.
  destruct (take _ _ _ kc mk _ _ _ _ _ N5 H2 Fc ltac:(lia) S2) as (vc & wc & -> & Zc & Sc & Mc).
  pose proof (got_new Tb t2 (pwords pc) kc (proj1 (proj2 (proj2 Fc)))) as Gc.
  assert (Gac : got (g_recv Tb t2 (pwords pc)) ka (pwords pa)) by (apply got_keep; [destruct Fc as (_ & _ & _ & ->); congruence|destruct Fc as (_ & _ & -> & _); congruence|exact Gab]).
  assert (Gbc : got (g_recv Tb t2 (pwords pc)) kb (pwords pb)) by (apply got_keep; [destruct Fc as (_ & _ & _ & ->); congruence|destruct Fc as (_ & _ & -> & _); congruence|exact Gb]).
  set (Tc := g_recv Tb t2 (pwords pc)) in *.
  destruct (peel_in _ _ _ _ _ _ _ _ mk I3 Mc Sc) as (t3 & v3 & w3 & -> & Z3 & S3 & C3). pose proof (C3 H2) as H3.
  assert (PERM : exists m1 m2 m3, Permutation [(ka, pwords pa); (kb, pwords pb); (kc, pwords pc)] [(1, m1); (2, m2); (3, m3)] /\ got Tc 1 m1 /\ got Tc 2 m2 /\ got Tc 3 m3).
  { destruct Ka as [->|[->| ->]], Kb as [->|[->| ->]], Kc as [->|[->| ->]]; try congruence.
    - exists (pwords pa), (pwords pb), (pwords pc). auto.
    - exists (pwords pa), (pwords pc), (pwords pb). split; [apply perm_skip, perm_swap|auto].
    - exists (pwords pb), (pwords pa), (pwords pc). split; [apply perm_swap|auto].
    - exists (pwords pc), (pwords pa), (pwords pb). split; [|auto]. apply perm_trans with [(2, pwords pa); (1, pwords pc); (3, pwords pb)]; [apply perm_skip, perm_swap|apply perm_swap].
    - exists (pwords pb), (pwords pc), (pwords pa). split; [|auto]. apply perm_trans with [(1, pwords pb); (3, pwords pa); (2, pwords pc)]; [apply perm_swap|apply perm_skip, perm_swap].
    - exists (pwords pc), (pwords pb), (pwords pa). split; [|auto]. apply perm_trans with [(2, pwords pb); (3, pwords pa); (1, pwords pc)]; [apply perm_swap|].
      apply perm_trans with [(2, pwords pb); (1, pwords pc); (3, pwords pa)]; [apply perm_skip, perm_swap|apply perm_swap]. }
  destruct PERM as (m1 & m2 & m3 & HPm & X1 & X2 & X3).
  destruct (fire _ _ _ mk _ _ _ _ _ m1 m2 m3 N5 H3 Fd Mc X1 X2 X3 S3) as (g & T4 & vd & wd & tof & toe & -> & Zd & Sd & GC & D1 & D2).
  rewrite <- (app_nil_r p4) in Sd. destruct (peel _ _ _ _ _ _ _ _ O4 Sd) as (T5 & t5 & v5 & w5 & -> & Z5 & S5 & _ & _). inversion S5; subst w5.
  exists g, m1, m2, m3, tof, toe. split; [|auto]. rewrite !filter_app, Z0, Za, Z1, Zb, Z2, Zc, Z3, Zd, Z5. cbn [app filter]. apply app_nil_r.
Qed.

(* ---------------------------------------------------------------- the device *)
Lemma glo_input junk st h nv ev0 sv ds mem : junk_ok junk -> (forall sv, 1 <= sv <= 255 -> st (sv - 1) = repeat 0 380) -> (forall o, In o h -> calm o) ->
  nav_run junk (nav_init st) h = Ok (nv, ev0) -> Forall fits ds -> (forall pl, In pl (sfr_pls ds) -> before2038 pl) ->
  exists nv' v, nav_run junk nv (map NMsg (dsfr_msgs mem ds)) = Ok (nv', v) /\
    glo_story sv (ecbs h) (gcbs h) (g_hist sv (glog junk (nav_init st) sv h)) (n_time nv) (sfr_pls ds) v.
Proof.
  intros HJ HZ HC HR HF HB. destruct (calm_hist junk st HJ HZ h nv ev0 HC HR) as [HI HK].
  pose proof (glo_hist junk st sv h nv ev0 (msgs_calm h HC) (HK sv) HR) as HG. destruct (gcb_hist junk h (nav_init st) nv ev0 HR) as [C1 C2]. cbn [nav_init n_gcb n_ecb app] in C1, C2.
  destruct (glo_run junk sv HJ (sfr_pls ds) nv _ HI HG) as (nv' & v & R & _ & S).
  { intros pl Hp. split; [apply HB; exact Hp|]. exact (pls_fit ds pl HF Hp). }
  exists nv', v. rewrite all_run by (intros pl Hp; destruct (HB pl Hp) as (H4 & HN & _); split; assumption). split; [exact R|]. rewrite <- C1, <- C2. exact S.
Qed.
Lemma glo_device junk st u ru n s ls nid h nv ev0 sv its t s2 ev2 :
  uninit_ok u -> runinit_ok ru -> UReach u ru n s -> u_type s <> T_BASE ->
  Forall listener_ok ls -> (forall l, In l ls -> lid l <> nid) -> u_ls s = map build (mkListener nid [(0x02, 0x13)] :: ls) ->
  junk_ok junk -> (forall sv, 1 <= sv <= 255 -> st (sv - 1) = repeat 0 380) -> (forall o, In o h -> calm o) -> nav_run junk (nav_init st) h = Ok (nv, ev0) ->
  parsing_message (u_ubx s) = false -> items_ok (prev (u_ubx s)) its -> tail_ok (items_last (prev (u_ubx s)) its) t -> bytes_ok (items_bytes its ++ t) ->
  (forall pl, In pl (sfr_pls (map DUbx its)) -> before2038 pl) -> ublox_read s (items_bytes its ++ t) = Ok (s2, ev2) ->
  exists nv' v, dev_read junk nid s nv (items_bytes its ++ t) = Ok (s2, nv', ev2, v) /\
    glo_story sv (ecbs h) (gcbs h) (g_hist sv (glog junk (nav_init st) sv h)) (n_time nv) (sfr_pls (map DUbx its)) v.
Proof.
  intros Hu Hru HR HT Hls HL EL HJ HZ HC HN HPm Hok Ht Hb HB E2. pose proof Hb as Hb'. apply bytes_ok_app in Hb'.
  destruct (glo_input junk st h nv ev0 sv (map DUbx its) (inbuf (u_ubx s)) HJ HZ HC HN (items_fit its _ Hok (proj1 Hb')) HB) as (nv' & v & R & S).
  exists nv', v. split; [|exact S]. rewrite dmsgs_ubx in R.
  rewrite (dev_read_split junk nid _ s nv s2 ev2 E2), (nav_input u ru n s ls nid its t s2 ev2 Hu Hru HR HT Hls HL EL HPm Hok Ht Hb E2), R. reflexivity.
Qed.
Lemma glo_device_base junk st u ru n s ls nid h nv ev0 sv ds s2 ev2 :
  uninit_ok u -> runinit_ok ru -> UReach u ru n s -> u_type s = T_BASE ->
  Forall listener_ok ls -> (forall l, In l ls -> lid l <> nid) -> u_ls s = map build (mkListener nid [(0x02, 0x13)] :: ls) ->
  junk_ok junk -> (forall sv, 1 <= sv <= 255 -> st (sv - 1) = repeat 0 380) -> (forall o, In o h -> calm o) -> nav_run junk (nav_init st) h = Ok (nv, ev0) ->
  parsing_message (u_ubx s) = false -> rtcm_parsing (u_rtcm s) = false -> ditems_ok (prev (u_ubx s)) ds -> bytes_ok (ditems_bytes ds) ->
  (forall pl, In pl (sfr_pls ds) -> before2038 pl) -> ublox_read s (ditems_bytes ds) = Ok (s2, ev2) ->
  exists nv' v, dev_read junk nid s nv (ditems_bytes ds) = Ok (s2, nv', ev2, v) /\
    glo_story sv (ecbs h) (gcbs h) (g_hist sv (glog junk (nav_init st) sv h)) (n_time nv) (sfr_pls ds) v.
Proof.
  intros Hu Hru HR HT Hls HL EL HJ HZ HC HN HPm HRp Hok Hb HB E2.
  destruct (glo_input junk st h nv ev0 sv ds (inbuf (u_ubx s)) HJ HZ HC HN (ditems_fit ds _ Hok Hb) HB) as (nv' & v & R & S).
  exists nv', v. split; [|exact S].
  rewrite (dev_read_split junk nid _ s nv s2 ev2 E2), (nav_input_base u ru n s ls nid ds s2 ev2 Hu Hru HR HT Hls HL EL HPm HRp Hok Hb E2), R. reflexivity.
Qed.
