(* GLONASS over histories. *)
From Verif Require Import Base UtcModel UtcSpec Dbl NavModel NavSpec NavGpsSpec NavStrSpec NavStr NavGloSpec NavDay NavObj NavGpsThm NavGlo.

Definition logged (sv : Z) (t : utc) (o : nop) : list (utc * list Z) :=
  match o with NMsg m => if is_glo sv m then [(t, sf_dw m)] else [] | _ => [] end.
Lemma glog_snoc junk sv o : forall h s s1 ev s2 ev2, nav_run junk s h = Ok (s1, ev) -> nav_step junk s1 o = Ok (s2, ev2) ->
  glog junk s sv (h ++ [o]) = glog junk s sv h ++ logged sv (n_time s1) o.
Proof.
  induction h as [|x h IH]; intros s s1 ev s2 ev2 HR HS.
  - cbn [nav_run] in HR. injection HR as <- _. cbn [app glog]. rewrite HS. rewrite app_nil_r. reflexivity.
  - cbn [nav_run] in HR. cbn [app glog]. destruct (nav_step junk s x) as [(sx, ex)|]; [|discriminate]. cbn [bind] in HR.
    destruct (nav_run junk sx h) as [(sy, ey)|] eqn:E; [|discriminate]. cbn [bind] in HR. injection HR as <- _.
    rewrite (IH sx sy ey s2 ev2 E HS). rewrite app_assoc. reflexivity.
Qed.
Definition clocks_ok (L : list (utc * list Z)) : Prop := forall t dw, In (t, dw) L -> clock_ok t.

Record GHInv (sv : Z) (h : list nop) (T : gtrack) (s : nav) : Prop := mkGHI { gh_g : GG T (geph_of s sv); gh_c : n_gcb s = gcbs h }.

Lemma gcb_hist junk : forall h s s' ev, nav_run junk s h = Ok (s', ev) -> n_gcb s' = n_gcb s ++ gcbs h /\ n_ecb s' = n_ecb s ++ ecbs h.
Proof.
  induction h as [|o h IH] using rev_ind; intros s s' ev HR.
  - cbn in HR. injection HR as <- _. cbn. rewrite !app_nil_r. auto.
  - apply nav_run_snoc in HR. destruct HR as (s1 & e1 & e2 & R1 & RS & _). apply IH in R1. destruct R1 as [R1 R2].
    rewrite gcbs_snoc, ecbs_snoc. rewrite !app_assoc, <- R1, <- R2.
    destruct o as [m|t|c|c]; cbn [nav_step] in RS.
    + rewrite !app_nil_r. destruct (Z.eq_dec (sf_gnss m) 6) as [G|G6]; [|destruct (Z.eq_dec (sf_gnss m) 2) as [G|G2]; [|destruct (Z.eq_dec (sf_gnss m) 0) as [G|G0]]].
      * pose proof (convert_glo junk s1 m G) as HV. destruct (decodeGlonass _ _ _ _ _ _ _) as [((g', ev'), b')|k]; [|rewrite HV in RS; discriminate].
        destruct HV as (x & EV & _ & (_ & _ & K3 & K4 & _)). rewrite EV in RS. injection RS as <- _. auto.
      * pose proof (convert_gal junk s1 m G) as HV. destruct (decodeGalileo _ _ _ _) as [(((st', e'), ev'), b')|k]; [|rewrite HV in RS; discriminate].
        destruct HV as (x & EV & _ & (_ & _ & K3 & K4) & _). rewrite EV in RS. injection RS as <- _. auto.
      * pose proof (convert_gps junk s1 m G) as HV. destruct (decodeGPS _ _ _) as [((e', d), b')|k]; [|rewrite HV in RS; discriminate].
        destruct HV as (x & EV & _ & (_ & _ & K3 & K4) & _). rewrite EV in RS. injection RS as <- _. auto.
      * destruct (convert_other junk s1 m G0 G2 G6) as (x & EV & _ & (_ & _ & K3 & K4) & _). rewrite EV in RS. injection RS as <- _. auto.
    + injection RS as <- _. rewrite !app_nil_r. auto.
    + injection RS as <- _. rewrite !app_nil_r. auto.
    + injection RS as <- _. rewrite !app_nil_r. auto.
Qed.

(* a message that is not a GLONASS message of sv leaves its record alone *)
Lemma geph_other junk s m s' ev r sv : convertUBX junk s m = Ok (s', ev, r) -> is_glo sv m = false -> geph_of s' sv = geph_of s sv.
Proof.
  intros RS EG. unfold is_glo in EG.
  destruct (Z.eq_dec (sf_gnss m) 6) as [G|G6]; [|destruct (Z.eq_dec (sf_gnss m) 2) as [G|G2]; [|destruct (Z.eq_dec (sf_gnss m) 0) as [G|G0]]].
  - pose proof (convert_glo junk s m G) as HV. destruct (decodeGlonass _ _ _ _ _ _ _) as [((g', ev'), b')|k]; [|rewrite HV in RS; discriminate].
    destruct HV as (x & EV & _ & (_ & K2 & _)). rewrite EV in RS. injection RS as <- _. apply K2. lia.
  - pose proof (convert_gal junk s m G) as HV. destruct (decodeGalileo _ _ _ _) as [(((st', e'), ev'), b')|k]; [|rewrite HV in RS; discriminate].
    destruct HV as (x & EV & _ & (_ & K2 & _) & _). rewrite EV in RS. injection RS as <- _. apply K2.
  - pose proof (convert_gps junk s m G) as HV. destruct (decodeGPS _ _ _) as [((e', d), b')|k]; [|rewrite HV in RS; discriminate].
    destruct HV as (x & EV & _ & (_ & K2 & _) & _). rewrite EV in RS. injection RS as <- _. apply K2.
  - destruct (convert_other junk s m G0 G2 G6) as (x & EV & _ & (_ & K2 & _) & _). rewrite EV in RS. injection RS as <- _. apply K2.
Qed.

(* a GLONASS message at the end of a history *)
Lemma glo_message junk s m sv T cbs : n_gcb s = cbs -> msg_ok m -> is_glo sv m = true -> clock_ok (n_time s) -> GG T (geph_of s sv) ->
  let t := n_time s in let dw := sf_dw m in
  if g_usable sv t dw && late t dw then convertUBX junk s m = UB UB_overflow
  else exists s' g, convertUBX junk s m = Ok (s', (if g_usable sv t dw && in14 dw then [EvFell FN_GLOFRAME] else []) ++ (if g_fires sv T t dw then map (fun c => EvGeph c g) cbs else []),
        Some ((negb (sv =? 255) && negb ((sec t =? 0) && (nsec t =? 0)) && negb (str_accept (bn dw))) || g_fires sv T t dw)) /\
      GG (g_step sv T (t, dw)) (geph_of s' sv) /\ same_but_g s s' sv /\
      (g_fires sv T t dw = true -> glo_content sv (sf_freq m) (g_step sv T (t, dw)) g).
Proof.
  intros <- (Hdw & _) HM HC HG t dw. unfold is_glo in HM. assert (G6 : sf_gnss m = 6) by lia. assert (SV : sf_sv m = sv) by lia.
  pose proof (convert_glo junk s m G6) as HV. rewrite SV in HV.
  pose proof (glo_decode (n_gcb s) T (geph_of s sv) (n_time s) sv (sf_freq m) (sf_dw m) HG HC Hdw (geph_of_sat s sv)) as HD.
  fold t dw in HD, HV. destruct (g_usable sv t dw && late t dw); [rewrite HD in HV; exact HV|].
  destruct HD as (g' & ev & r & E & H1 & H2 & H3 & H4). rewrite E in HV. destruct HV as (s' & EC & EG & HS).
  exists s', g'. rewrite EC, H2, H4, EG. auto.
Qed.

Lemma glo_hist junk st sv : forall h s ev, msgs_ok h -> clocks_ok (glog junk (nav_init st) sv h) ->
  nav_run junk (nav_init st) h = Ok (s, ev) -> GG (g_hist sv (glog junk (nav_init st) sv h)) (geph_of s sv).
Proof.
  induction h as [|o h IH] using rev_ind; intros s ev HM HC HR.
  - cbn in HR. injection HR as <- _. exact (gg_init sv).
  - apply nav_run_snoc in HR. destruct HR as (s1 & e1 & e2 & R1 & RS & _).
    rewrite (glog_snoc junk sv o h _ s1 e1 s e2 R1 RS) in *.
    assert (HI : GG (g_hist sv (glog junk (nav_init st) sv h)) (geph_of s1 sv)).
    { apply (IH s1 e1); [intros m Hm; apply HM; apply in_or_app; auto|intros t dw Hin; apply (HC t dw); apply in_or_app; auto|exact R1]. }
    destruct o as [m|t|c|c].
    2,3,4: cbn [logged]; rewrite app_nil_r; cbn [nav_step] in RS; injection RS as <- _; exact HI.
    cbn [nav_step] in RS. cbn [logged] in *. destruct (is_glo sv m) eqn:EG.
    + unfold g_hist. rewrite fold_left_app. fold (g_hist sv (glog junk (nav_init st) sv h)). cbn [fold_left].
      assert (Hm : msg_ok m) by (apply HM; apply in_or_app; right; left; reflexivity).
      assert (HT : clock_ok (n_time s1)) by (apply (HC (n_time s1) (sf_dw m)); apply in_or_app; right; left; reflexivity).
      pose proof (glo_message junk s1 m sv _ _ eq_refl Hm EG HT HI) as HX. cbv zeta in HX.
      destruct (g_usable sv (n_time s1) (sf_dw m) && late (n_time s1) (sf_dw m)); [rewrite HX in RS; discriminate|].
      destruct HX as (s' & g & EC & HG & _). rewrite EC in RS. cbn [bind] in RS. injection RS as <- _. exact HG.
    + rewrite app_nil_r. destruct (convertUBX junk s1 m) as [((s', ev'), r)|] eqn:EC; [|discriminate]. cbn [bind] in RS. injection RS as <- _.
      rewrite (geph_other junk s1 m s' ev' r sv EC EG). exact HI.
Qed.

Lemma glonass_release junk st sv h s ev m : msgs_ok h -> msg_ok m -> is_glo sv m = true ->
  clocks_ok (glog junk (nav_init st) sv h) -> clock_ok (n_time s) -> nav_run junk (nav_init st) h = Ok (s, ev) ->
  let T := g_hist sv (glog junk (nav_init st) sv h) in let t := n_time s in let dw := sf_dw m in
  (g_usable sv t dw = true -> (str_no dw = 1 \/ str_no dw = 2) -> 2147634000 <= sec t -> convertUBX junk s m = UB UB_overflow) /\
  (~ (g_usable sv t dw = true /\ (str_no dw = 1 \/ str_no dw = 2) /\ 2147634000 <= sec t) ->
   exists s' g r, convertUBX junk s m = Ok (s', (if g_usable sv t dw && ((1 <=? str_no dw) && (str_no dw <=? 4)) then [EvFell FN_GLOFRAME] else []) ++
       (if g_fires sv T t dw then map (fun c => EvGeph c g) (gcbs h) else []), Some r) /\
     (g_fires sv T t dw = true -> glo_content sv (sf_freq m) (g_step sv T (t, dw)) g) /\ n_time s' = n_time s).
Proof.
  intros HM Hm HG HC Ht HR T t dw.
  pose proof (glo_hist junk st sv h s ev HM HC HR) as HI. destruct (gcb_hist junk h (nav_init st) s ev HR) as [HGc _]. cbn [nav_init n_gcb app] in HGc.
  pose proof (glo_message junk s m sv T (gcbs h) HGc Hm HG Ht HI) as HX. cbv zeta in HX. fold t dw in HX. split.
  - intros U N L. assert (E : g_usable sv t dw && late t dw = true).
    { rewrite U. unfold late. destruct N as [-> | ->]; cbn [Z.eqb Pos.eqb orb andb]; lia. }
    rewrite E in HX. exact HX.
  - intros N. assert (E : g_usable sv t dw && late t dw = false).
    { destruct (g_usable sv t dw); [|reflexivity]. unfold late. cbn [andb]. apply not_true_is_false. intros X. apply N. split; [reflexivity|].
      destruct (Z.eqb_spec (str_no dw) 1); [split; [auto|lia]|]. destruct (Z.eqb_spec (str_no dw) 2); [split; [auto|lia]|]. discriminate. }
    rewrite E in HX. destruct HX as (s' & g & EC & _ & HSB & HCt). exists s', g. eexists. split; [exact EC|]. split; [exact HCt|]. apply HSB.
Qed.

(* the parser's clock *)
Lemma clock junk s o s' ev : nav_step junk s o = Ok (s', ev) ->
  match o with
  | NTime t => n_time s' = t
  | NMsg m => if sf_gnss m =? 0 then exists d, ev = calls_eph (n_ecb s) d /\ n_time s' = match d with Some r => e_toe r | None => n_time s end else n_time s' = n_time s
  | _ => n_time s' = n_time s
  end.
Proof.
  destruct o as [m|t|c|c]; cbn [nav_step]; intros RS; try (injection RS as <- _; reflexivity).
  destruct (Z.eqb_spec (sf_gnss m) 0) as [G0|G0].
  - pose proof (convert_gps junk s m G0) as HV. destruct (decodeGPS _ _ _) as [((e', d), b')|k]; [|rewrite HV in RS; discriminate].
    destruct HV as (x & EV & _ & _ & _ & KT). rewrite EV in RS. injection RS as <- <-. exists d. auto.
  - destruct (Z.eq_dec (sf_gnss m) 6) as [G|G6]; [|destruct (Z.eq_dec (sf_gnss m) 2) as [G|G2]].
    + pose proof (convert_glo junk s m G) as HV. destruct (decodeGlonass _ _ _ _ _ _ _) as [((g', ev'), b')|k]; [|rewrite HV in RS; discriminate].
      destruct HV as (x & EV & _ & (_ & _ & _ & _ & KT & _)). rewrite EV in RS. injection RS as <- _. exact KT.
    + pose proof (convert_gal junk s m G) as HV. destruct (decodeGalileo _ _ _ _) as [(((st', e'), ev'), b')|k]; [|rewrite HV in RS; discriminate].
      destruct HV as (x & EV & _ & _ & _ & KT). rewrite EV in RS. injection RS as <- _. exact KT.
    + destruct (convert_other junk s m G0 G2 G6) as (x & EV & _ & _ & _ & KT). rewrite EV in RS. injection RS as <- _. exact KT.
Qed.

(* ------------------------------------------------ where the held strings come from *)
Definition from_log (sv : Z) (L : list (utc * list Z)) (k mark : Z) (m : list Z) : Prop :=
  exists t, In (t, m) L /\ g_usable sv t m = true /\ str_no m = k /\ str_mark m = mark.
Record GP (sv : Z) (L : list (utc * list Z)) (T : gtrack) : Prop := mkGP {
  gp1 : forall m x, gk1 T = Some (m, x) -> from_log sv L 1 (gk_mark T) m;
  gp2 : forall m x, gk2 T = Some (m, x) -> from_log sv L 2 (gk_mark T) m;
  gp3 : forall m, gk3 T = Some m -> from_log sv L 3 (gk_mark T) m;
  gp4 : forall m, gk4 T = Some m -> from_log sv L 4 (gk_mark T) m }.
Lemma from_log_more sv L L' k mk m : from_log sv L k mk m -> from_log sv (L ++ L') k mk m.
Proof. intros (t & H & R). exists t. split; [apply in_or_app; auto|exact R]. Qed.
Lemma gp_more sv L L' T : GP sv L T -> GP sv (L ++ L') T.
Proof. intros [H1 H2 H3 H4]. split; intros; apply from_log_more; eauto. Qed.
Lemma gp_recv sv L T t dw : GP sv L T -> g_usable sv t dw = true -> GP sv (L ++ [(t, dw)]) (g_recv T t dw).
Proof.
  intros HP HU. assert (IN : In (t, dw) (L ++ [(t, dw)])) by (apply in_or_app; right; left; reflexivity).
  assert (HQ : let T' := unmark T dw in GP sv (L ++ [(t, dw)]) T' /\ gk_mark T' = str_mark dw).
  { cbv zeta. unfold unmark. destruct (Z.eqb_spec (str_mark dw) (gk_mark T)) as [E|E].
    - split; [apply gp_more; exact HP|symmetry; exact E].
    - split; [|reflexivity]. split; cbn; discriminate. }
  unfold g_recv. fold (unmark T dw). cbv zeta. cbv zeta in HQ. destruct HQ as [[H1 H2 H3 H4] HM].
  destruct (Z.eqb_spec (str_no dw) 1) as [N|N].
  { split; cbn [gk1 gk2 gk3 gk4 gk_mark]; try assumption. intros m x E. injection E as <- _. exists t. auto. }
  destruct (Z.eqb_spec (str_no dw) 2) as [N2|N2].
  { split; cbn [gk1 gk2 gk3 gk4 gk_mark]; try assumption. intros m x E. injection E as <- _. exists t. auto. }
  destruct (Z.eqb_spec (str_no dw) 3) as [N3|N3].
  { split; cbn [gk1 gk2 gk3 gk4 gk_mark]; try assumption. intros m E. injection E as <-. exists t. auto. }
  destruct (Z.eqb_spec (str_no dw) 4) as [N4|N4].
  { split; cbn [gk1 gk2 gk3 gk4 gk_mark]; try assumption. intros m E. injection E as <-. exists t. auto. }
  split; assumption.
Qed.
Lemma gp_step sv L T t dw : GP sv L T -> GP sv (L ++ [(t, dw)]) (g_step sv T (t, dw)).
Proof.
  intros HP. unfold g_step. destruct (g_usable sv t dw) eqn:EU; [|apply gp_more; exact HP].
  pose proof (gp_recv sv L T t dw HP EU) as HR. destruct (g_fires sv T t dw); [|exact HR]. destruct HR as [H1 H2 H3 H4].
  split; cbn [g_days gk1 gk2 gk3 gk4 gk_mark]; try assumption.
  - destruct (gk1 (g_recv T t dw)) as [[m1 x1]|]; [|discriminate]. intros m x E. injection E as <- _. apply (H1 m1 x1 eq_refl).
  - destruct (gk2 (g_recv T t dw)) as [[m1 x1]|]; [|discriminate]. intros m x E. injection E as <- _. apply (H2 m1 x1 eq_refl).
Qed.
Lemma gp_hist sv L : GP sv L (g_hist sv L).
Proof.
  induction L as [|[t dw] L IH] using rev_ind; [split; cbn; discriminate|].
  unfold g_hist. rewrite fold_left_app. cbn [fold_left]. apply gp_step. exact IH.
Qed.
(* one superframe mark for all four strings of a release *)
Lemma fires_one_mark sv L t dw : g_fires sv (g_hist sv L) t dw = true ->
  exists m1 m2 m3 x1 x2, let T' := g_step sv (g_hist sv L) (t, dw) in
    gk1 T' = Some (m1, x1) /\ gk2 T' = Some (m2, x2) /\ gk3 T' = Some m3 /\ gk4 T' = Some dw /\ str_no dw = 4 /\ g_usable sv t dw = true /\
    from_log sv L 1 (str_mark dw) m1 /\ from_log sv L 2 (str_mark dw) m2 /\ from_log sv L 3 (str_mark dw) m3.
Proof.
  intros HF. pose proof HF as HF'. unfold g_fires in HF'. apply andb_prop in HF'. destruct HF' as [HF1 HF2]. apply andb_prop in HF1. destruct HF1 as [HU HN].
  assert (N4 : str_no dw = 4) by lia. unfold g_step. rewrite HU, HF. pose proof (gp_hist sv L) as HP. set (T := g_hist sv L) in *.
  unfold g_recv in *. rewrite N4 in *. cbn [Z.eqb Pos.eqb] in *. cbv zeta in *. unfold g_full in HF2. cbn [gk1 gk2 gk3 gk4] in HF2.
  unfold g_days. cbn [gk1 gk2 gk3 gk4 gk_mark].
  destruct (Z.eqb_spec (str_mark dw) (gk_mark T)) as [E|E].
  2:{ cbn in HF2. discriminate. }
  destruct HP as [H1 H2 H3 H4]. rewrite E.
  destruct (gk1 T) as [[m1 x1]|]; [|discriminate]. destruct (gk2 T) as [[m2 x2]|]; [|discriminate]. destruct (gk3 T) as [m3|]; [|discriminate].
  exists m1, m2, m3. eexists. eexists. cbv zeta. do 4 (split; [reflexivity|]). split; [first [exact N4|reflexivity]|]. split; [first [exact HU|reflexivity]|].
  split; [apply (H1 m1 x1 eq_refl)|]. split; [apply (H2 m2 x2 eq_refl)|]. apply (H3 m3 eq_refl).
Qed.

(* ------------------------------------------------ the released instants *)
Definition H12 : Z := 43200 * 1000000000.
Definition inwin (a : Z) (t : utc) : Prop := a <= nanos t <= a + H12.
Definition okt (a : Z) (o : option (list Z * Z)) : Prop := match o with Some (_, x) => forall n, a <= n <= a + H12 -> Z.abs (n - x * 1000000000) <= 3 * H12 | None => True end.
Definition tod1 (dw : list Z) : Z := 3600 * sfield dw 9 5 + 60 * sfield dw 14 6 + 30 * sfield dw 20 1.
Definition tod2 (dw : list Z) : Z := 900 * sfield dw 9 7.
(* strings 1 and 2 hold a time of day below 24 h *)
Definition tod_ok (dw : list Z) : Prop := (str_no dw = 1 -> tod1 dw < 86400) /\ (str_no dw = 2 -> tod2 dw < 86400).
Lemma okt_new a t x k : inwin a t -> normal t -> 0 <= k < 86400 -> okt a (Some (x, day0 t + k)).
Proof. unfold inwin, okt, nanos, normal, day0, H12. intros H HN Hk n Hn. lia. Qed.
Lemma okt_days a t o : inwin a t -> okt a o -> okt a (match o with Some (m, x) => Some (m, near_day t x) | None => None end) /\
  match o with Some (m, x) => Z.abs (nanos t - near_day t x * 1000000000) <= H12 | None => True end.
Proof.
  intros HW HO. destruct o as [[m x]|]; [|split; exact I]. cbn [okt] in *. destruct (near_day_12h t x) as [H1 _].
  { specialize (HO (nanos t) HW). unfold H12 in HO. lia. }
  split; [|exact H1]. intros n Hn. unfold inwin, H12 in *. lia.
Qed.
Lemma okt_recv a T t dw : inwin a t -> normal t -> tod_ok dw ->
  (str_no dw = 1 \/ okt a (gk1 T) -> okt a (gk1 (g_recv T t dw))) /\ (str_no dw = 2 \/ okt a (gk2 T) -> okt a (gk2 (g_recv T t dw))).
Proof.
  intros HW HN [T1 T2]. unfold g_recv. fold (unmark T dw). cbv zeta.
  assert (U : (okt a (gk1 T) -> okt a (gk1 (unmark T dw))) /\ (okt a (gk2 T) -> okt a (gk2 (unmark T dw)))).
  { unfold unmark. destruct (str_mark dw =? gk_mark T); [auto|]. split; intros _; exact I. }
  destruct U as [U1 U2].
  destruct (Z.eqb_spec (str_no dw) 1) as [N|N].
  { cbn [gk1 gk2]. split; [|intros [X|X]; [lia|auto]]. intros _. unfold tod1 in T1. rewrite <- !Z.add_assoc. apply okt_new; [assumption|assumption|].
    split; [|rewrite Z.add_assoc; auto]. pose proof (sfield_range dw 9 5). pose proof (sfield_range dw 14 6). pose proof (sfield_range dw 20 1). lia. }
  destruct (Z.eqb_spec (str_no dw) 2) as [N2|N2].
  { cbn [gk1 gk2]. split; [intros [X|X]; [lia|auto]|]. intros _. apply okt_new; [assumption|assumption|].
    pose proof (sfield_range dw 9 7). split; [lia|exact (T2 N2)]. }
  destruct (str_no dw =? 3); [split; intros [X|X]; try lia; auto|]. destruct (str_no dw =? 4); split; intros [X|X]; try lia; auto.
Qed.
Lemma okt_step a sv T t dw : inwin a t -> normal t -> tod_ok dw ->
  (g_usable sv t dw = true /\ str_no dw = 1 \/ okt a (gk1 T) -> okt a (gk1 (g_step sv T (t, dw)))) /\
  (g_usable sv t dw = true /\ str_no dw = 2 \/ okt a (gk2 T) -> okt a (gk2 (g_step sv T (t, dw)))).
Proof.
  intros HW HN HT. destruct (okt_recv a T t dw HW HN HT) as [R1 R2]. unfold g_step.
  destruct (g_usable sv t dw); [|split; intros [[X _]|X]; [discriminate|exact X|discriminate|exact X]].
  destruct (g_fires sv T t dw).
  - unfold g_days. cbv zeta. cbn [gk1 gk2]. split; intros [[_ X]|X]; apply okt_days; auto.
  - split; intros [[_ X]|X]; auto.
Qed.
Lemma okt_seg a sv : forall L T, (forall t dw, In (t, dw) L -> inwin a t /\ normal t /\ tod_ok dw) ->
  ((exists t dw, In (t, dw) L /\ g_usable sv t dw = true /\ str_no dw = 1) \/ okt a (gk1 T) -> okt a (gk1 (fold_left (g_step sv) L T))) /\
  ((exists t dw, In (t, dw) L /\ g_usable sv t dw = true /\ str_no dw = 2) \/ okt a (gk2 T) -> okt a (gk2 (fold_left (g_step sv) L T))).
Proof.
  induction L as [|[t dw] L IH]; intros T HL.
  - cbn [fold_left]. split; intros [(t & dw & [] & _)|X]; exact X.
  - destruct (HL t dw (or_introl eq_refl)) as (HW & HN & HT). destruct (okt_step a sv T t dw HW HN HT) as [S1 S2].
    destruct (IH (g_step sv T (t, dw)) (fun t' dw' H => HL t' dw' (or_intror H))) as [I1 I2].
    cbn [fold_left]. split; intros [(t' & dw' & [E|Hin] & HU)|X].
    + injection E as <- <-. apply I1. right. apply S1. left. exact HU.
    + apply I1. left. eauto.
    + apply I1. right. apply S1. right. exact X.
    + injection E as <- <-. apply I2. right. apply S2. left. exact HU.
    + apply I2. left. eauto.
    + apply I2. right. apply S2. right. exact X.
Qed.
(* if the clock stayed within 12 hours since a string 1 and a string 2, the released times are within 12 hours of it *)
Lemma released_times sv L1 L2 a now dw freq g :
  (forall t d, In (t, d) L2 -> inwin a t /\ normal t /\ tod_ok d) -> inwin a now -> normal now ->
  (exists t d, In (t, d) L2 /\ g_usable sv t d = true /\ str_no d = 1) -> (exists t d, In (t, d) L2 /\ g_usable sv t d = true /\ str_no d = 2) ->
  g_fires sv (g_hist sv (L1 ++ L2)) now dw = true -> glo_content sv freq (g_step sv (g_hist sv (L1 ++ L2)) (now, dw)) g ->
  Z.abs (nanos now - nanos (g_toe g)) <= H12 /\ Z.abs (nanos now - nanos (g_tof g)) <= H12.
Proof.
  intros HL HW HN E1 E2 HF HC. destruct (okt_seg a sv L2 (g_hist sv L1) HL) as [O1 O2]. specialize (O1 (or_introl E1)). specialize (O2 (or_introl E2)).
  replace (fold_left (g_step sv) L2 (g_hist sv L1)) with (g_hist sv (L1 ++ L2)) in * by (unfold g_hist; apply fold_left_app).
  set (T := g_hist sv (L1 ++ L2)) in *. pose proof HF as HF'. unfold g_fires in HF'. apply andb_prop in HF'. destruct HF' as [HF1 _]. apply andb_prop in HF1. destruct HF1 as [HU HN4].
  destruct (okt_recv a T now dw HW HN) as [R1 R2]. { split; lia. } specialize (R1 (or_intror O1)). specialize (R2 (or_intror O2)).
  destruct HC as (m1 & tof & m2 & toe & m3 & m4 & G1 & G2 & _ & _ & _ & _ & _ & TF & TE & _).
  unfold g_step in G1, G2. rewrite HU, HF in G1, G2. unfold g_days in G1, G2. cbn [gk1 gk2] in G1, G2.
  destruct (okt_days a now _ HW R1) as [_ D1]. destruct (okt_days a now _ HW R2) as [_ D2].
  destruct (gk1 (g_recv T now dw)) as [[x1 y1]|]; [|discriminate]. destruct (gk2 (g_recv T now dw)) as [[x2 y2]|]; [|discriminate].
  injection G1 as _ <-. injection G2 as _ <-. rewrite TF, TE. unfold nanos at 2 4. cbn [sec nsec]. rewrite !Z.add_0_r. split; assumption.
Qed.
(* and always the transmitted times of day *)
Lemma near_mod t x : near_day t x mod 86400 = x mod 86400.
Proof. unfold near_day. destruct (_ <? _); [lia|]. destruct (_ <? _); lia. Qed.
Lemma day0_mod t : (day0 t + 10800) mod 86400 = 0.
Proof. unfold day0. lia. Qed.
Lemma mod_shift a k : a mod 86400 = 0 -> (a + k) mod 86400 = k mod 86400.
Proof. intros H. rewrite Z.add_mod, H, Z.add_0_l, Z.mod_mod by lia. reflexivity. Qed.
Lemma mod_shift2 x y : x mod 86400 = y mod 86400 -> (x + 10800) mod 86400 = (y + 10800) mod 86400.
Proof. intros H. rewrite Z.add_mod, H, <- Z.add_mod by lia. reflexivity. Qed.
Definition GM (T : gtrack) : Prop :=
  (forall m x, gk1 T = Some (m, x) -> (x + 10800) mod 86400 = tod1 m mod 86400) /\ (forall m x, gk2 T = Some (m, x) -> (x + 10800) mod 86400 = tod2 m mod 86400).
Lemma gm_step sv T t dw : GM T -> GM (g_step sv T (t, dw)).
Proof.
  intros HM. unfold g_step. destruct (g_usable sv t dw); [|exact HM].
  assert (HR : GM (g_recv T t dw)).
  { unfold g_recv. fold (unmark T dw). cbv zeta. assert (HU : GM (unmark T dw)).
    { unfold unmark. destruct (str_mark dw =? gk_mark T); [exact HM|]. split; cbn; discriminate. }
    destruct HU as [U1 U2]. pose proof (day0_mod t) as HD.
    destruct (str_no dw =? 1). { split; cbn [gk1 gk2]; [|exact U2]. intros m x E.
      assert (Em : m = dw) by congruence. assert (Ex : x = day0 t + 3600 * sfield dw 9 5 + 60 * sfield dw 14 6 + 30 * sfield dw 20 1) by congruence.
      rewrite Em, <- (mod_shift (day0 t + 10800) (tod1 dw) HD). f_equal. unfold tod1. lia. }
    destruct (str_no dw =? 2). { split; cbn [gk1 gk2]; [exact U1|]. intros m x E.
      assert (Em : m = dw) by congruence. assert (Ex : x = day0 t + 900 * sfield dw 9 7) by congruence.
      rewrite Em, <- (mod_shift (day0 t + 10800) (tod2 dw) HD). f_equal. unfold tod2. lia. }
    destruct (str_no dw =? 3). { split; assumption. } destruct (str_no dw =? 4); split; assumption. }
  destruct (g_fires sv T t dw); [|exact HR]. destruct HR as [R1 R2]. unfold g_days. cbv zeta. split; cbn [gk1 gk2].
  - destruct (gk1 (g_recv T t dw)) as [[m1 x1]|]; [|discriminate]. intros m x E. injection E as <- <-. rewrite <- (R1 m1 x1 eq_refl). apply mod_shift2. apply near_mod.
  - destruct (gk2 (g_recv T t dw)) as [[m1 x1]|]; [|discriminate]. intros m x E. injection E as <- <-. rewrite <- (R2 m1 x1 eq_refl). apply mod_shift2. apply near_mod.
Qed.
Lemma gm_hist sv L : GM (g_hist sv L).
Proof.
  induction L as [|[t dw] L IH] using rev_ind; [split; cbn; discriminate|].
  unfold g_hist. rewrite fold_left_app. cbn [fold_left]. apply gm_step. exact IH.
Qed.
Lemma time_of_day sv freq L g m1 m2 x1 x2 : glo_content sv freq (g_hist sv L) g ->
  gk1 (g_hist sv L) = Some (m1, x1) -> gk2 (g_hist sv L) = Some (m2, x2) ->
  nsec (g_toe g) = 0 /\ nsec (g_tof g) = 0 /\
  (sec (g_tof g) + 10800) mod 86400 = (3600 * sfield m1 9 5 + 60 * sfield m1 14 6 + 30 * sfield m1 20 1) mod 86400 /\
  (sec (g_toe g) + 10800) mod 86400 = (900 * sfield m2 9 7) mod 86400.
Proof.
  intros (n1 & tof & n2 & toe & n3 & n4 & G1 & G2 & _ & _ & _ & _ & _ & TF & TE & _) E1 E2.
  destruct (gm_hist sv L) as [M1 M2]. rewrite TF, TE. cbn [sec nsec]. rewrite E1 in G1. rewrite E2 in G2.
  assert (x1 = tof) by congruence. assert (x2 = toe) by congruence. subst tof toe.
  split; [reflexivity|]. split; [reflexivity|]. split; [exact (M1 m1 x1 E1)|exact (M2 m2 x2 E2)].
Qed.
Lemma rejected_no_effect junk s m : msg_ok m -> sf_gnss m = 6 -> str_accept (bn (sf_dw m)) = false ->
  exists s' r, convertUBX junk s m = Ok (s', [], Some r) /\ geph_of s' (sf_sv m) = geph_of s (sf_sv m) /\ same_but_g s s' (sf_sv m).
Proof.
  intros (Hdw & _) G6 HA. pose proof (convert_glo junk s m G6) as HV.
  assert (HD : exists r, decodeGlonass (n_gcb s) (n_time s) 6 (sf_sv m) (sf_freq m) (sf_dw m) (geph_of s (sf_sv m)) = Ok (geph_of s (sf_sv m), [], r)).
  { unfold decodeGlonass. destruct (sf_sv m =? 255); [eauto|]. destruct (utc_eq _ _); [eauto|]. cbv zeta. rewrite gloTest_ok by apply Hdw. rewrite HA. cbn [bind negb]. eauto. }
  destruct HD as [r HD]. rewrite HD in HV. destruct HV as (s' & E1 & E2 & E3). exists s', r. auto.
Qed.
