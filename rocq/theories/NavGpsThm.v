(* GPS release and content over histories. *)
From Coq Require Import QArith.
From Verif Require Import Base ZBits BitSpec BitModel BitProofs UtcModel UtcSpec UtcProofs Dbl NavModel NavSpec NavGpsSpec NavBits NavGps NavObj NavAcc.
Local Open Scope Z_scope.

Definition agree (li : list ifld) (ld : list dfld) (a e : eph) : Prop :=
  (forall f, In f li -> ei e f = ei a f) /\ (forall f, In f ld -> ed e f = ed a f).
Definition i1 := [FcodeL2; Fura; Fhealth; FL2P; Ftocs; Falert; Fiodc; Fweek; Fiode1].
Definition d1 := [Faf2; Faf1; Faf0; Ftgd0; Ftgd1; Ftgd2; Ftgd3].
Definition i2 := [Ftoes; Ffit; Fiode2].
Definition d2 := [Fcrs; Fdeltan; Fm0; Fcuc; Fecc; Fcus; Fsqrta].
Definition d3 := [Fcic; Fomega0; Fcis; Fi0; Fcrc; Fw; Fomegadot; Fidot].
Definition A1 (dw : list Z) (e : eph) := agree i1 d1 (sf1 dw eph_new) e.
Definition A2 (dw : list Z) (e : eph) := agree i2 d2 (sf2 dw eph_new) e.
Definition A3 (dw : list Z) (e : eph) := agree [] d3 (sf3 dw eph_new) e.

Ltac fldred := lazy beta iota zeta delta [sf1 sf2 sf3 seti setd set_toe set_toc ei ed ifld_beq dfld_beq].
Ltac inall := let f := fresh "f" in let H := fresh "H" in intros f H; cbn [In i1 d1 i2 d2 d3] in H;
  repeat (destruct H as [H|H]; [subst f|]); try contradiction H.
Lemma a1_new dw e : A1 dw (sf1 dw e). Proof. split; inall; fldred; reflexivity. Qed.
Lemma a2_new dw e : A2 dw (sf2 dw e). Proof. split; inall; fldred; reflexivity. Qed.
Lemma a3_new dw e : A3 dw (sf3 dw e). Proof. split; inall; fldred; reflexivity. Qed.
Lemma a1_sf2 dw x e : A1 dw e -> A1 dw (sf2 x e).
Proof. intros [H1 H2]. split; [intros f Hf; rewrite <- H1 by exact Hf|intros f Hf; rewrite <- H2 by exact Hf]; revert f Hf; inall; fldred; reflexivity. Qed.
Lemma a1_sf3 dw x e : A1 dw e -> A1 dw (sf3 x e).
Proof. intros [H1 H2]. split; [intros f Hf; rewrite <- H1 by exact Hf|intros f Hf; rewrite <- H2 by exact Hf]; revert f Hf; inall; fldred; reflexivity. Qed.
Lemma a2_sf1 dw x e : A2 dw e -> A2 dw (sf1 x e).
Proof. intros [H1 H2]. split; [intros f Hf; rewrite <- H1 by exact Hf|intros f Hf; rewrite <- H2 by exact Hf]; revert f Hf; inall; fldred; reflexivity. Qed.
Lemma a2_sf3 dw x e : A2 dw e -> A2 dw (sf3 x e).
Proof. intros [H1 H2]. split; [intros f Hf; rewrite <- H1 by exact Hf|intros f Hf; rewrite <- H2 by exact Hf]; revert f Hf; inall; fldred; reflexivity. Qed.
Lemma a3_sf1 dw x e : A3 dw e -> A3 dw (sf1 x e).
Proof. intros [H1 H2]. split; [intros f Hf; rewrite <- H1 by exact Hf|intros f Hf; rewrite <- H2 by exact Hf]; revert f Hf; inall; fldred; reflexivity. Qed.
Lemma a3_sf2 dw x e : A3 dw e -> A3 dw (sf2 x e).
Proof. intros [H1 H2]. split; [intros f Hf; rewrite <- H1 by exact Hf|intros f Hf; rewrite <- H2 by exact Hf]; revert f Hf; inall; fldred; reflexivity. Qed.
(* a change of other members only *)
Definition keeps (e e' : eph) : Prop := (forall f, f <> Fsat -> f <> FgnssID -> f <> Fgot1 -> f <> Fgot2 -> f <> Fgot3 -> ei e' f = ei e f) /\ (forall f, ed e' f = ed e f).
Lemma a1_keeps dw e e' : keeps e e' -> A1 dw e -> A1 dw e'.
Proof.
  intros [K1 K2] [H1 H2]. split; [intros f Hf; rewrite <- H1 by exact Hf; apply K1; revert f Hf; inall; discriminate|].
  intros f Hf. rewrite <- H2 by exact Hf. apply K2.
Qed.
Lemma a2_keeps dw e e' : keeps e e' -> A2 dw e -> A2 dw e'.
Proof.
  intros [K1 K2] [H1 H2]. split; [intros f Hf; rewrite <- H1 by exact Hf; apply K1; revert f Hf; inall; discriminate|].
  intros f Hf. rewrite <- H2 by exact Hf. apply K2.
Qed.
Lemma a3_keeps dw e e' : keeps e e' -> A3 dw e -> A3 dw e'.
Proof. intros [K1 K2] [H1 H2]. split; [inall|]. intros f Hf. rewrite <- H2 by exact Hf. apply K2. Qed.

(* the invariant *)
Definition pend (got iss : Z) (t : option Z) (L : option (list Z)) : Prop :=
  match t with None => got = 0 | Some a => got = 1 /\ iss = a /\ L <> None end.
Definition curok (t : track) : Prop := tk1 t = Some (cur t) \/ tk2 t = Some (cur t) \/ (tk1 t = None /\ tk2 t = None).
Record GI (t : track) (L1 L2 L3 : option (list Z)) (e : eph) : Prop := mkGI {
  gi_1 : pend (ei e Fgot1) (ei e Fiode1) (tk1 t) L1;
  gi_2 : pend (ei e Fgot2) (ei e Fiode2) (tk2 t) L2;
  gi_3 : pend (ei e Fgot3) (ei e Fiode3) (tk3 t) L3;
  gi_c : cur t = ei e Fiode;
  gi_k : curok t;
  gi_d : forall a, tk1 t = Some a -> Z.land (ei e Fiodc) 0xFF = a;
  gi_a1 : forall dw, L1 = Some dw -> A1 dw e;
  gi_a2 : forall dw, L2 = Some dw -> A2 dw e;
  gi_a3 : forall dw, L3 = Some dw -> A3 dw e }.

Lemma gi_init : GI t_init None None None eph_new.
Proof. split; try reflexivity; try discriminate. right. right. split; reflexivity. Qed.
Lemma gi_start t L1 L2 L3 e s g : GI t L1 L2 L3 e -> GI t L1 L2 L3 (seti FgnssID g (seti Fsat s e)).
Proof.
  intros [H1 H2 H3 H4 H5 H6 H7 H8 H9]. assert (K : keeps e (seti FgnssID g (seti Fsat s e))).
  { split; [|reflexivity]. intros f N1 N2 _ _ _. cbn [ei seti]. destruct f; try congruence; reflexivity. }
  split; try assumption; intros dw HD; [apply (a1_keeps dw e _ K)|apply (a2_keeps dw e _ K)|apply (a3_keeps dw e _ K)]; auto.
Qed.

Definition upd (k : Z) (dw : list Z) (L : option (list Z)) : option (list Z) := if gps_id dw =? k then Some dw else L.
Definition recv_e (dw : list Z) (e : eph) : eph :=
  if gps_id dw =? 1 then sf1 dw e else if gps_id dw =? 2 then sf2 dw e else if gps_id dw =? 3 then sf3 dw e else e.
Lemma land_ff x y : 0 <= y < 256 -> Z.land (256 * x + y) 0xFF = y.
Proof. intros H. rewrite land_255. lia. Qed.
Lemma gi_recv t L1 L2 L3 e dw : GI t L1 L2 L3 e ->
  GI (t_recv t dw) (upd 1 dw L1) (upd 2 dw L2) (upd 3 dw L3) (recv_e dw e).
Proof.
  intros [H1 H2 H3 H4 H5 H6 H7 H8 H9]. unfold t_recv, recv_e, upd, gps_issue.
  destruct (Z.eqb_spec (gps_id dw) 1) as [E|E1]; [rewrite E; cbn [Z.eqb Pos.eqb]|].
  { split; cbn [tk1 tk2 tk3 cur].
    - cbn [pend]. repeat split. discriminate.
    - exact H2.
    - exact H3.
    - reflexivity.
    - left. reflexivity.
    - intros a Ha. injection Ha as <-. cbn [sf1 ei seti setd ifld_beq]. pose proof (dfield_range dw 168 8) as R.
      change (2 ^ Z.of_nat 8) with 256 in R. apply land_ff. exact R.
    - intros x Hx. injection Hx as <-. apply a1_new.
    - intros x Hx. apply a2_sf1. auto.
    - intros x Hx. apply a3_sf1. auto. }
  destruct (Z.eqb_spec (gps_id dw) 2) as [E|E2]; [rewrite E; cbn [Z.eqb Pos.eqb]|].
  { split; cbn [tk1 tk2 tk3 cur].
    - exact H1.
    - cbn [pend]. repeat split. discriminate.
    - exact H3.
    - reflexivity.
    - right. left. reflexivity.
    - exact H6.
    - intros x Hx. apply a1_sf2. auto.
    - intros x Hx. injection Hx as <-. apply a2_new.
    - intros x Hx. apply a3_sf2. auto. }
  destruct (Z.eqb_spec (gps_id dw) 3) as [E|E3].
  { split; cbn [tk1 tk2 tk3 cur].
    - exact H1.
    - exact H2.
    - cbn [pend]. repeat split; [|discriminate]. cbn [sf3 ei seti setd ifld_beq]. symmetry. exact H4.
    - exact H4.
    - exact H5.
    - exact H6.
    - intros x Hx. apply a1_sf3. auto.
    - intros x Hx. apply a2_sf3. auto.
    - intros x Hx. injection Hx as <-. apply a3_new. }
  split; assumption.
Qed.

(* complete = full *)
Lemma gi_full t L1 L2 L3 e : GI t L1 L2 L3 e -> gps_complete e = t_full t.
Proof.
  intros [H1 H2 H3 H4 H5 H6 _ _ _]. unfold gps_complete, t_full, pend, curok in *.
  destruct (tk1 t) as [a|]; [|rewrite H1; reflexivity].
  destruct H1 as (-> & -> & _). destruct (tk2 t) as [b|]; [|rewrite H2; reflexivity].
  destruct H2 as (-> & -> & _). destruct (tk3 t) as [c|]; [|rewrite H3; reflexivity].
  destruct H3 as (-> & -> & _). cbn [Z.eqb Pos.eqb andb]. rewrite (H6 a eq_refl), <- H4.
  destruct (Z.eqb_spec a b) as [<-|N]; [|reflexivity]. cbn [andb].
  destruct (Z.eqb_spec a c) as [<-|N]; [|reflexivity]. cbn [andb].
  destruct H5 as [H5|[H5|[H5 _]]]; [injection H5 as <-|injection H5 as <-|discriminate]; apply Z.eqb_refl.
Qed.

Lemma dS_abs dw p n : (1 <= n <= 53)%nat -> Z.abs (dfieldS dw p n) <= 2 ^ 53.
Proof.
  intros Hn. unfold dfieldS. pose proof (dfield_range dw p n) as R.
  assert (2 ^ Z.of_nat n <= 2 ^ 53) by (apply Z.pow_le_mono_r; lia). destruct (dbit dw p); lia.
Qed.
Lemma d_abs dw p n : (n <= 53)%nat -> Z.abs (dfield dw p n) <= 2 ^ 53.
Proof.
  intros Hn. pose proof (dfield_range dw p n) as R.
  assert (2 ^ Z.of_nat n <= 2 ^ 53) by (apply Z.pow_le_mono_r; lia). lia.
Qed.

(* a complete record is released with the transmitted content *)
Lemma finish_full e sv m1 m2 m3 : gps_complete e = true -> A1 m1 e -> A2 m2 e -> A3 m3 e -> ei e Fsat = sv -> ei e FgnssID = 0 ->
  exists d, gps_finish e = Ok (seti Fgot3 0 (seti Fgot2 0 (seti Fgot1 0 d)), Some d, false) /\ keeps e d /\ gps_content sv m1 m2 m3 d.
Proof.
  intros HC [H1 D1] [H2 D2] [_ D3] Hs Hg. unfold gps_finish. rewrite HC.
  assert (EW : ei e Fweek = dfield m1 48 10 + 2048) by (rewrite H1 by (cbn; tauto); fldred; reflexivity).
  assert (EC : ei e Ftocs = 16 * dfield m1 176 16) by (rewrite H1 by (cbn; tauto); fldred; reflexivity).
  assert (EE : ei e Ftoes = 16 * dfield m2 216 16) by (rewrite H2 by (cbn; tauto); fldred; reflexivity).
  pose proof (dfield_range m1 48 10) as RW. pose proof (dfield_range m1 176 16) as RC. pose proof (dfield_range m2 216 16) as RE.
  change (2 ^ Z.of_nat 10) with 1024 in RW. change (2 ^ Z.of_nat 16) with 65536 in *.
  rewrite EE, EC, EW.
  rewrite (i32_u32 (16 * dfield m2 216 16 * 1000)) by (change (2 ^ 31) with 2147483648; lia).
  rewrite (i32_u32 (16 * dfield m1 176 16 * 1000)) by (change (2 ^ 31) with 2147483648; lia).
  destruct (fromGPS_spec (dfield m1 48 10 + 2048) (16 * dfield m2 216 16 * 1000)) as [HT _]; [lia|change (2 ^ 31) with 2147483648; lia|].
  destruct HT as (toe & ET & NT & _); [change (2 ^ 31) with 2147483648; lia|]. rewrite ET. cbn [bind].
  destruct (fromGPS_spec (dfield m1 48 10 + 2048) (16 * dfield m1 176 16 * 1000)) as [HT _]; [lia|change (2 ^ 31) with 2147483648; lia|].
  destruct HT as (toc & EK & NC & _); [change (2 ^ 31) with 2147483648; lia|]. rewrite EK. cbn [bind].
  eexists. split; [reflexivity|]. split; [split; reflexivity|].
  unfold gps_content. change (e_toc (set_toc toc (set_toe toe e))) with toc. change (e_toe (set_toc toc (set_toe toe e))) with toe.
  change (ei (set_toc toc (set_toe toe e))) with (ei e). change (ed (set_toc toc (set_toe toe e))) with (ed e).
  assert (F1 : forall f, In f d1 -> ed e f = ed (sf1 m1 eph_new) f) by exact D1.
  repeat match goal with |- _ /\ _ => split end.
  all: try assumption.
  all: try (rewrite H1 by (cbn; tauto); fldred; reflexivity).
  all: try (rewrite H2 by (cbn; tauto); fldred; reflexivity).
  all: try (rewrite NT; f_equal; lia).
  all: try (rewrite NC; f_equal; lia).
  all: try (rewrite D1 by (cbn; tauto); fldred).
  all: try (rewrite D2 by (cbn; tauto); fldred).
  all: try (rewrite D3 by (cbn; tauto); fldred).
  - destruct (dfieldS m1 160 8 =? -128); [reflexivity|apply ex31; apply dS_abs; lia].
  - apply nr55. apply dS_abs. lia.
  - apply nr43. apply dS_abs. lia.
  - apply ex31. apply dS_abs. lia.
  - apply ex5. apply dS_abs. lia.
  - apply nr43pi. apply dS_abs. lia.
  - apply nr31pi. apply dS_abs. lia.
  - apply ex29. apply dS_abs. lia.
  - apply nr33. apply d_abs. lia.
  - apply ex29. apply dS_abs. lia.
  - apply ex19. apply d_abs. lia.
  - apply ex29. apply dS_abs. lia.
  - apply nr31pi. apply dS_abs. lia.
  - apply ex29. apply dS_abs. lia.
  - apply nr31pi. apply dS_abs. lia.
  - apply ex5. apply dS_abs. lia.
  - apply nr31pi. apply dS_abs. lia.
  - apply nr43pi. apply dS_abs. lia.
  - apply nr43pi. apply dS_abs. lia.
Qed.

Definition junk_ok (junk : list Z) : Prop := bytes_ok junk /\ Zlen junk = 30.
Lemma keeps_flags d : keeps d (seti Fgot3 0 (seti Fgot2 0 (seti Fgot1 0 d))).
Proof. split; [|reflexivity]. intros f _ _ N1 N2 N3. cbn [ei seti]. destruct f; try congruence; reflexivity. Qed.
Lemma keeps_trans a b c : keeps a b -> keeps b c -> keeps a c.
Proof. intros [H1 H2] [H3 H4]. split; [intros; rewrite H3, H1 by assumption; reflexivity|intros; rewrite H4, H2; reflexivity]. Qed.

Lemma gps_step junk dw t L1 L2 L3 e sv : junk_ok junk -> dw_ok dw -> GI t L1 L2 L3 e -> t_full t = false -> ei e Fsat = sv ->
  exists e' d b, decodeGPS junk dw e = Ok (e', d, b) /\
    GI (t_step t dw) (upd 1 dw L1) (upd 2 dw L2) (upd 3 dw L3) e' /\ t_full (t_step t dw) = false /\
    b = ((gps_id dw =? 0) || (gps_id dw =? 6) || (gps_id dw =? 7)) /\
    (if t_full (t_recv t dw) then exists m1 m2 m3 r, upd 1 dw L1 = Some m1 /\ upd 2 dw L2 = Some m2 /\ upd 3 dw L3 = Some m3 /\
       d = Some r /\ gps_content sv m1 m2 m3 r
     else d = None).
Proof.
  intros [J1 J2] Hdw HG HF Hsv. rewrite decodeGPS_ok by assumption. cbv zeta.
  set (e0 := seti FgnssID 0 e).
  assert (HG0 : GI t L1 L2 L3 e0).
  { destruct HG as [H1 H2 H3 H4 H5 H6 H7 H8 H9]. assert (K : keeps e e0).
    { split; [|reflexivity]. intros f N1 N2 _ _ _. unfold e0. cbn [ei seti]. destruct f; try congruence; reflexivity. }
    split; try assumption; intros x HD; [apply (a1_keeps x e _ K)|apply (a2_keeps x e _ K)|apply (a3_keeps x e _ K)]; auto. }
  pose proof (gi_recv t L1 L2 L3 e0 dw HG0) as HR. pose proof (gi_full _ _ _ _ _ HR) as HC.
  assert (HS : ei (recv_e dw e0) Fsat = sv /\ ei (recv_e dw e0) FgnssID = 0).
  { unfold recv_e. destruct (gps_id dw =? 1); [split; fldred; [exact Hsv|reflexivity]|]. destruct (gps_id dw =? 2); [split; fldred; [exact Hsv|reflexivity]|].
    destruct (gps_id dw =? 3); [split; fldred; [exact Hsv|reflexivity]|]. split; [exact Hsv|reflexivity]. }
  assert (HFin : exists e' d b, gps_finish (recv_e dw e0) = Ok (e', d, b) /\
    GI (t_step t dw) (upd 1 dw L1) (upd 2 dw L2) (upd 3 dw L3) e' /\ t_full (t_step t dw) = false /\ b = false /\
    (if t_full (t_recv t dw) then exists m1 m2 m3 r, upd 1 dw L1 = Some m1 /\ upd 2 dw L2 = Some m2 /\ upd 3 dw L3 = Some m3 /\
       d = Some r /\ gps_content sv m1 m2 m3 r
     else d = None)).
  { unfold t_step. cbv zeta. destruct (t_full (t_recv t dw)) eqn:EF.
    - destruct HR as [H1 H2 H3 H4 H5 H6 H7 H8 H9]. pose proof EF as EF'. unfold t_full in EF'.
      destruct (tk1 (t_recv t dw)) as [a|]; [|discriminate]. destruct (tk2 (t_recv t dw)) as [b|]; [|discriminate].
      destruct (tk3 (t_recv t dw)) as [c|]; [|discriminate]. cbn [pend] in H1, H2, H3.
      destruct H1 as (_ & _ & N1). destruct H2 as (_ & _ & N2). destruct H3 as (_ & _ & N3).
      destruct (upd 1 dw L1) as [m1|]; [|congruence]. destruct (upd 2 dw L2) as [m2|]; [|congruence]. destruct (upd 3 dw L3) as [m3|]; [|congruence].
      destruct (finish_full (recv_e dw e0) sv m1 m2 m3 HC (H7 m1 eq_refl) (H8 m2 eq_refl) (H9 m3 eq_refl) (proj1 HS) (proj2 HS)) as (d & EQ & HK & HCt).
      exists (seti Fgot3 0 (seti Fgot2 0 (seti Fgot1 0 d))), (Some d), false. split; [exact EQ|].
      pose proof (keeps_trans _ _ _ HK (keeps_flags d)) as KK.
      split; [|split; [reflexivity|split; [reflexivity|exists m1, m2, m3, d; do 4 (split; [reflexivity|]); exact HCt]]].
      split; cbn [tk1 tk2 tk3 cur pend]; try reflexivity.
      + rewrite H4. symmetry. apply KK; discriminate.
      + right. right. split; reflexivity.
      + discriminate.
      + intros x Hx. apply (a1_keeps x _ _ KK). auto.
      + intros x Hx. apply (a2_keeps x _ _ KK). auto.
      + intros x Hx. apply (a3_keeps x _ _ KK). auto.
    - unfold gps_finish. rewrite HC. exists (recv_e dw e0), None, false. split; [reflexivity|]. split; [exact HR|]. split; [exact EF|]. split; reflexivity. }
  destruct HFin as (e' & d & b & E & H1 & H2 & H3 & H4). exists e', d.
  unfold recv_e in E. destruct (Z.eqb_spec (gps_id dw) 1) as [X|X]; [exists b; rewrite X; cbn [Z.eqb orb]; auto|].
  destruct (Z.eqb_spec (gps_id dw) 2) as [Y|Y]; [exists b; rewrite Y; cbn [Z.eqb orb Pos.eqb]; auto|].
  destruct (Z.eqb_spec (gps_id dw) 3) as [W|W]; [exists b; rewrite W; cbn [Z.eqb orb Pos.eqb]; auto|].
  eexists. split; [|split; [exact H1|split; [exact H2|split; [reflexivity|exact H4]]]].
  unfold gps_finish in E. assert (EC : gps_complete e0 = false).
  { rewrite (gi_full _ _ _ _ _ HG0). exact HF. }
  rewrite EC in E. injection E as <- <- <-. reflexivity.
Qed.

(* ---------------------------------------------------------------- histories *)
Lemma nav_run_app junk : forall h1 h2 s, nav_run junk s (h1 ++ h2) =
  let* (s1, e1) := nav_run junk s h1 in let* (s2, e2) := nav_run junk s1 h2 in Ok (s2, e1 ++ e2).
Proof.
  induction h1 as [|o r IH]; intros h2 s; cbn [app nav_run bind].
  - destruct (nav_run junk s h2) as [(s2, e2)|]; reflexivity.
  - destruct (nav_step junk s o) as [(s1, e1)|]; [|reflexivity]. cbn [bind]. rewrite IH.
    destruct (nav_run junk s1 r) as [(s2, e2)|]; [|reflexivity]. cbn [bind].
    destruct (nav_run junk s2 h2) as [(s3, e3)|]; [|reflexivity]. cbn [bind]. rewrite app_assoc. reflexivity.
Qed.
Lemma nav_run_snoc junk s h o s' ev : nav_run junk s (h ++ [o]) = Ok (s', ev) ->
  exists s1 e1 e2, nav_run junk s h = Ok (s1, e1) /\ nav_step junk s1 o = Ok (s', e2) /\ ev = e1 ++ e2.
Proof.
  rewrite nav_run_app. destruct (nav_run junk s h) as [(s1, e1)|] eqn:E; [|discriminate]. cbn [bind nav_run].
  destruct (nav_step junk s1 o) as [(s2, e2)|] eqn:E2; [|discriminate]. cbn [bind]. intros H. injection H as <- <-.
  exists s1, e1, e2. rewrite app_nil_r. auto.
Qed.

Record HInv (sv : Z) (h : list nop) (s : nav) : Prop := mkHI {
  hi_g : GI (t_hist sv h) (last_sf sv 1 h) (last_sf sv 2 h) (last_sf sv 3 h) (eph_of s sv);
  hi_f : t_full (t_hist sv h) = false;
  hi_e : n_ecb s = ecbs h;
  hi_c : n_gcb s = gcbs h }.

Lemma t_hist_snoc sv h o : t_hist sv (h ++ [o]) = t_op sv (t_hist sv h) o.
Proof. unfold t_hist. rewrite fold_left_app. reflexivity. Qed.
Lemma last_sf_snoc sv k h o : last_sf sv k (h ++ [o]) = l_op sv k (last_sf sv k h) o.
Proof. unfold last_sf. rewrite fold_left_app. reflexivity. Qed.
Lemma ecbs_snoc h o : ecbs (h ++ [o]) = ecbs h ++ match o with NEcb c => [c] | _ => [] end.
Proof. unfold ecbs. rewrite flat_map_app. cbn [flat_map]. rewrite app_nil_r. reflexivity. Qed.
Lemma gcbs_snoc h o : gcbs (h ++ [o]) = gcbs h ++ match o with NGcb c => [c] | _ => [] end.
Proof. unfold gcbs. rewrite flat_map_app. cbn [flat_map]. rewrite app_nil_r. reflexivity. Qed.

(* a GPS message at the end of a history *)
Lemma gps_message junk sv h s m : junk_ok junk -> msg_ok m -> is_gps sv m = true -> HInv sv h s ->
  exists s' d, convertUBX junk s m = Ok (s', calls_eph (ecbs h) d, Some ((gps_id (sf_dw m) =? 0) || (gps_id (sf_dw m) =? 6) || (gps_id (sf_dw m) =? 7))) /\
    HInv sv (h ++ [NMsg m]) s' /\
    n_time s' = match d with Some r => e_toe r | None => n_time s end /\
    (if t_full (t_recv (t_hist sv h) (sf_dw m)) then
       exists m1 m2 m3 r, last_sf sv 1 (h ++ [NMsg m]) = Some m1 /\ last_sf sv 2 (h ++ [NMsg m]) = Some m2 /\
         last_sf sv 3 (h ++ [NMsg m]) = Some m3 /\ d = Some r /\ gps_content sv m1 m2 m3 r
     else d = None).
Proof.
  intros HJ (Hdw & _) HM [HG HF HE HC]. pose proof HM as HM'. unfold is_gps in HM'.
  assert (G0 : sf_gnss m = 0) by lia. assert (SV : sf_sv m = sv) by lia.
  pose proof (convert_gps junk s m G0) as HCv. rewrite SV in HCv.
  destruct (gps_step junk (sf_dw m) (t_hist sv h) (last_sf sv 1 h) (last_sf sv 2 h) (last_sf sv 3 h) (start_rec s m) sv HJ Hdw) as (e' & d & b & E & H1 & H2 & H3 & H4).
  { unfold start_rec. rewrite SV. apply gi_start. exact HG. }
  { exact HF. }
  { unfold start_rec. rewrite SV. reflexivity. }
  rewrite E in HCv. destruct HCv as (s' & EC & EE & (K1 & K2 & K3 & K4) & KR & KT). exists s', d.
  rewrite EC, HE, H3. split; [reflexivity|].
  assert (EL : forall k, last_sf sv k (h ++ [NMsg m]) = upd k (sf_dw m) (last_sf sv k h)).
  { intros k. rewrite last_sf_snoc. unfold l_op, upd. rewrite HM. reflexivity. }
  assert (ETr : t_hist sv (h ++ [NMsg m]) = t_step (t_hist sv h) (sf_dw m)).
  { rewrite t_hist_snoc. unfold t_op. rewrite HM. reflexivity. }
  split; [|split; [exact KT|rewrite !EL; exact H4]].
  split.
  - rewrite ETr, !EL, EE. exact H1.
  - rewrite ETr. exact H2.
  - rewrite ecbs_snoc, app_nil_r. rewrite K3. exact HE.
  - rewrite gcbs_snoc, app_nil_r. rewrite K4. exact HC.
Qed.

Lemma hist_inv junk st sv : junk_ok junk -> forall h s ev, msgs_ok h -> no_galileo sv h ->
  nav_run junk (nav_init st) h = Ok (s, ev) -> HInv sv h s.
Proof.
  intros HJ. induction h as [|o h IH] using rev_ind; intros s ev HM HN HR.
  - cbn in HR. injection HR as <- _. split; try reflexivity. exact gi_init.
  - apply nav_run_snoc in HR. destruct HR as (s1 & e1 & e2 & R1 & RS & _).
    assert (HI : HInv sv h s1).
    { apply (IH s1 e1); [intros m Hm; apply HM; apply in_or_app; auto|intros m Hm; apply HN; apply in_or_app; auto|exact R1]. }
    destruct o as [m|t|c|c].
    + cbn [nav_step] in RS. assert (Hm : msg_ok m) by (apply HM; apply in_or_app; right; left; reflexivity).
      assert (Hn : sf_sv m = sv -> sf_gnss m <> 2) by (apply HN; apply in_or_app; right; left; reflexivity).
      destruct (is_gps sv m) eqn:EG.
      { destruct (gps_message junk sv h s1 m HJ Hm EG HI) as (s' & d & EC & HI' & _). rewrite EC in RS. cbn [bind] in RS. injection RS as <- _. exact HI'. }
      destruct HI as [HG HF HE HC].
      assert (X : t_hist sv (h ++ [NMsg m]) = t_hist sv h) by (rewrite t_hist_snoc; unfold t_op; rewrite EG; reflexivity).
      assert (Y : forall k, last_sf sv k (h ++ [NMsg m]) = last_sf sv k h) by (intros k; rewrite last_sf_snoc; unfold l_op; rewrite EG; reflexivity).
      assert (KEY : n_ecb s = n_ecb s1 /\ n_gcb s = n_gcb s1 /\ (eph_of s sv = eph_of s1 sv \/ (sf_sv m = sv /\ eph_of s sv = start_rec s1 m))).
      { unfold is_gps in EG. destruct (Z.eq_dec (sf_gnss m) 6) as [G|G6].
        - pose proof (convert_glo junk s1 m G) as HV. destruct (decodeGlonass _ _ _ _ _ _ _) as [((g', ev'), b')|k].
          + destruct HV as (s' & EV & _ & (K1 & _ & K3 & K4 & _)). rewrite EV in RS. injection RS as <- _. rewrite K1. auto.
          + rewrite HV in RS. discriminate.
        - destruct (Z.eq_dec (sf_gnss m) 2) as [G|G2].
          + pose proof (convert_gal junk s1 m G) as HV. destruct (decodeGalileo _ _ _ _) as [(((st', e'), ev'), b')|k].
            * destruct HV as (s' & EV & _ & (K1 & _ & K3 & K4) & _). rewrite EV in RS. injection RS as <- _.
              rewrite (K1 sv); [auto|]. intros EQ. apply Hn; [symmetry; exact EQ|exact G].
            * rewrite HV in RS. discriminate.
          + destruct (Z.eq_dec (sf_gnss m) 0) as [G|G0].
            * pose proof (convert_gps junk s1 m G) as HV. destruct (decodeGPS _ _ _) as [((e', d), b')|k].
              -- destruct HV as (s' & EV & _ & (K1 & _ & K3 & K4) & _). rewrite EV in RS. injection RS as <- _. rewrite (K1 sv); [auto|lia].
              -- rewrite HV in RS. discriminate.
            * destruct (convert_other junk s1 m G0 G2 G6) as (s' & EV & EE & (K1 & _ & K3 & K4) & _). rewrite EV in RS. injection RS as <- _.
              split; [exact K3|]. split; [exact K4|]. destruct (Z.eq_dec (sf_sv m) sv) as [Q|Q]; [right; rewrite Q in EE; auto|left; apply K1; auto]. }
      destruct KEY as (K3 & K4 & K1). split.
      * rewrite X, !Y. destruct K1 as [-> | (SV & ->)]; [exact HG|]. unfold start_rec. rewrite SV. apply gi_start. exact HG.
      * rewrite X. exact HF.
      * rewrite ecbs_snoc, app_nil_r, K3. exact HE.
      * rewrite gcbs_snoc, app_nil_r, K4. exact HC.
    + cbn [nav_step] in RS. injection RS as <- _. destruct HI as [HG HF HE HC].
      split; rewrite ?t_hist_snoc, ?last_sf_snoc, ?ecbs_snoc, ?gcbs_snoc, ?app_nil_r; assumption.
    + cbn [nav_step] in RS. injection RS as <- _. destruct HI as [HG HF HE HC].
      split; rewrite ?t_hist_snoc, ?last_sf_snoc, ?ecbs_snoc, ?gcbs_snoc, ?app_nil_r; try assumption. cbn [nav_ecb n_ecb]. rewrite HE. reflexivity.
    + cbn [nav_step] in RS. injection RS as <- _. destruct HI as [HG HF HE HC].
      split; rewrite ?t_hist_snoc, ?last_sf_snoc, ?ecbs_snoc, ?gcbs_snoc, ?app_nil_r; try assumption. cbn [nav_gcb n_gcb]. rewrite HC. reflexivity.
Qed.
