(* Proofs about ExSat.v. *)
From Coq Require Import String Ascii Sorted.
From Verif Require Import Base UtcModel Dbl NavModel NavSpec NavGpsSpec NavStrSpec NavGloSpec NavGalSpec NavStr NavBits NavGps NavObj NavIso TextSpec ExShow ExShowThm Calendar UtcShow UtcShowThm ExSat.
Local Open Scope string_scope.
Local Open Scope Z_scope.

(* ---------------------------------------------------------------- specification *)
(* the numbers of a set, in ascending order *)
Definition listing (P : Z -> Prop) (l : list Z) : Prop := StronglySorted Z.lt l /\ forall x, In x l <-> P x.
Definition history := list (utc * nev).
(* satellite x was delivered to callback c with constellation k *)
Definition got_eph (c k : Z) (h : history) (x : Z) : Prop := exists now e, In (now, EvEph c e) h /\ ei e FgnssID = k /\ ei e Fsat = x.
Definition got_geph (c : Z) (h : history) (x : Z) : Prop := exists now g, In (now, EvGeph c g) h /\ gi g Gsat = x.
(* the names printed for the numbers of the constellations (UBX protocol: 0 GPS, 2 Galileo, 3 BeiDou, 5 QZSS, 6 GLONASS) *)
Definition constellation (k : Z) : string :=
  match k with 0 => "GPS" | 2 => "Galileo" | 3 => "Beidou" | 5 => "Qzss" | 6 => "Glonass" | _ => "Unknown" end.
(* the line with how many there are, and their numbers *)
Definition total_line (name : string) (l : list Z) : string :=
  line ("Total " ++ name ++ ": " ++ number (Z.of_nat (length l)) ++ ": " ++ String.concat "" (map (fun x => number x ++ ", ") l)).
(* what is printed for the ephemeris e delivered after the history h, at the time now *)
Definition eph_text (ec : Z) (h : history) (now : utc) (e : eph) (txt : string) : Prop :=
  exists a b l, show_utc now = Ok a /\ show_utc (e_toe e) = Ok b /\
    let rule := line "!!!!!!!!!!!!!!!!!!!!!!!!!!!!!!!!!!!!!!!!!!!!!!!!!!!!!!!!!!" in
    let head := rule ++ line (constellation (ei e FgnssID) ++ " sat: " ++ number (ei e Fsat) ++ ", now = " ++ a ++ ", toe = " ++ b ++ ", tof = " ++ b) ++ rule in
    (ei e FgnssID = 0 -> listing (got_eph ec 0 (h ++ [(now, EvEph ec e)])%list) l /\ txt = head ++ total_line "GPS" l) /\
    (ei e FgnssID = 2 -> listing (got_eph ec 2 (h ++ [(now, EvEph ec e)])%list) l /\ txt = head ++ total_line "GAL" l) /\
    (ei e FgnssID <> 0 -> ei e FgnssID <> 2 -> txt = head).
Definition geph_text (gc : Z) (h : history) (now : utc) (g : geph) (txt : string) : Prop :=
  exists a b c l, show_utc now = Ok a /\ show_utc (g_toe g) = Ok b /\ show_utc (g_tof g) = Ok c /\ listing (got_geph gc (h ++ [(now, EvGeph gc g)])%list) l /\
    let rule := line "*************************************************************" in
    txt = rule ++ line ("Glonass sat:" ++ number (gi g Gsat) ++ ", now = " ++ a ++ ", toe = " ++ b ++ ", tof = " ++ c) ++ rule ++ total_line "GLONASS" l.
Definition event_text (ec gc : Z) (h : history) (now : utc) (v : nev) (txt : string) : Prop :=
  match v with
  | EvEph c e => if c =? ec then eph_text ec h now e txt else txt = ""
  | EvGeph c g => if c =? gc then geph_text gc h now g txt else txt = ""
  | EvFell _ => txt = ""
  end.

(* ---------------------------------------------------------------- sets *)
Lemma set_insert_in x l y : StronglySorted Z.lt l -> (In y (set_insert x l) <-> y = x \/ In y l).
Proof.
  induction 1 as [|z r HS IH HF]; [cbn; intuition congruence|]. cbn [set_insert]. destruct (Z.ltb_spec x z); [cbn; intuition congruence|].
  destruct (Z.ltb_spec z x); [cbn [In]; rewrite IH; tauto|]. assert (x = z) by lia. subst. cbn [In]. intuition congruence.
Qed.
Lemma set_insert_sorted x l : StronglySorted Z.lt l -> StronglySorted Z.lt (set_insert x l).
Proof.
  induction 1 as [|z r HS IH HF]; [repeat constructor|]. cbn [set_insert]. destruct (Z.ltb_spec x z).
  - constructor; [constructor; assumption|]. constructor; [assumption|]. eapply Forall_impl; [|exact HF]. intros a Ha. lia.
  - destruct (Z.ltb_spec z x); [|constructor; assumption]. constructor; [exact IH|]. apply Forall_forall. intros y Hy. apply set_insert_in in Hy; [|exact HS].
    destruct Hy as [->|Hy]; [assumption|]. rewrite Forall_forall in HF. apply HF. exact Hy.
Qed.
Lemma listing_insert P Q x l : listing P l -> (forall y, Q y <-> y = x \/ P y) -> listing Q (set_insert x l).
Proof. intros [S I] H. split; [apply set_insert_sorted; exact S|]. intros y. rewrite set_insert_in, H, I by exact S. reflexivity. Qed.
Lemma listing_ext P Q l : listing P l -> (forall y, Q y <-> P y) -> listing Q l.
Proof. intros [S I] H. split; [exact S|]. intros y. rewrite H. apply I. Qed.

Record FI (ec gc : Z) (h : history) (f : found) : Prop := mkFI {
  fi_gps : listing (got_eph ec 0 h) (f_gps f); fi_gal : listing (got_eph ec 2 h) (f_gal f); fi_glo : listing (got_geph gc h) (f_glo f) }.
Lemma fi_none ec gc : FI ec gc [] f_none.
Proof.
  split; (split; [constructor|]); intros x; cbn [In f_gps f_gal f_glo f_none]; (split; [tauto|]).
  - intros (now & e & H & _). destruct H. - intros (now & e & H & _). destruct H. - intros (now & e & H & _). destruct H.
Qed.
Lemma got_eph_snoc c k h now v y : got_eph c k (h ++ [(now, v)])%list y <-> got_eph c k h y \/ (exists e, v = EvEph c e /\ ei e FgnssID = k /\ ei e Fsat = y).
Proof.
  unfold got_eph. split.
  - intros (n & e & H & E1 & E2). apply in_app_or in H. destruct H as [H|[H|[]]]; [left; exists n, e; auto|right; exists e; split; [congruence|auto]].
  - intros [(n & e & H & E)|(e & -> & E)]; [exists n, e; split; [apply in_or_app; left; exact H|exact E]|exists now, e; split; [apply in_or_app; right; left; reflexivity|exact E]].
Qed.
Lemma got_geph_snoc c h now v y : got_geph c (h ++ [(now, v)])%list y <-> got_geph c h y \/ (exists g, v = EvGeph c g /\ gi g Gsat = y).
Proof.
  unfold got_geph. split.
  - intros (n & e & H & E1). apply in_app_or in H. destruct H as [H|[H|[]]]; [left; exists n, e; auto|right; exists e; split; [congruence|auto]].
  - intros [(n & e & H & E)|(e & -> & E)]; [exists n, e; split; [apply in_or_app; left; exact H|exact E]|exists now, e; split; [apply in_or_app; right; left; reflexivity|exact E]].
Qed.
Lemma bindE {A B} (x : outcome A) (k : A -> outcome B) r : bind x k = Ok r -> exists a, x = Ok a /\ k a = Ok r.
Proof. destruct x; cbn; intros H; [eauto|discriminate]. Qed.
Lemma constellation_eq k : Type_name k = constellation k.
Proof.
  unfold Type_name, constellation.
  destruct (Z.eqb_spec k 0) as [->|N0]; [reflexivity|]. destruct (Z.eqb_spec k 2) as [->|N2]; [reflexivity|].
  destruct (Z.eqb_spec k 6) as [->|N6]; [reflexivity|]. destruct (Z.eqb_spec k 5) as [->|N5]; [reflexivity|].
  destruct (Z.eqb_spec k 3) as [->|N3]; [reflexivity|].
  destruct k as [|p|p]; [congruence| |reflexivity].
  destruct p as [[[p|p|]|[p|p|]|]|[[p|p|]|[p|p|]|]|]; try reflexivity; congruence.
Qed.
Lemma concat_cat ts : String.concat "" ts = fold_right append "" ts.
Proof.
  induction ts as [|t ts IH]; [reflexivity|]. cbn [fold_right]. rewrite <- IH. destruct ts as [|u ts]; [cbn [String.concat]; rewrite sapp_nil; reflexivity|reflexivity].
Qed.
Lemma total_eq nm l : total nm l = total_line nm l.
Proof. unfold total, total_line, line, each, number, dec, nl, Zlen. change (Ascii.ascii_of_nat 10) with "010"%char. rewrite concat_cat, !sapp_assoc. reflexivity. Qed.
Lemma head_eq rl k n a b c : (rl ++ nl) ++ Type_name k ++ " sat: " ++ dec n ++ ", now = " ++ a ++ ", toe = " ++ b ++ ", tof = " ++ c ++ nl ++ (rl ++ nl) =
  line rl ++ line (constellation k ++ " sat: " ++ number n ++ ", now = " ++ a ++ ", toe = " ++ b ++ ", tof = " ++ c) ++ line rl.
Proof. rewrite constellation_eq. unfold line, nl, number, dec. change (Ascii.ascii_of_nat 10) with "010"%char. rewrite !sapp_assoc. reflexivity. Qed.
Lemma ghead_eq rl n a b c t : (rl ++ nl) ++ "Glonass sat:" ++ dec n ++ ", now = " ++ a ++ ", toe = " ++ b ++ ", tof = " ++ c ++ nl ++ (rl ++ nl) ++ t =
  line rl ++ line ("Glonass sat:" ++ number n ++ ", now = " ++ a ++ ", toe = " ++ b ++ ", tof = " ++ c) ++ line rl ++ t.
Proof. unfold line, nl, number, dec. change (Ascii.ascii_of_nat 10) with "010"%char. rewrite !sapp_assoc. reflexivity. Qed.
Lemma on_event_ok ec gc h now v f f' txt : FI ec gc h f -> on_event ec gc now v f = Ok (f', txt) -> FI ec gc (h ++ [(now, v)])%list f' /\ event_text ec gc h now v txt.
Proof.
  intros [I1 I2 I3] H. destruct v as [c e|c g|n]; cbn [on_event event_text] in *.
  - destruct (Z.eqb_spec c ec) as [->|NE].
    + unfold eph_callback in H. apply bindE in H. destruct H as (a & EA & H). apply bindE in H. destruct H as (b & EB & H). apply bindE in H. destruct H as (b' & EB' & H).
      assert (b' = b) by congruence. subst b'. cbv zeta in H.
      assert (N : forall k y, got_eph ec k (h ++ [(now, EvEph ec e)])%list y <-> (ei e FgnssID = k /\ y = ei e Fsat) \/ got_eph ec k h y).
      { intros k y. rewrite got_eph_snoc. split; [intros [X|(e' & E1 & E2 & E3)]; [auto|injection E1 as <-; auto]|]. intros [[X ->]|X]; [right; exists e; auto|auto]. }
      assert (G : forall y, got_geph gc (h ++ [(now, EvEph ec e)])%list y <-> got_geph gc h y).
      { intros y. rewrite got_geph_snoc. split; [intros [X|(e' & E1 & _)]; [auto|discriminate]|auto]. }
      unfold bar1 in H. rewrite head_eq, !total_eq in H.
      destruct (Z.eqb_spec (ei e FgnssID) 0) as [K|K]; [|destruct (Z.eqb_spec (ei e FgnssID) 2) as [K2|K2]].
      * injection H as <- <-. assert (L : listing (got_eph ec 0 (h ++ [(now, EvEph ec e)])%list) (set_insert (ei e Fsat) (f_gps f))).
        { apply (listing_insert _ _ _ _ I1). intros y. rewrite N. tauto. }
        split; [split; cbn [f_gps f_gal f_glo]; [exact L|apply (listing_ext _ _ _ I2); intros y; rewrite N; intuition congruence|apply (listing_ext _ _ _ I3); exact G]|].
        exists a, b, (set_insert (ei e Fsat) (f_gps f)). split; [exact EA|]. split; [exact EB|]. split; [intros _; split; [exact L|reflexivity]|]. split; [intros X; congruence|intros X; congruence].
      * injection H as <- <-. assert (L : listing (got_eph ec 2 (h ++ [(now, EvEph ec e)])%list) (set_insert (ei e Fsat) (f_gal f))).
        { apply (listing_insert _ _ _ _ I2). intros y. rewrite N. tauto. }
        split; [split; cbn [f_gps f_gal f_glo]; [apply (listing_ext _ _ _ I1); intros y; rewrite N; intuition congruence|exact L|apply (listing_ext _ _ _ I3); exact G]|].
        exists a, b, (set_insert (ei e Fsat) (f_gal f)). split; [exact EA|]. split; [exact EB|]. split; [intros X; congruence|]. split; [intros _; split; [exact L|reflexivity]|intros _ X; congruence].
      * injection H as <- <-.
        split; [split; [apply (listing_ext _ _ _ I1); intros y; rewrite N; intuition congruence|apply (listing_ext _ _ _ I2); intros y; rewrite N; intuition congruence|apply (listing_ext _ _ _ I3); exact G]|].
        exists a, b, []. split; [exact EA|]. split; [exact EB|]. split; [intros X; congruence|]. split; [intros X; congruence|intros _ _; reflexivity].
    + injection H as <- <-. split; [|reflexivity].
      split; [apply (listing_ext _ _ _ I1)|apply (listing_ext _ _ _ I2)|apply (listing_ext _ _ _ I3)]; intros y; rewrite ?got_eph_snoc, ?got_geph_snoc; (split; [intros [X|(e' & E1 & _)]; [auto|congruence]|auto]).
  - destruct (Z.eqb_spec c gc) as [->|NE].
    + unfold geph_callback in H. apply bindE in H. destruct H as (a & EA & H). apply bindE in H. destruct H as (b & EB & H). apply bindE in H. destruct H as (d & ED & H).
      cbv zeta in H. match type of H with Ok (?x, ?y) = _ => assert (f' = x) by congruence; assert (txt = y) by congruence; clear H; subst f' txt end.
      assert (L : listing (got_geph gc (h ++ [(now, EvGeph gc g)])%list) (set_insert (gi g Gsat) (f_glo f))).
      { apply (listing_insert _ _ _ _ I3). intros y. rewrite got_geph_snoc. split; [intros [X|(e' & E1 & E2)]; [auto|left; congruence]|intros [->|X]; [right; exists g; auto|auto]]. }
      split; [split; cbn [f_gps f_gal f_glo]; [apply (listing_ext _ _ _ I1)|apply (listing_ext _ _ _ I2)|exact L]; intros y; rewrite got_eph_snoc; (split; [intros [X|(e' & E1 & _)]; [auto|congruence]|auto])|].
      exists a, b, d, (set_insert (gi g Gsat) (f_glo f)). split; [exact EA|]. split; [exact EB|]. split; [exact ED|]. split; [exact L|].
      unfold bar2. rewrite total_eq. cbv zeta. rewrite <- ghead_eq, !sapp_assoc. reflexivity.
    + injection H as <- <-. split; [|reflexivity].
      split; [apply (listing_ext _ _ _ I1)|apply (listing_ext _ _ _ I2)|apply (listing_ext _ _ _ I3)]; intros y; rewrite ?got_eph_snoc, ?got_geph_snoc; (split; [intros [X|(e' & E1 & _)]; [auto|congruence]|auto]).
  - injection H as <- <-. split; [|reflexivity].
    split; [apply (listing_ext _ _ _ I1)|apply (listing_ext _ _ _ I2)|apply (listing_ext _ _ _ I3)]; intros y; rewrite ?got_eph_snoc, ?got_geph_snoc; (split; [intros [X|(e' & E1 & _)]; [auto|congruence]|auto]).
Qed.
Lemma serial_run_from ec gc : forall h h0 f f' out, FI ec gc h0 f -> serial_run ec gc f h = Ok (f', out) ->
  length out = length h /\ forall h1 now v h2, h = (h1 ++ (now, v) :: h2)%list -> event_text ec gc (h0 ++ h1)%list now v (nth (length h1) out "").
Proof.
  induction h as [|[n w] h IH]; intros h0 f f' out I H; cbn [serial_run] in H.
  - injection H as <- <-. split; [reflexivity|]. intros [|? ?] now v h2 E; discriminate.
  - apply bindE in H. destruct H as ([f1 a] & E1 & H). apply bindE in H. destruct H as ([f2 b] & E2 & H). injection H as <- <-.
    destruct (on_event_ok ec gc h0 n w f f1 a I E1) as [I1 T]. destruct (IH _ _ _ _ I1 E2) as [HL HT]. split; [cbn; rewrite HL; reflexivity|].
    intros [|[n' w'] h1] now v h2 E.
    + cbn [app] in E. injection E as -> -> ->. rewrite app_nil_r. exact T.
    + cbn [app] in E. injection E as -> -> ->. specialize (HT h1 now v h2 eq_refl). rewrite <- app_assoc in HT. exact HT.
Qed.
Lemma serial_texts ec gc h f out : serial_run ec gc f_none h = Ok (f, out) ->
  length out = length h /\ forall h1 now v h2, h = (h1 ++ (now, v) :: h2)%list -> event_text ec gc h1 now v (nth (length h1) out "").
Proof. intros H. destruct (serial_run_from ec gc h [] f_none f out (fi_none ec gc) H) as [A B]. split; [exact A|]. intros h1 now v h2 E. exact (B h1 now v h2 E). Qed.
(* never fails while every time it shows can be printed *)
Definition shown_times (ec gc : Z) (x : utc * nev) : list utc :=
  match x with
  | (now, EvEph c e) => if c =? ec then [now; e_toe e] else []
  | (now, EvGeph c g) => if c =? gc then [now; g_toe g; g_tof g] else []
  | _ => []
  end.
Lemma serial_never_fails ec gc : forall h f, Forall printable (flat_map (shown_times ec gc) h) -> exists r, serial_run ec gc f h = Ok r.
Proof.
  induction h as [|[now v] h IH]; intros f H; [eexists; reflexivity|]. change (flat_map (shown_times ec gc) ((now, v) :: h)) with (shown_times ec gc (now, v) ++ flat_map (shown_times ec gc) h)%list in H.
  apply Forall_app in H. destruct H as [H1 H2]. cbn [serial_run].
  assert (E : exists f1 a, on_event ec gc now v f = Ok (f1, a)).
  { destruct v as [c e|c g|n]; cbn [on_event shown_times] in *; [| |eauto].
    - destruct (c =? ec); [|eauto]. unfold eph_callback. rewrite (show_utc_text now), (show_utc_text (e_toe e)) by (inversion H1 as [|? ? X1 X2]; subst; try exact X1; inversion X2; assumption). cbn [bind]. cbv zeta.
      destruct (ei e FgnssID =? 0); [eauto|]. destruct (ei e FgnssID =? 2); eauto.
    - destruct (c =? gc); [|eauto]. unfold geph_callback. apply Forall_inv in H1 as X1. apply Forall_inv_tail in H1. apply Forall_inv in H1 as X2. apply Forall_inv_tail in H1. apply Forall_inv in H1 as X3.
      rewrite (show_utc_text now X1), (show_utc_text _ X2), (show_utc_text _ X3). cbn [bind]. eauto. }
  destruct E as (f1 & a & ->). cbn [bind]. destruct (IH f1 H2) as ([f2 b] & ->). cbn [bind]. eauto.
Qed.

(* ---------------------------------------------------------------- the parser's events name the satellite and constellation of a message *)
Lemma gps_finish_gnss e e' d r e1 : gps_finish e = Ok (e', d, r) -> d = Some e1 -> ei e1 FgnssID = ei e FgnssID.
Proof.
  unfold gps_finish. intros H Hd. subst d. destruct (gps_complete e); [|injection H; discriminate].
  apply bind_inv in H. destruct H as (toe & _ & H). apply bind_inv in H. destruct H as (toc & _ & H). cbv zeta in H. injection H as _ <- _. reflexivity.
Qed.
Lemma decodeGPS_gnss junk dw e e' d r e1 : decodeGPS junk dw e = Ok (e', d, r) -> d = Some e1 -> ei e1 FgnssID = 0.
Proof.
  unfold decodeGPS. intros H Hd. cbv zeta in H. apply bind_inv in H. destruct H as (sub & _ & H). apply bind_inv in H. destruct H as (b & _ & H).
  destruct (_ || _); [injection H as _ <- _; discriminate|].
  destruct (_ =? 1); [|destruct (_ =? 2); [|destruct (_ =? 3)]].
  - apply bind_inv in H. destruct H as (e2 & H1 & H). rewrite (gps_finish_gnss _ _ _ _ _ H Hd). unfold gps_sf1 in H1. ninv H1. subst. reflexivity.
  - apply bind_inv in H. destruct H as (e2 & H1 & H). rewrite (gps_finish_gnss _ _ _ _ _ H Hd). unfold gps_sf2 in H1. ninv H1. subst. reflexivity.
  - apply bind_inv in H. destruct H as (e2 & H1 & H). rewrite (gps_finish_gnss _ _ _ _ _ H Hd). unfold gps_sf3 in H1. ninv H1. subst. reflexivity.
  - injection H as _ <- _; discriminate.
Qed.
Lemma gal_inav_keeps row e e' ok : gal_inav row e = Ok (e', ok) -> ei e' Fsat = ei e Fsat /\ ei e' FgnssID = ei e FgnssID.
Proof.
  unfold gal_inav. intros H.
  repeat (first [ apply bindE in H; let E := fresh in destruct H as (? & E & H); clear E; cbv zeta in H
                | match type of H with (if ?c then _ else _) = _ => destruct c end ]);
  match type of H with Ok (?x, ?y) = _ => assert (X : e' = x) by congruence end; rewrite X; split; reflexivity.
Qed.
Definition origin (h : list nop) (v : nev) : Prop :=
  match v with
  | EvEph c e => exists m, In (NMsg m) h /\ (sf_gnss m = 0 \/ sf_gnss m = 2) /\ ei e FgnssID = sf_gnss m /\ ei e Fsat = sf_sv m
  | EvGeph c g => exists m, In (NMsg m) h /\ sf_gnss m = 6 /\ gi g Gsat = sf_sv m
  | EvFell _ => True
  end.
Lemma convert_origin junk s m s' ev r : convertUBX junk s m = Ok (s', ev, r) -> Forall (origin [NMsg m]) ev.
Proof.
  unfold convertUBX. intros H. destruct (Z.eqb_spec (sf_gnss m) 6) as [G|G6].
  - destruct (slot _ _ (n_geph s)) as [l i]. apply bindE in H. destruct H as ([[g ev1] b] & E & H). assert (ev = ev1) by congruence. subst ev1. clear H.
    unfold decodeGlonass in E. destruct (sf_sv m =? 255); [assert (ev = []) by congruence; subst; constructor|]. destruct (utc_eq _ _); [assert (ev = []) by congruence; subst; constructor|]. cbv zeta in E.
    apply bindE in E. destruct E as (ok & _ & E). destruct (negb ok); [assert (ev = []) by congruence; subst; constructor|].
    apply bindE in E. destruct E as (b12 & _ & E). apply bindE in E. destruct E as (b13 & _ & E). apply bindE in E. destruct E as ([[g2 ev2] b2] & E2 & E).
    assert (F2 : Forall (origin [NMsg m]) ev2).
    { unfold glo_string in E2. apply bindE in E2. destruct E2 as (f & _ & E2). destruct (_ || _); [assert (ev2 = []) by congruence; subst; constructor|].
      apply bindE in E2. destruct E2 as (g3 & _ & E2). match type of E2 with (if ?c then _ else _) = _ => destruct c end; [assert (X : ev2 = [EvFell FN_GLOFRAME]) by congruence; rewrite X; repeat constructor|].
      apply bindE in E2. destruct E2 as (t1 & _ & E2). apply bindE in E2. destruct E2 as (t2 & _ & E2). assert (X : ev2 = [EvFell FN_GLOFRAME]) by congruence; rewrite X; repeat constructor. }
    destruct (negb b2); [assert (ev = ev2) by congruence; subst; exact F2|].
    match type of E with Ok (?x, ?y, _) = _ => assert (X : ev = y) by congruence end. rewrite X. apply Forall_app. split; [exact F2|]. apply Forall_map, Forall_forall. intros c _. cbn [origin].
    exists m. split; [left; reflexivity|]. split; [exact G|reflexivity].
  - destruct (slot _ _ (n_eph s)) as [l i]. cbv zeta in H. destruct (Z.eqb_spec (sf_gnss m) 0) as [G|G0].
    + apply bindE in H. destruct H as ([[e d] b] & E & H). match type of H with Ok (?x, ?y, _) = _ => assert (X : ev = y) by congruence end. rewrite X. clear H X.
      destruct d as [e1|]; [|constructor]. apply Forall_map, Forall_forall. intros c _. cbn [origin]. exists m. split; [left; reflexivity|]. split; [left; exact G|].
      rewrite G. split; [exact (decodeGPS_gnss _ _ _ _ _ _ _ E eq_refl)|]. rewrite (decodeGPS_sat2 _ _ _ _ _ _ _ E eq_refl). reflexivity.
    + destruct (Z.eqb_spec (sf_gnss m) 2) as [G|G2].
      * apply bindE in H. destruct H as ([[[st e] ev1] b] & E & H). assert (ev = ev1) by congruence. subst ev1. clear H. unfold decodeGalileo in E. cbv zeta in E.
        repeat (lazymatch type of E with
                | bind (gal_inav _ _) _ = _ => fail
                | bind _ _ = _ => apply bindE in E; let E' := fresh in destruct E as (? & E' & E); clear E'
                | (if ?c then _ else _) = _ => destruct c; [solve [discriminate | assert (ev = []) by congruence; subst; constructor]|] end).
        apply bindE in E. destruct E as ([e2 ok] & E2 & E). destruct (negb ok); [assert (ev = []) by congruence; subst; constructor|].
        match type of E with Ok (?x, ?z, ?y, _) = _ => assert (X : ev = y) by congruence end. rewrite X. constructor; [exact I|]. apply Forall_map, Forall_forall. intros c _. cbn [origin].
        exists m. split; [left; reflexivity|]. split; [right; exact G|]. destruct (gal_inav_keeps _ _ _ _ E2) as [K1 K2]. rewrite K1, K2. split; reflexivity.
      * destruct (sf_gnss m =? 3); match type of H with Ok (?x, ?y, _) = _ => assert (X : ev = y) by congruence end; rewrite X; repeat constructor.
Qed.
Lemma origin_mono h h' v : (forall m, In (NMsg m) h -> In (NMsg m) h') -> origin h v -> origin h' v.
Proof. intros H. destruct v as [c e|c g|n]; cbn [origin]; [| |tauto]; intros (m & I & R); exists m; auto. Qed.
Lemma run_origin junk : forall h s s' ev, nav_run junk s h = Ok (s', ev) -> Forall (origin h) ev.
Proof.
  induction h as [|o h IH]; intros s s' ev H; cbn [nav_run] in H; [injection H as <- <-; constructor|].
  apply bindE in H. destruct H as ([s1 e1] & E1 & H). apply bindE in H. destruct H as ([s2 e2] & E2 & H). assert (ev = (e1 ++ e2)%list) by congruence. subst ev. clear H. apply Forall_app. split.
  - destruct o as [m|t|c|c]; cbn [nav_step] in E1; try (assert (e1 = []) by congruence; subst; constructor).
    apply bindE in E1. destruct E1 as ([[s3 e3] r] & E3 & E1). assert (e1 = e3) by congruence. subst e3. eapply Forall_impl; [|exact (convert_origin _ _ _ _ _ _ E3)].
    intros v. apply origin_mono. intros m' [->|[]]. left. reflexivity.
  - eapply Forall_impl; [|exact (IH _ _ _ E2)]. intros v. apply origin_mono. intros m' I. right. exact I.
Qed.
