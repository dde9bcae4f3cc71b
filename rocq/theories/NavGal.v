(* decode_gal_inav and decodeGalileo (nav.cpp:467-728) against the release rule. *)
From Coq Require Import QArith.
From Verif Require Import Base ZBits BitSpec BitModel BitProofs CrcModel CrcSpec CrcProofs UtcModel UtcSpec UtcProofs Dbl NavModel NavSpec NavGpsSpec NavAcc NavStrSpec NavStr NavGlo NavDay NavObj NavGalSpec NavPage.
Local Open Scope Z_scope.

Lemma fromGPS_whole week s : 0 <= week -> 0 <= s < 2147483 ->
  fromGPS week (s * 1000) = if 2 ^ 31 <=? week * 604800 + s then UB UB_overflow else Ok (mkUtc (315964818 + week * 604800 + s) 0).
Proof.
  intros Hw Hs. destruct (fromGPS_spec week (s * 1000) Hw) as [H1 H2]; [change (2 ^ 31) with 2147483648; lia|].
  replace (s * 1000 / 1000) with s in * by lia. replace (s * 1000 mod 1000) with 0 in * by lia.
  destruct (Z.leb_spec (2 ^ 31) (week * 604800 + s)) as [L|L]; [apply H2; exact L|].
  destruct (H1 L) as (t & E & HN & HS). rewrite E. f_equal. unfold nanos in HN. destruct t as [a b]. cbn [sec nsec] in *.
  change (2 <=? 0) with false in HS. cbv iota in HS. f_equal; lia.
Qed.
Lemma week_fix week a b : 0 <= week <= 4095 -> 0 <= a < 2147483 -> 0 <= b < 2147483 ->
  exists d, utc_sub (mkUtc (315964818 + week * 604800 + a) 0) (mkUtc (315964818 + week * 604800 + b) 0) = Ok d /\
  dlt (d_of_int 302400) (toSec d) = (302400 <? a - b) /\ dlt (toSec d) (d_of_int (-302400)) = (a - b <? -302400).
Proof.
  intros Hw Ha Hb. set (A := mkUtc (315964818 + week * 604800 + a) 0). set (B := mkUtc (315964818 + week * 604800 + b) 0).
  destruct (sub_spec A B) as (d & E & HD & _ & HN).
  { unfold almost_normal, A. cbn. lia. } { unfold almost_normal, B. cbn. lia. } { unfold fits, A, B. cbn [sec]. change (2 ^ 63) with 9223372036854775808. lia. }
  exists d. split; [exact E|]. assert (Nd : normal d) by (apply HN; unfold normal, A, B; cbn; lia).
  assert (ND : nanos d = (a - b) * 1000000000) by (rewrite HD; unfold nanos, A, B; cbn [sec nsec]; lia).
  assert (Sd : Z.abs (sec d) <= 2 ^ 52) by (unfold nanos, normal in *; change (2 ^ 52) with 4503599627370496; lia).
  rewrite toSec_gt by (assumption || vm_compute; congruence). rewrite toSec_lt by (assumption || vm_compute; congruence). rewrite ND.
  split; apply eq_true_iff_eq; rewrite !Z.ltb_lt; lia.
Qed.

Lemma bind_rw {A B} (x : outcome A) v (f : A -> outcome B) r : x = Ok v -> f v = r -> bind x f = r.
Proof. intros -> <-. reflexivity. Qed.
Lemma times_ok {R} wk tow te tc lim toes (k : Z -> utc -> utc -> outcome R) : 0 <= wk < 4096 -> 0 <= tow < 1048576 -> 0 <= te < 16384 -> 0 <= tc < 16384 ->
  let d := 60 * te - tow in let w := wk + (if 302400 <? d then -1 else if d <? -302400 then 1 else 0) + 1024 in lim = 2 ^ 31 -> toes = 60 * te ->
  (let* ttr := fromGPS wk (tow * 1000) in
   let* t1 := fromGPS wk (toes * 1000) in
   let* dt := utc_sub t1 ttr in
   let week := if dlt (d_of_int 302400) (toSec dt) then wk - 1 else if dlt (toSec dt) (d_of_int (-302400)) then wk + 1 else wk in
   let week := week + 1024 in
   let* toe := fromGPS week (i32 (u32 (toes * 1000))) in
   let* tocv := fromGPS week (tc * 60 * 1000) in k week toe tocv) =
  if lim <=? w * 604800 + 60 * Z.max te tc then UB UB_overflow else k w (mkUtc (315964818 + w * 604800 + 60 * te) 0) (mkUtc (315964818 + w * 604800 + 60 * tc) 0).
Proof.
  intros RW RT RE RC d w -> ->. unfold w, d. clear d w. cbv zeta.
  set (adj := if 302400 <? 60 * te - tow then -1 else if 60 * te - tow <? -302400 then 1 else 0).
  assert (RA : -1 <= adj <= 1) by (unfold adj; destruct (302400 <? 60 * te - tow); [lia|destruct (60 * te - tow <? -302400); lia]).
  rewrite (fromGPS_whole wk tow) by lia. change (2 ^ 31) with 2147483648.
  destruct (Z.leb_spec 2147483648 (wk * 604800 + tow)) as [C|C]; cbn [bind].
  { replace (2147483648 <=? (wk + adj + 1024) * 604800 + 60 * Z.max te tc) with true by lia. reflexivity. }
  rewrite (fromGPS_whole wk (60 * te)) by lia. change (2 ^ 31) with 2147483648.
  destruct (Z.leb_spec 2147483648 (wk * 604800 + 60 * te)) as [C2|C2]; cbn [bind].
  { replace (2147483648 <=? (wk + adj + 1024) * 604800 + 60 * Z.max te tc) with true by lia. reflexivity. }
  destruct (week_fix wk (60 * te) tow) as (d & ED & D1 & D2); [lia|lia|lia|]. rewrite ED. cbn [bind]. rewrite D1, D2.
  replace ((if 302400 <? 60 * te - tow then wk - 1 else if 60 * te - tow <? -302400 then wk + 1 else wk) + 1024) with (wk + adj + 1024)
    by (unfold adj; destruct (302400 <? 60 * te - tow); [lia|destruct (60 * te - tow <? -302400); lia]).
  assert (EI : i32 (u32 (60 * te * 1000)) = 60 * te * 1000).
  { unfold u32, i32, sgn. change (2 ^ 32) with 4294967296. change (2 ^ (32 - 1)) with 2147483648. rewrite !Z.mod_small by lia.
    replace (60 * te * 1000 <? 2147483648) with true by lia. reflexivity. }
  rewrite EI. replace (tc * 60 * 1000) with (60 * tc * 1000) by lia.
  rewrite !fromGPS_whole by lia. change (2 ^ 31) with 2147483648.
  destruct (Z.leb_spec 2147483648 ((wk + adj + 1024) * 604800 + 60 * te)) as [C3|C3]; cbn [bind].
  { replace (2147483648 <=? (wk + adj + 1024) * 604800 + 60 * Z.max te tc) with true by lia. reflexivity. }
  destruct (Z.leb_spec 2147483648 ((wk + adj + 1024) * 604800 + 60 * tc)) as [C4|C4]; cbn [bind].
  { replace (2147483648 <=? (wk + adj + 1024) * 604800 + 60 * Z.max te tc) with true by lia. reflexivity. }
  replace (2147483648 <=? (wk + adj + 1024) * 604800 + 60 * Z.max te tc) with false by lia. reflexivity.
Qed.
(* the fields written before the checks *)
Definition lfill (w1 w2 w3 w4 w5 : Z) (e : eph) : eph :=
  setd Ftgd1 (sc (wfieldS w5 57 10) P2_32) (setd Ftgd0 (sc (wfieldS w5 47 10) P2_32)
  (setd Faf2 (sc (wfieldS w4 120 6) P2_59) (setd Faf1 (sc (wfieldS w4 99 21) P2_46) (setd Faf0 (sc (wfieldS w4 68 31) P2_34)
  (setd Fcis (sc (wfieldS w4 38 16) P2_29) (setd Fcic (sc (wfieldS w4 22 16) P2_29)
  (setd Fcrs (sc (wfieldS w3 104 16) P2_5) (setd Fcrc (sc (wfieldS w3 88 16) P2_5) (setd Fcus (sc (wfieldS w3 72 16) P2_29)
  (setd Fcuc (sc (wfieldS w3 56 16) P2_29) (setd Fdeltan (sc2 (wfieldS w3 40 16) P2_43 D_PI) (setd Fomegadot (sc2 (wfieldS w3 16 24) P2_43 D_PI)
  (setd Fidot (sc2 (wfieldS w2 112 14) P2_43 D_PI) (setd Fw (sc2 (wfieldS w2 80 32) P2_31 D_PI) (setd Fi0 (sc2 (wfieldS w2 48 32) P2_31 D_PI)
  (setd Fomega0 (sc2 (wfieldS w2 16 32) P2_31 D_PI)
  (setd Fecc (sc (wfield w1 62 32) P2_33) (setd Fm0 (sc2 (wfieldS w1 30 32) P2_31 D_PI) (seti Ftoes (u32 (wfield w1 16 14 * 60)) e))))))))))))))))))).
Definition ldone (w0 w1 w4 : Z) (e : eph) : eph :=
  seti Fweek (u16 (l_week w0 w1)) (set_toc (mkUtc (315964818 + l_week w0 w1 * 604800 + 60 * wfield w4 54 14) 0)
    (set_toe (mkUtc (315964818 + l_week w0 w1 * 604800 + 60 * wfield w1 16 14) 0)
    (seti Fiode (u8 (u16 (wiod w1))) (seti Fiodc (u16 (wiod w1)) (setd Fsqrta (sc (wfield w1 94 32) P2_19) e))))).

(* the checks and the times, after the fields have been read *)
Definition ltail (W : Z -> Z) (e : eph) : outcome (eph * bool) :=
  if negb (wfield (W 0) 0 6 =? 0) || negb (wfield (W 1) 0 6 =? 1) || negb (wfield (W 2) 0 6 =? 2) || negb (wfield (W 3) 0 6 =? 3) || negb (wfield (W 4) 0 6 =? 4) then Ok (e, false)
  else if negb (wfield (W 0) 6 2 =? 2) then Ok (e, false)
  else if negb (wfield (W 1) 6 10 =? wfield (W 2) 6 10) || negb (wfield (W 1) 6 10 =? wfield (W 3) 6 10) || negb (wfield (W 1) 6 10 =? wfield (W 4) 6 10) then Ok (e, false)
  else
    let e := setd Fsqrta (sc (wfield (W 1) 94 32) P2_19) e in
    let e := seti Fiodc (u16 (wfield (W 1) 6 10)) e in
    let e := seti Fiode (u8 (ei e Fiodc)) e in
    let week := wfield (W 0) 96 12 in
    let* ttr := fromGPS week (wfield (W 0) 108 20 * 1000) in
    let* t1 := fromGPS week (ei e Ftoes * 1000) in
    let* dt := utc_sub t1 ttr in
    let week := if dlt (d_of_int 302400) (toSec dt) then week - 1
                else if dlt (toSec dt) (d_of_int (-302400)) then week + 1 else week in
    let week := week + 1024 in
    let* toe := fromGPS week (i32 (u32 (ei e Ftoes * 1000))) in
    let* tocv := fromGPS week (wfield (W 4) 54 14 * 60 * 1000) in
    Ok (seti Fweek (u16 week) (set_toc tocv (set_toe toe e)), true).
Lemma inav_head row e : row_ok row -> let W := row_word row in
  gal_inav row e = ltail W (lfill (W 1) (W 2) (W 3) (W 4) (W 5) e).
Proof.
  intros (HL & HB & _ & _) W.
  assert (G : forall k pos len n, n = 128 * k + pos -> 0 <= k <= 6 -> 0 <= pos -> 1 <= len <= 32 -> pos + len <= 128 -> getBitRt row n len = Ok (wfield (W k) pos len)).
  { intros k pos len n -> H1 H2 H3 H4. apply row_get; (assumption || lia). }
  assert (GS : forall k pos len n, n = 128 * k + pos -> 0 <= k <= 6 -> 0 <= pos -> 1 <= len <= 32 -> pos + len <= 128 -> getBitRtS row n len = Ok (wfieldS (W k) pos len)).
  { intros k pos len n -> H1 H2 H3 H4. apply row_getS; (assumption || lia). }
  clearbody W.
  unfold gal_inav.
  eapply bind_rw; [apply (G 0 0 6 0 eq_refl); lia|cbv beta zeta].
  eapply bind_rw; [apply (G 0 6 2 6 eq_refl); lia|cbv beta zeta].
  eapply bind_rw; [apply (G 0 96 12 96 eq_refl); lia|cbv beta zeta].
  eapply bind_rw; [apply (G 0 108 20 108 eq_refl); lia|cbv beta zeta].
  eapply bind_rw; [apply (G 1 0 6 128 eq_refl); lia|cbv beta zeta].
  eapply bind_rw; [apply (G 1 6 10 134 eq_refl); lia|cbv beta zeta].
  eapply bind_rw; [apply (G 1 16 14 144 eq_refl); lia|cbv beta zeta].
  eapply bind_rw; [apply (GS 1 30 32 158 eq_refl); lia|cbv beta zeta].
  eapply bind_rw; [apply (G 1 62 32 190 eq_refl); lia|cbv beta zeta].
  eapply bind_rw; [apply (G 1 94 32 222 eq_refl); lia|cbv beta zeta].
  eapply bind_rw; [apply (G 2 0 6 256 eq_refl); lia|cbv beta zeta].
  eapply bind_rw; [apply (G 2 6 10 262 eq_refl); lia|cbv beta zeta].
  eapply bind_rw; [apply (GS 2 16 32 272 eq_refl); lia|cbv beta zeta].
  eapply bind_rw; [apply (GS 2 48 32 304 eq_refl); lia|cbv beta zeta].
  eapply bind_rw; [apply (GS 2 80 32 336 eq_refl); lia|cbv beta zeta].
  eapply bind_rw; [apply (GS 2 112 14 368 eq_refl); lia|cbv beta zeta].
  eapply bind_rw; [apply (G 3 0 6 384 eq_refl); lia|cbv beta zeta].
  eapply bind_rw; [apply (G 3 6 10 390 eq_refl); lia|cbv beta zeta].
  eapply bind_rw; [apply (GS 3 16 24 400 eq_refl); lia|cbv beta zeta].
  eapply bind_rw; [apply (GS 3 40 16 424 eq_refl); lia|cbv beta zeta].
  eapply bind_rw; [apply (GS 3 56 16 440 eq_refl); lia|cbv beta zeta].
  eapply bind_rw; [apply (GS 3 72 16 456 eq_refl); lia|cbv beta zeta].
  eapply bind_rw; [apply (GS 3 88 16 472 eq_refl); lia|cbv beta zeta].
  eapply bind_rw; [apply (GS 3 104 16 488 eq_refl); lia|cbv beta zeta].
  eapply bind_rw; [apply (G 4 0 6 512 eq_refl); lia|cbv beta zeta].
  eapply bind_rw; [apply (G 4 6 10 518 eq_refl); lia|cbv beta zeta].
  eapply bind_rw; [apply (G 4 16 6 528 eq_refl); lia|cbv beta zeta].
  eapply bind_rw; [apply (GS 4 22 16 534 eq_refl); lia|cbv beta zeta].
  eapply bind_rw; [apply (GS 4 38 16 550 eq_refl); lia|cbv beta zeta].
  eapply bind_rw; [apply (G 4 54 14 566 eq_refl); lia|cbv beta zeta].
  eapply bind_rw; [apply (GS 4 68 31 580 eq_refl); lia|cbv beta zeta].
  eapply bind_rw; [apply (GS 4 99 21 611 eq_refl); lia|cbv beta zeta].
  eapply bind_rw; [apply (GS 4 120 6 632 eq_refl); lia|cbv beta zeta].
  eapply bind_rw; [apply (G 5 0 6 640 eq_refl); lia|cbv beta zeta].
  eapply bind_rw; [apply (GS 5 47 10 687 eq_refl); lia|cbv beta zeta].
  eapply bind_rw; [apply (GS 5 57 10 697 eq_refl); lia|cbv beta zeta].
  reflexivity.
Qed.
Lemma toes_kept E1 a b c t : ei E1 Ftoes = t -> ei (seti Fiode a (seti Fiodc b (setd Fsqrta c E1))) Ftoes = t.
Proof. intros H. rewrite <- H. reflexivity. Qed.
Lemma inav_ok row e : row_ok row -> nth 112 row 0 = 127 ->
  let W := row_word row in
  gal_inav row e =
    if l_ready (row_held row) then
      (if l_late (W 0) (W 1) (W 4) then UB UB_overflow else Ok (ldone (W 0) (W 1) (W 4) (lfill (W 1) (W 2) (W 3) (W 4) (W 5) e), true))
    else Ok (lfill (W 1) (W 2) (W 3) (W 4) (W 5) e, false).
Proof.
  intros (HL & HB & _ & HT) HF W.
  assert (TT : forall k, 0 <= k <= 6 -> wfield (W k) 0 6 = k).
  { intros k Hk. apply HT; [exact Hk|]. rewrite HF. assert (C : k = 0 \/ k = 1 \/ k = 2 \/ k = 3 \/ k = 4 \/ k = 5 \/ k = 6) by lia.
    intuition (subst k; reflexivity). }
  assert (RD : l_ready (row_held row) = (wfield (W 0) 6 2 =? 2) && (wiod (W 1) =? wiod (W 2)) && (wiod (W 1) =? wiod (W 3)) && (wiod (W 1) =? wiod (W 4))).
  { unfold l_ready, row_held. rewrite HF. reflexivity. }
  rewrite inav_head by (split; [exact HL|split; [exact HB|split; [lia|exact HT]]]). cbv zeta. fold W.
  assert (HTO : ei (lfill (W 1) (W 2) (W 3) (W 4) (W 5) e) Ftoes = u32 (wfield (W 1) 16 14 * 60)) by reflexivity.
  set (E1 := lfill (W 1) (W 2) (W 3) (W 4) (W 5) e) in *. clearbody E1. clearbody W. unfold ltail.
  rewrite (TT 0), (TT 1), (TT 2), (TT 3), (TT 4) by lia. cbn [Z.eqb Pos.eqb negb orb]. rewrite RD. clear RD.
  unfold wiod. set (i1 := wfield (W 1) 6 10). set (i2 := wfield (W 2) 6 10). set (i3 := wfield (W 3) 6 10). set (i4 := wfield (W 4) 6 10).
  destruct (wfield (W 0) 6 2 =? 2); cbn [negb andb]; [|reflexivity].
  destruct (i1 =? i2); cbn [negb andb orb]; [|reflexivity]. destruct (i1 =? i3); cbn [negb andb orb]; [|reflexivity].
  destruct (i1 =? i4); cbn [negb andb orb]; [|reflexivity].
  pose proof (wfield_range (W 0) 96 12 ltac:(lia)) as RW. pose proof (wfield_range (W 0) 108 20 ltac:(lia)) as RT.
  pose proof (wfield_range (W 1) 16 14 ltac:(lia)) as RE. pose proof (wfield_range (W 4) 54 14 ltac:(lia)) as RC.
  change (2 ^ 12) with 4096 in RW. change (2 ^ 20) with 1048576 in RT. change (2 ^ 14) with 16384 in RE, RC.
  assert (EU : u32 (wfield (W 1) 16 14 * 60) = 60 * wfield (W 1) 16 14) by (unfold u32; change (2 ^ 32) with 4294967296; rewrite Z.mod_small by lia; lia).
  unfold i1. clear i1 i2 i3 i4.
  set (e3 := seti Fiode (u8 (u16 (wfield (W 1) 6 10))) (seti Fiodc (u16 (wfield (W 1) 6 10)) (setd Fsqrta (sc (wfield (W 1) 94 32) P2_19) E1))).
  assert (X3 : ei e3 Ftoes = 60 * wfield (W 1) 16 14) by (apply toes_kept; exact (eq_trans HTO EU)).
  exact (times_ok (wfield (W 0) 96 12) (wfield (W 0) 108 20) (wfield (W 1) 16 14) (wfield (W 4) 54 14) (2 ^ 31) (ei e3 Ftoes)
    (fun w toe toc => Ok (seti Fweek (u16 w) (set_toc toc (set_toe toe e3)), true)) RW RT RE RC eq_refl X3).
Qed.

(* ------------------------------------------------ content *)
Lemma wS_abs w pos len : 1 <= len <= 52 -> Z.abs (wfieldS w pos len) <= 2 ^ 53.
Proof.
  intros H. unfold wfieldS. pose proof (wfield_range w pos len ltac:(lia)) as R.
  assert (2 ^ len <= 2 ^ 53) by (apply Z.pow_le_mono_r; lia). destruct (wfield w pos 1 =? 1); lia.
Qed.
Lemma w_abs w pos len : 1 <= len <= 52 -> Z.abs (wfield w pos len) <= 2 ^ 53.
Proof.
  intros H. pose proof (wfield_range w pos len ltac:(lia)) as R. assert (2 ^ len <= 2 ^ 53) by (apply Z.pow_le_mono_r; lia). lia.
Qed.
Lemma l_week_range w0 w1 w4 : l_late w0 w1 w4 = false -> 1023 <= l_week w0 w1 < 3551.
Proof.
  unfold l_late, l_week. intros H. pose proof (wfield_range w0 96 12 ltac:(lia)) as R. pose proof (wfield_range w1 16 14 ltac:(lia)) as R1.
  cbv zeta in *. set (adj := if 302400 <? _ then _ else _) in *.
  assert (-1 <= adj <= 1) by (unfold adj; destruct (302400 <? _); [lia|destruct (_ <? -302400); lia]).
  change (2 ^ 31) with 2147483648 in H. change (2 ^ 12) with 4096 in R. change (2 ^ 14) with 16384 in R1.
  apply Z.leb_gt in H. lia.
Qed.
Lemma content_ok sv w0 w1 w2 w3 w4 w5 e : ei e Fsat = sv -> ei e FgnssID = 2 -> l_late w0 w1 w4 = false ->
  gal_content sv w0 w1 w2 w3 w4 w5 (ldone w0 w1 w4 (lfill w1 w2 w3 w4 w5 e)).
Proof.
  intros HS HG HL. pose proof (l_week_range w0 w1 w4 HL) as RW.
  pose proof (wfield_range w1 6 10 ltac:(lia)) as RI. pose proof (wfield_range w1 16 14 ltac:(lia)) as RT.
  change (2 ^ 10) with 1024 in RI. change (2 ^ 14) with 16384 in RT. unfold gal_content. 
  set (D := ldone w0 w1 w4 (lfill w1 w2 w3 w4 w5 e)).
  assert (A1 : ei D Fsat = ei e Fsat) by reflexivity. assert (A2 : ei D FgnssID = ei e FgnssID) by reflexivity.
  assert (A3 : ei D Fiodc = u16 (wiod w1)) by reflexivity. assert (A4 : ei D Fiode = u8 (u16 (wiod w1))) by reflexivity.
  assert (A5 : ei D Fweek = u16 (l_week w0 w1)) by reflexivity. assert (A6 : ei D Ftoes = u32 (wfield w1 16 14 * 60)) by reflexivity.
  assert (A7 : e_toe D = mkUtc (315964818 + l_week w0 w1 * 604800 + 60 * wfield w1 16 14) 0) by reflexivity.
  assert (A8 : e_toc D = mkUtc (315964818 + l_week w0 w1 * 604800 + 60 * wfield w4 54 14) 0) by reflexivity.
  assert (B1 : ed D Fm0 = sc2 (wfieldS w1 30 32) P2_31 D_PI) by reflexivity. assert (B2 : ed D Fecc = sc (wfield w1 62 32) P2_33) by reflexivity.
  assert (B3 : ed D Fsqrta = sc (wfield w1 94 32) P2_19) by reflexivity. assert (B4 : ed D Fomega0 = sc2 (wfieldS w2 16 32) P2_31 D_PI) by reflexivity.
  assert (B5 : ed D Fi0 = sc2 (wfieldS w2 48 32) P2_31 D_PI) by reflexivity. assert (B6 : ed D Fw = sc2 (wfieldS w2 80 32) P2_31 D_PI) by reflexivity.
  assert (B7 : ed D Fidot = sc2 (wfieldS w2 112 14) P2_43 D_PI) by reflexivity. assert (B8 : ed D Fomegadot = sc2 (wfieldS w3 16 24) P2_43 D_PI) by reflexivity.
  assert (B9 : ed D Fdeltan = sc2 (wfieldS w3 40 16) P2_43 D_PI) by reflexivity. assert (C1 : ed D Fcuc = sc (wfieldS w3 56 16) P2_29) by reflexivity.
  assert (C2 : ed D Fcus = sc (wfieldS w3 72 16) P2_29) by reflexivity. assert (C3 : ed D Fcrc = sc (wfieldS w3 88 16) P2_5) by reflexivity.
  assert (C4 : ed D Fcrs = sc (wfieldS w3 104 16) P2_5) by reflexivity. assert (C5 : ed D Fcic = sc (wfieldS w4 22 16) P2_29) by reflexivity.
  assert (C6 : ed D Fcis = sc (wfieldS w4 38 16) P2_29) by reflexivity. assert (C7 : ed D Faf0 = sc (wfieldS w4 68 31) P2_34) by reflexivity.
  assert (C8 : ed D Faf1 = sc (wfieldS w4 99 21) P2_46) by reflexivity. assert (C9 : ed D Faf2 = sc (wfieldS w4 120 6) P2_59) by reflexivity.
  assert (D1 : ed D Ftgd0 = sc (wfieldS w5 47 10) P2_32) by reflexivity. assert (D2 : ed D Ftgd1 = sc (wfieldS w5 57 10) P2_32) by reflexivity.
  clearbody D. rewrite A1, A2, A3, A4, A5, A6, A7, A8, B1, B2, B3, B4, B5, B6, B7, B8, B9, C1, C2, C3, C4, C5, C6, C7, C8, C9, D1, D2.
  clear - HS HG RW RI RT.
  split; [exact HS|]. split; [exact HG|].
  assert (U : u16 (wiod w1) = wiod w1) by (unfold u16, wiod; change (2 ^ 16) with 65536; rewrite Z.mod_small; lia). rewrite U.
  split; [reflexivity|]. split; [unfold u8; reflexivity|].
  split; [unfold u16; change (2 ^ 16) with 65536; rewrite Z.mod_small by lia; reflexivity|].
  split; [unfold u32; change (2 ^ 32) with 4294967296; rewrite Z.mod_small by lia; lia|].
  split; [unfold nanos; cbn [sec nsec]; lia|]. split; [unfold nanos; cbn [sec nsec]; lia|].
  split; [apply nr31pi; apply wS_abs; lia|]. split; [apply nr33; apply w_abs; lia|]. split; [apply ex19; apply w_abs; lia|].
  split; [apply nr31pi; apply wS_abs; lia|]. split; [apply nr31pi; apply wS_abs; lia|]. split; [apply nr31pi; apply wS_abs; lia|].
  split; [apply nr43pi; apply wS_abs; lia|]. split; [apply nr43pi; apply wS_abs; lia|]. split; [apply nr43pi; apply wS_abs; lia|].
  split; [apply ex29; apply wS_abs; lia|]. split; [apply ex29; apply wS_abs; lia|]. split; [apply ex5; apply wS_abs; lia|]. split; [apply ex5; apply wS_abs; lia|].
  split; [apply ex29; apply wS_abs; lia|]. split; [apply ex29; apply wS_abs; lia|]. split; [apply nr34; apply wS_abs; lia|]. split; [apply nr46; apply wS_abs; lia|].
  split; [apply wi59; apply wS_abs; lia|]. split; [apply nr32; apply wS_abs; lia|]. apply nr32; apply wS_abs; lia.
Qed.

(* ------------------------------------------------ the store *)
Lemma splice_len row k bs : 0 <= k -> k + Zlen bs <= Zlen row -> length (splice row k bs) = length row.
Proof. intros Hk H. unfold splice, Zlen in *. rewrite !app_length, firstn_length, skipn_length. lia. Qed.
Lemma splice_bytes row k bs : bytes_ok row -> bytes_ok bs -> bytes_ok (splice row k bs).
Proof. intros H1 H2. unfold splice. apply bytes_ok_app. split; [apply bytes_ok_firstn; exact H1|]. apply bytes_ok_app. split; [exact H2|apply bytes_ok_skipn; exact H1]. Qed.
Lemma splice_nth row k bs i : 0 <= k -> k + Zlen bs <= Zlen row ->
  nth i (splice row k bs) 0 = if (k <=? Z.of_nat i) && (Z.of_nat i <? k + Zlen bs) then nth (i - Z.to_nat k) bs 0 else nth i row 0.
Proof.
  intros Hk H. unfold splice, Zlen in *. set (n := Z.to_nat k).
  assert (Hf : length (firstn n row) = n) by (rewrite firstn_length; lia).
  destruct (Z.leb_spec k (Z.of_nat i)) as [C|C]; cbn [andb].
  - rewrite app_nth2 by lia. rewrite Hf. destruct (Z.ltb_spec (Z.of_nat i) (k + Z.of_nat (length bs))).
    + rewrite app_nth1 by lia. reflexivity.
    + rewrite app_nth2 by lia. rewrite nth_skipn. f_equal. lia.
  - rewrite app_nth1 by lia. rewrite <- (firstn_skipn n row) at 2. rewrite app_nth1 by lia. reflexivity.
Qed.
Lemma word_ext r r' k : length r = 380%nat -> length r' = 380%nat -> 0 <= k <= 6 ->
  (forall i, 16 * k <= Z.of_nat i < 16 * k + 16 -> nth i r 0 = nth i r' 0) -> row_word r k = row_word r' k.
Proof.
  intros H1 H2 Hk H. unfold row_word. f_equal. apply (nth_ext _ _ 0 0); rewrite !firstn_length, !skipn_length; [lia|].
  intros n Hn. assert (F : forall l : list Z, (n < 16)%nat -> nth n (firstn 16 (skipn (Z.to_nat (16 * k)) l)) 0 = nth (Z.to_nat (16 * k) + n) l 0).
  { intros l Hl. rewrite <- nth_skipn. rewrite <- (firstn_skipn 16 (skipn (Z.to_nat (16 * k)) l)) at 2.
    destruct (Nat.lt_ge_cases n (length (firstn 16 (skipn (Z.to_nat (16 * k)) l)))) as [G|G]; [rewrite app_nth1 by exact G; reflexivity|].
    rewrite (nth_overflow _ _ G). rewrite app_nth2 by exact G. rewrite firstn_length in G.
    rewrite nth_overflow; [reflexivity|]. rewrite skipn_length. lia. }
  rewrite !F by lia. apply H. lia.
Qed.

Lemma ready_ext (H H' : held) : (forall k, 0 <= k <= 6 -> H k = H' k) -> l_ready H = l_ready H'.
Proof. intros E. unfold l_ready. rewrite !E by lia. reflexivity. Qed.
Lemma full_flags f : 0 <= f < 128 -> (forall k, 0 <= k <= 6 -> Z.testbit f k = true) -> f = 127.
Proof.
  intros Hf H. apply (bits_eq 7); [lia|exact Hf|change (2 ^ 7) with 128; lia|]. intros j Hj. rewrite H by lia.
  assert (C : j = 0 \/ j = 1 \/ j = 2 \/ j = 3 \/ j = 4 \/ j = 5 \/ j = 6) by lia. intuition (subst j; reflexivity).
Qed.
Lemma not_ready row : row_ok row -> nth 112 row 0 <> 127 -> l_ready (row_held row) = false.
Proof.
  intros (_ & HB & HF & _) HN. unfold l_ready, row_held. cbn [Z.leb Z.compare Pos.compare Pos.compare_cont andb].
  set (f := nth 112 row 0) in *. pose proof (nth_byte row 112 HB) as B. fold f in B. unfold byte_ok in B.
  destruct (Z.testbit f 0) eqn:E0; [|reflexivity]. destruct (Z.testbit f 1) eqn:E1; [|reflexivity]. destruct (Z.testbit f 2) eqn:E2; [|reflexivity].
  destruct (Z.testbit f 3) eqn:E3; [|reflexivity]. destruct (Z.testbit f 4) eqn:E4; [|reflexivity]. destruct (Z.testbit f 5) eqn:E5; [|reflexivity].
  destruct (Z.testbit f 6) eqn:E6; [|reflexivity]. exfalso. apply HN. apply full_flags; [lia|]. intros k Hk.
  assert (C : k = 0 \/ k = 1 \/ k = 2 \/ k = 3 \/ k = 4 \/ k = 5 \/ k = 6) by lia. intuition (subst k; assumption).
Qed.

Definition row_put (row : list Z) (type : Z) (w : list Z) : list Z :=
  let row := if type =? 2 then splice row 112 [0] else row in
  let row := splice row (type * 16) w in
  splice row 112 [u8 (Z.lor (nth 112 row 0) (Z.shiftl 1 type))].
Lemma row_put_ok row w : row_ok row -> length w = 16%nat -> bytes_ok w -> wtype (poly_of w) <= 6 ->
  let type := wtype (poly_of w) in row_ok (row_put row type w) /\ forall k, row_held (row_put row type w) k = l_recv (row_held row) (poly_of w) k.
Proof.
  intros (HL & HB & HF & HT) HW BW HTY type. assert (R0 : 0 <= type <= 6) by (pose proof (wfield_range (poly_of w) 0 6 ltac:(lia)); unfold type, wtype in *; lia).
  unfold row_put. set (r1 := if type =? 2 then splice row 112 [0] else row).
  pose proof (nth_byte row 112 HB) as B0. unfold byte_ok in B0.
  assert (ZL : Zlen row = 380) by (unfold Zlen; lia). assert (ZW : Zlen w = 16) by (unfold Zlen; lia).
  assert (L1 : length r1 = 380%nat) by (unfold r1; destruct (type =? 2); [rewrite splice_len by (change (Zlen [0]) with 1; lia)|]; exact HL).
  assert (B1 : bytes_ok r1) by (unfold r1; destruct (type =? 2); [apply splice_bytes; [exact HB|constructor; [unfold byte_ok; lia|constructor]]|exact HB]).
  assert (N1 : forall i, (i < 112)%nat -> nth i r1 0 = nth i row 0).
  { intros i Hi. unfold r1. destruct (type =? 2); [|reflexivity]. rewrite splice_nth by (change (Zlen [0]) with 1; lia). replace (112 <=? Z.of_nat i) with false by lia. reflexivity. }
  set (f1 := if type =? 2 then 0 else nth 112 row 0).
  assert (F1 : nth 112 r1 0 = f1).
  { unfold r1, f1. destruct (type =? 2); [|reflexivity]. rewrite splice_nth by (change (Zlen [0]) with 1; lia). reflexivity. }
  assert (RF : 0 <= f1 < 128) by (unfold f1; destruct (type =? 2); lia).
  clearbody r1. assert (Z1 : Zlen r1 = 380) by (unfold Zlen; lia).
  set (r2 := splice r1 (type * 16) w). assert (L2 : length r2 = 380%nat) by (unfold r2; rewrite splice_len by lia; exact L1).
  assert (B2 : bytes_ok r2) by (apply splice_bytes; assumption).
  assert (N2 : forall i, nth i r2 0 = if (type * 16 <=? Z.of_nat i) && (Z.of_nat i <? type * 16 + 16) then nth (i - Z.to_nat (type * 16)) w 0 else nth i r1 0).
  { intros i. unfold r2. rewrite splice_nth by lia. rewrite ZW. reflexivity. }
  assert (F2 : nth 112 r2 0 = f1).
  { rewrite N2. replace ((type * 16 <=? Z.of_nat 112) && (Z.of_nat 112 <? type * 16 + 16)) with false by lia. exact F1. }
  rewrite F2. clearbody r2. assert (Z2 : Zlen r2 = 380) by (unfold Zlen; lia).
  assert (LR : 0 <= Z.lor f1 (Z.shiftl 1 type) < 2 ^ 7).
  { rewrite Z.shiftl_mul_pow2, Z.mul_1_l by lia. assert (0 < 2 ^ type) by (apply Z.pow_pos_nonneg; lia).
    split; [apply Z.lor_nonneg; lia|]. destruct (Z.eq_dec (Z.lor f1 (2 ^ type)) 0) as [->|NZ]; [reflexivity|].
    apply Z.log2_lt_pow2; [assert (0 <= Z.lor f1 (2 ^ type)) by (apply Z.lor_nonneg; lia); lia|]. rewrite Z.log2_lor by lia.
    rewrite Z.log2_pow2 by lia. assert (Z.log2 f1 < 7) by (destruct (Z.eq_dec f1 0) as [->|]; [reflexivity|apply Z.log2_lt_pow2; [lia|change (2 ^ 7) with 128; lia]]). lia. }
  change (2 ^ 7) with 128 in LR. rewrite u8_id by (unfold byte_ok; lia). set (f3 := Z.lor f1 (Z.shiftl 1 type)) in *.
  assert (T3 : forall k, 0 <= k <= 6 -> Z.testbit f3 k = (k =? type) || (negb (type =? 2) && Z.testbit (nth 112 row 0) k)).
  { intros k Hk. unfold f3. rewrite Z.lor_spec, Z.shiftl_spec by lia. unfold f1.
    destruct (Z.eqb_spec k type) as [->|NE]; cbn [orb].
    - rewrite Z.sub_diag. change (Z.testbit 1 0) with true. apply orb_true_r.
    - replace (Z.testbit 1 (k - type)) with false.
      2:{ destruct (Z.lt_ge_cases k type); [rewrite Z.testbit_neg_r by lia; reflexivity|]. symmetry. apply (testbit_high 1); [lia|change (2 ^ 1) with 2; lia]. }
      rewrite orb_false_r. destruct (type =? 2); cbn [negb andb]; [apply Z.bits_0|reflexivity]. }
  clearbody f3. set (r3 := splice r2 112 [f3]).
  assert (L3 : length r3 = 380%nat) by (unfold r3; rewrite splice_len by (change (Zlen [f3]) with 1; lia); exact L2).
  assert (N3 : forall i, nth i r3 0 = if (112 <=? Z.of_nat i) && (Z.of_nat i <? 113) then nth (i - 112) [f3] 0 else nth i r2 0).
  { intros i. unfold r3. rewrite splice_nth by (change (Zlen [f3]) with 1; lia). reflexivity. }
  assert (F3 : nth 112 r3 0 = f3) by (rewrite N3; reflexivity).
  assert (B3 : bytes_ok r3) by (apply splice_bytes; [exact B2|constructor; [unfold byte_ok; lia|constructor]]).
  assert (W3 : forall k, 0 <= k <= 6 -> row_word r3 k = if k =? type then poly_of w else row_word row k).
  { intros k Hk. destruct (Z.eqb_spec k type) as [->|NE].
    - unfold row_word. f_equal. apply (nth_ext _ _ 0 0); rewrite firstn_length, skipn_length; [lia|]. intros n Hn.
      assert (E : nth n (firstn 16 (skipn (Z.to_nat (16 * type)) r3)) 0 = nth n (skipn (Z.to_nat (16 * type)) r3) 0).
      { rewrite <- (firstn_skipn 16 (skipn (Z.to_nat (16 * type)) r3)) at 2. rewrite app_nth1; [reflexivity|]. rewrite firstn_length, skipn_length. lia. }
      rewrite E, nth_skipn, N3, N2. replace ((112 <=? Z.of_nat (Z.to_nat (16 * type) + n)) && (Z.of_nat (Z.to_nat (16 * type) + n) <? 113)) with false by lia.
      replace ((type * 16 <=? Z.of_nat (Z.to_nat (16 * type) + n)) && (Z.of_nat (Z.to_nat (16 * type) + n) <? type * 16 + 16)) with true by lia. f_equal. lia.
    - apply word_ext; [exact L3|exact HL|exact Hk|]. intros i Hi. rewrite N3, N2.
      replace ((112 <=? Z.of_nat i) && (Z.of_nat i <? 113)) with false by lia.
      replace ((type * 16 <=? Z.of_nat i) && (Z.of_nat i <? type * 16 + 16)) with false by lia. apply N1. lia. }
  split.
  - split; [exact L3|]. split; [exact B3|]. split; [rewrite F3; lia|]. intros k Hk HK. rewrite F3, T3 in HK by lia. rewrite W3 by lia.
    destruct (Z.eqb_spec k type) as [->|NE]; [reflexivity|]. cbn [orb] in HK. apply HT; [exact Hk|]. destruct (type =? 2); [discriminate|exact HK].
  - intros k. unfold row_held, l_recv. fold type. rewrite F3. destruct ((0 <=? k) && (k <=? 6)) eqn:EK.
    + assert (Hk : 0 <= k <= 6) by lia. rewrite T3, W3 by lia. cbn [andb]. destruct (k =? type); [reflexivity|]. cbn [orb]. destruct (type =? 2); reflexivity.
    + replace (k =? type) with false by lia. cbn [andb]. destruct (type =? 2); reflexivity.
Qed.

(* ------------------------------------------------ one message *)
Lemma b2z_1 b : (Z.b2z b =? 1) = b. Proof. destruct b; reflexivity. Qed.
Lemma sf1 dw k : sfield dw k 1 = Z.b2z (sbit dw k).
Proof. cbn [sfield]. replace (k + Z.of_nat 0) with k by lia. lia. Qed.
Definition gal_out (cbs : list Z) (st : rows) (sv : Z) (row' : list Z) (e : eph) : outcome (rows * eph * list nev * bool) :=
  let W := row_word row' in
  let e' := lfill (W 1) (W 2) (W 3) (W 4) (W 5) e in
  if l_ready (row_held row') then
    (if l_late (W 0) (W 1) (W 4) then UB UB_overflow
     else let d := ldone (W 0) (W 1) (W 4) e' in Ok (rset st (sv - 1) row', d, EvFell FN_PRINT :: map (fun c => EvEph c d) cbs, true))
  else Ok (rset st (sv - 1) row', if nth 112 row' 0 =? 127 then e' else e, [], false).
Lemma gal_shape0 cbs st dw e sv w1 w2 (a b c d pc : bool) ty : ei e Fsat = sv -> 0 <= sv < 256 -> (sv <> 0 -> row_ok (st (sv - 1))) ->
  let buff := swap_words 8 dw in
  getBit 1 buff 0 = Ok (Z.b2z a) -> getBit 1 buff 1 = Ok (Z.b2z b) -> getBit 1 (skipn 16 buff) 0 = Ok (Z.b2z c) -> getBit 1 (skipn 16 buff) 1 = Ok (Z.b2z d) ->
  gal_crc_ok buff = Ok pc -> getBit 6 buff 2 = Ok ty -> 0 <= ty ->
  gal_take 14 buff 2 = Ok w1 -> gal_take 2 (skipn 16 buff) 2 = Ok w2 -> length (w1 ++ w2) = 16%nat ->
  decodeGalileo cbs st dw e =
    if (negb a && negb b && c && negb d && pc) && (ty <=? 6) then
      (if sv =? 0 then UB UB_oob_write
       else let row := row_put (st (sv - 1)) ty (w1 ++ w2) in
         let st := rset st (sv - 1) row in
         if negb (nth 112 row 0 =? 0x7F) then Ok (st, e, [], false)
         else
           let* (e, ok) := gal_inav row e in
           if negb ok then Ok (st, e, [], false)
           else Ok (st, e, EvFell FN_PRINT :: map (fun c => EvEph c e) cbs, true))
    else Ok (st, e, [], false).
Proof.
  intros HS Hsv HR buff Ga Gb Gc Gd GC GT RT E1 E2 LW. unfold decodeGalileo. rewrite HS. cbv zeta. fold buff. clearbody buff.
  eapply bind_rw; [exact Ga|]. eapply bind_rw; [exact Gb|]. eapply bind_rw; [exact Gc|]. eapply bind_rw; [exact Gd|].
  rewrite !b2z_1. 
  destruct b; [destruct a; reflexivity|]. destruct d; [destruct a, c; reflexivity|].
  destruct a; [reflexivity|]. destruct c; [|reflexivity]. cbn [orb negb andb Z.b2z Z.eqb Pos.eqb].
  eapply bind_rw; [exact GC|]. destruct pc; [|reflexivity]. cbn [negb andb].
  eapply bind_rw; [exact GT|]. 
  destruct (Z.ltb_spec 6 ty) as [C|C].
  { replace (ty <=? 6) with false by lia. reflexivity. }
  replace (ty <=? 6) with true by lia.
  replace (negb ((0 <=? sv - 1) && (sv - 1 <? 255))) with (sv =? 0) by (destruct (Z.eqb_spec sv 0); lia).
  destruct (Z.eqb_spec sv 0) as [|NZ]; [reflexivity|]. specialize (HR NZ). destruct HR as (RL & _).
  eapply bind_rw; [exact E1|]. eapply bind_rw; [exact E2|].
  unfold row_put. cbv zeta. 
  set (r1 := if ty =? 2 then _ else _).
  assert (L1 : length r1 = 380%nat) by (unfold r1; destruct (ty =? 2); [rewrite splice_len by (change (Zlen [0]) with 1; unfold Zlen; lia)|]; exact RL).
  clearbody r1. set (r2 := splice r1 (ty * 16) (w1 ++ w2)).
  assert (L2 : length r2 = 380%nat) by (unfold r2; rewrite splice_len by (unfold Zlen; lia); exact L1).
  clearbody r2. set (f := u8 _).
  replace (nth 112 (splice r2 112 [f]) 0) with f by (rewrite splice_nth by (change (Zlen [f]) with 1; unfold Zlen; lia); reflexivity).
  reflexivity.
Qed.
Lemma gal_shape cbs st dw e sv w1 w2 : bytes_ok dw -> ei e Fsat = sv -> 0 <= sv < 256 -> (sv <> 0 -> row_ok (st (sv - 1))) ->
  gal_take 14 (swap_words 8 dw) 2 = Ok w1 -> gal_take 2 (skipn 16 (swap_words 8 dw)) 2 = Ok w2 -> length (w1 ++ w2) = 16%nat ->
  decodeGalileo cbs st dw e =
    if l_usable dw then
      (if sv =? 0 then UB UB_oob_write
       else let row := row_put (st (sv - 1)) (wtype (inav dw)) (w1 ++ w2) in
         let st := rset st (sv - 1) row in
         if negb (nth 112 row 0 =? 0x7F) then Ok (st, e, [], false)
         else
           let* (e, ok) := gal_inav row e in
           if negb ok then Ok (st, e, [], false)
           else Ok (st, e, EvFell FN_PRINT :: map (fun c => EvEph c e) cbs, true))
    else Ok (st, e, [], false).
Proof.
  intros HB HS Hsv HR E1 E2 LW. unfold l_usable, page_valid, page_form.
  apply gal_shape0; [exact HS|exact Hsv|exact HR| | | | |apply gal_crc_ok_spec; exact HB| |exact (proj1 (wfield_range (inav dw) 0 6 ltac:(lia)))|exact E1|exact E2|exact LW].
  - rewrite (gget 1 8) by (try exact HB; lia). change (Z.to_nat 1) with 1%nat. rewrite sf1. reflexivity.
  - rewrite (gget 1 8) by (try exact HB; lia). change (Z.to_nat 1) with 1%nat. rewrite sf1. reflexivity.
  - rewrite (skip_get 1) by (try exact HB; lia). change (Z.to_nat 1) with 1%nat. rewrite sf1. reflexivity.
  - rewrite (skip_get 1) by (try exact HB; lia). change (Z.to_nat 1) with 1%nat. rewrite sf1. reflexivity.
  - rewrite (gget 6 8) by (try exact HB; lia). rewrite wtype_sfield. reflexivity.
Qed.
Lemma gal_decode cbs st dw e sv : dw_ok dw -> ei e Fsat = sv -> byte_ok sv -> (sv <> 0 -> row_ok (st (sv - 1))) ->
  if l_usable dw then
    (if sv =? 0 then decodeGalileo cbs st dw e = UB UB_oob_write
     else exists row', row_ok row' /\ (forall k, row_held row' k = l_step (row_held (st (sv - 1))) dw k) /\
       decodeGalileo cbs st dw e = gal_out cbs st sv row' e)
  else decodeGalileo cbs st dw e = Ok (st, e, [], false).
Proof.
  intros [HB HL] HS Hsv HR. unfold byte_ok in Hsv.
  destruct (take_word dw HB) as (w1 & w2 & E1 & E2 & LW & BW & PW).
  pose proof (gal_shape cbs st dw e sv w1 w2 HB HS Hsv HR E1 E2 LW) as D.
  rewrite D. clear D. destruct (l_usable dw) eqn:EU; [|reflexivity]. destruct (Z.eqb_spec sv 0) as [|NZ]; [reflexivity|]. specialize (HR NZ).
  assert (HT : wtype (poly_of (w1 ++ w2)) <= 6) by (rewrite PW; unfold l_usable in EU; lia).
  destruct (row_put_ok _ _ HR LW BW HT) as [RO RH]. rewrite PW in RO, RH.
  exists (row_put (st (sv - 1)) (wtype (inav dw)) (w1 ++ w2)). split; [exact RO|]. split; [intros k; rewrite RH; unfold l_step; rewrite EU; reflexivity|].
  cbv zeta. set (r := row_put _ _ _) in *. clearbody r. unfold gal_out. cbv zeta.
  destruct (Z.eqb_spec (nth 112 r 0) 127) as [EF|NF]; cbn [negb].
  - rewrite (inav_ok r e RO EF). destruct (l_ready (row_held r)); [|reflexivity]. destruct (l_late _ _ _); reflexivity.
  - rewrite (not_ready r RO NF). reflexivity.
Qed.
