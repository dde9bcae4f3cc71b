(* Soundness, error detection, recovery: lemmas behind C03-C08, C11, C12, C14. *)
From Verif Require Import Base ZBits UbxSpec UbxModel UbxProofs UbxStream UbxMain.

(* ---------------------------------------------------------------- C03 *)
Lemma rev_case {A} (l : list A) : l = [] \/ exists l' x, l = l' ++ [x].
Proof.
  destruct l as [|a l]; [auto|]. right.
  destruct (@exists_last A (a :: l)) as (l' & x & E); [discriminate|]. eauto.
Qed.

Lemma quiet_snoc n : quiet (S n) = quiet n ++ [([], false)].
Proof. rewrite <- Nat.add_1_r, <- quiet_app. reflexivity. Qed.

Lemma item_bytes_ne it : item_bytes it <> [].
Proof. destruct it; discriminate. Qed.
Lemma item_bytes_len it : exists n, length (item_bytes it) = S n.
Proof. pose proof (item_bytes_ne it). destruct (item_bytes it); [congruence|eexists; reflexivity]. Qed.

Lemma last_true_good ls mem its (t : list Z) o c :
  items_outs ls mem its ++ quiet (length t) = o ++ [(c, true)] ->
  exists its' cls id pl, t = [] /\ its = its' ++ [Good cls id pl] /\
    c = calls_for ls cls id (item_mem (items_mem mem its') (Good cls id pl)).
Proof.
  intros E. destruct (rev_case t) as [->|(t' & x & ->)].
  2:{ exfalso. rewrite app_length, Nat.add_1_r, quiet_snoc, app_assoc in E.
      apply app_inj_tail in E. destruct E as [_ E]. discriminate. }
  cbn [length quiet repeat] in E. change (quiet 0) with (@nil byte_out) in E. rewrite app_nil_r in E.
  destruct (rev_case its) as [->|(its' & it & ->)].
  { exfalso. cbn in E. destruct o; discriminate. }
  rewrite items_outs_app in E. cbn [items_outs] in E. rewrite app_nil_r in E.
  destruct (item_bytes_len it) as [n Hn].
  destruct it as [b|cls id pl|cls id pl ka kb|cls id m]; unfold item_outs in E; rewrite Hn in E;
    try (exfalso; rewrite quiet_snoc, app_assoc in E; apply app_inj_tail in E; destruct E as [_ E]; discriminate).
  rewrite app_assoc in E. apply app_inj_tail in E. destruct E as [_ E]. injection E as E.
  exists its', cls, id, pl. auto.
Qed.

(* the 0xB5 that opens a frame is the last byte before the item *)
Lemma items_last_bytes its : forall p, items_last p its = last (items_bytes its) p.
Proof.
  destruct (rev_case its) as [->|(its' & it & ->)]; intros p; [reflexivity|].
  rewrite items_last_app, items_bytes_app. unfold items_last at 1. cbn [fold_left].
  unfold items_bytes at 2. cbn [flat_map]. rewrite app_nil_r. symmetry.
  apply last_app_ne. apply item_bytes_ne.
Qed.

Lemma cons_last_split (l : list Z) p x : last l p = x -> exists pre, p :: l = pre ++ [x].
Proof.
  intros H. destruct (rev_case l) as [->|(l' & y & ->)].
  - cbn in H. exists []. subst. reflexivity.
  - rewrite last_last in H. subst. exists (p :: l'). reflexivity.
Qed.

Lemma good_suffix p its' cls id pl :
  items_ok p (its' ++ [Good cls id pl]) ->
  exists pre, p :: items_bytes (its' ++ [Good cls id pl]) = pre ++ ubx_frame cls id pl
              /\ 1 <= Zlen pl <= 2048.
Proof.
  intros H. apply items_ok_app in H. destruct H as [_ [[H1 H2] _]].
  rewrite items_last_bytes in H1. destruct (cons_last_split _ _ _ H1) as (pre & E).
  exists pre. split; [|exact H2]. rewrite items_bytes_app, app_comm_cons, E, <- app_assoc.
  unfold items_bytes. cbn [flat_map]. rewrite app_nil_r. reflexivity.
Qed.

(* From an idle state: a delivery on the last byte means the received bytes (with the byte received just
   before) end with a well-formed frame. *)
Lemma sound_idle ls s stream s' o c :
  Forall listener_ok ls -> Idle s -> small_counters s -> bytes_ok stream ->
  feed (map build ls) s stream = Ok (s', o ++ [(c, true)]) ->
  exists pre cls id pl rest,
    prev s :: stream = pre ++ ubx_frame cls id pl /\ 1 <= Zlen pl <= 2048 /\
    c = calls_for ls cls id (pl ++ rest) /\ length (pl ++ rest) = 2048%nat.
Proof.
  intros Hls Hid Hsm Hby HF.
  destruct (refine_idle ls s stream Hls Hid Hsm Hby)
    as (its & t & E & Hok & Ht & [(s1 & s2 & E1 & _)|[_ E1]]); rewrite HF in E1; [|discriminate].
  injection E1 as _ E1. symmetry in E1. apply last_true_good in E1.
  destruct E1 as (its' & cls & id & pl & -> & -> & ->).
  rewrite app_nil_r in E.
  pose proof Hok as Hok'. apply good_suffix in Hok'. destruct Hok' as (pre & E2 & Hl).
  rewrite <- E in E2.
  exists pre, cls, id, pl, (skipn (length pl) (items_mem (inbuf s) its')).
  split; [exact E2|]. split; [exact Hl|]. split; [reflexivity|].
  apply skipn_length_mem; [|lia].
  apply items_ok_app in Hok. destruct Hok as [Hok _]. clear - Hok Hid.
  destruct Hid as (_ & _ & Hb & _). revert Hok Hb. generalize (prev s), (inbuf s).
  induction its' as [|it its IH]; intros p m Hok Hm; [exact Hm|].
  destruct Hok as [H1 H2]. unfold items_mem in *. cbn [fold_left].
  apply (IH (item_last it)); [assumption|]. eapply item_mem_length; eassumption.
Qed.

Lemma sound_stream ls u pre s outs b s' c :
  Forall listener_ok ls -> uninit_ok u -> bytes_ok (pre ++ [b]) ->
  feed (map build ls) (ubx_init u) pre = Ok (s, outs) ->
  read_cb (map build ls) s b = Ok (s', c, true) ->
  exists before cls id pl rest,
    pre ++ [b] = before ++ ubx_frame cls id pl /\ 1 <= Zlen pl <= 2048 /\
    c = calls_for ls cls id (pl ++ rest) /\ length (pl ++ rest) = 2048%nat.
Proof.
  intros Hls Hu Hby HF HR.
  assert (HF2 : feed (map build ls) (ubx_init u) (pre ++ [b]) = Ok (s', outs ++ [(c, true)])).
  { rewrite feed_app, HF. cbn [bind feed]. rewrite HR. reflexivity. }
  destruct (sound_idle ls _ _ _ _ _ Hls (init_idle u Hu) (init_small u) Hby HF2)
    as (before & cls & id & pl & rest & E & Hl & Hc & Hr).
  destruct before as [|x before].
  - exfalso. cbn in E. discriminate.
  - injection E as _ E. exists before, cls, id, pl, rest. auto.
Qed.

Lemma calls_only_with_true ls u pre s outs b s' c ok :
  Forall listener_ok ls -> uninit_ok u -> bytes_ok (pre ++ [b]) ->
  feed (map build ls) (ubx_init u) pre = Ok (s, outs) ->
  read_cb (map build ls) s b = Ok (s', c, ok) -> c <> [] -> ok = true.
Proof.
  intros Hls Hu Hby HF HR Hc. destruct ok; [reflexivity|]. exfalso.
  assert (HF2 : feed (map build ls) (ubx_init u) (pre ++ [b]) = Ok (s', outs ++ [(c, false)])).
  { rewrite feed_app, HF. cbn [bind feed]. rewrite HR. reflexivity. }
  destruct (refine_idle ls _ _ Hls (init_idle u Hu) (init_small u) Hby)
    as (its & t & E & Hok & Ht & [(s1 & s2 & E1 & _)|[_ E1]]); rewrite HF2 in E1; [|discriminate].
  injection E1 as _ E1. apply (f_equal stray_calls) in E1.
  rewrite !stray_app, items_outs_stray, stray_quiet in E1. cbn [app] in E1.
  unfold stray_calls at 2 in E1. cbn in E1. rewrite app_nil_r in E1.
  apply app_eq_nil in E1. destruct E1. contradiction.
Qed.

(* two deliveries overlap in at most one byte *)
Lemma no_overlap ls u a b s1 o1 c1 s2 o2 c2 :
  Forall listener_ok ls -> uninit_ok u -> bytes_ok (a ++ b) -> b <> [] ->
  feed (map build ls) (ubx_init u) a = Ok (s1, o1 ++ [(c1, true)]) ->
  feed (map build ls) s1 b = Ok (s2, o2 ++ [(c2, true)]) ->
  exists before cls id pl rest,
    last a 0 :: b = before ++ ubx_frame cls id pl /\ c2 = calls_for ls cls id (pl ++ rest).
Proof.
  intros Hls Hu Hby Hb H1 H2. apply bytes_ok_app in Hby. destruct Hby as [Hba Hbb].
  pose proof (reach_idle ls u a s1 _ Hls Hu Hba H1) as (Hsm & _ & _).
  destruct (refine_idle ls _ _ Hls (init_idle u Hu) (init_small u) Hba)
    as (its & t & E & Hok & Ht & [(s3 & s4 & E1 & _ & Hid & _ & HP & _ & Ha & _)|[_ E1]]);
    rewrite H1 in E1; [|discriminate].
  injection E1 as E0 E1. subst s4. symmetry in E1. apply last_true_good in E1.
  destruct E1 as (its' & cls & id & pl & -> & _). rewrite (Ha eq_refl) in *.
  rewrite app_nil_r in E.
  assert (Hp : prev s3 = last a 0).
  { destruct HP as (HP & _). rewrite HP, items_last_bytes, <- E. reflexivity. }
  destruct (sound_idle ls _ _ _ _ _ Hls Hid Hsm Hbb H2) as (before & cls' & id' & pl' & rest & E2 & _ & Hc & _).
  rewrite Hp in E2. exists before, cls', id', pl', rest. auto.
Qed.

(* ---------------------------------------------------------------- C05 *)
Lemma ub_only_version ls u stream k :
  Forall listener_ok ls -> uninit_ok u -> bytes_ok stream ->
  feed (map build ls) (ubx_init u) stream = UB k ->
  k = UB_cstring /\ exists a pl c, stream = a ++ ubx_frame 10 4 pl ++ c.
Proof.
  intros Hls Hu Hby HF.
  destruct (refine_idle ls _ _ Hls (init_idle u Hu) (init_small u) Hby)
    as (its & t & E & Hok & Ht & [(s1 & s2 & E1 & _)|[Hv E1]]); rewrite HF in E1; [discriminate|].
  split; [congruence|].
  assert (Hex : exists i1 pl i2, its = i1 ++ Good 10 4 pl :: i2).
  { clear - Hv. induction its as [|it its IH]; [unfold count in Hv; cbn in Hv; lia|].
    rewrite count_cons in Hv. destruct (is_good_of 10 4 it) eqn:E.
    - destruct it; cbn in E; try discriminate. exists [], pl, its.
      assert (cls = 10) by lia. assert (id = 4) by lia. subst. reflexivity.
    - destruct IH as (i1 & pl & i2 & ->); [lia|]. exists (it :: i1), pl, i2. reflexivity. }
  destruct Hex as (i1 & pl & i2 & ->).
  replace (i1 ++ Good 10 4 pl :: i2) with ((i1 ++ [Good 10 4 pl]) ++ i2) in * by (rewrite <- app_assoc; reflexivity).
  apply items_ok_app in Hok. destruct Hok as [Hok _]. apply good_suffix in Hok.
  destruct Hok as (pre & E2 & _).
  destruct pre as [|x pre]; [cbn in E2; discriminate|]. injection E2 as _ E2.
  rewrite items_bytes_app, E2 in E. rewrite <- !app_assoc in E. exists pre, pl, (items_bytes i2 ++ t). exact E.
Qed.

(* ---------------------------------------------------------------- C06 *)
Lemma zero_length_blocks ls s cls id bs :
  Idle s ->
  exists s', feed ls s ([0xB5; 0x62; cls; id; 0; 0] ++ bs) = Ok (s', quiet (6 + length bs)) /\
    parsing_message s' = true /\ nerr s' = nerr s /\ nmsg s' = nmsg s.
Proof.
  intros (Hst & _). pose proof (feed_header ls s cls id 0 Hst) as HH.
  change (header cls id 0) with [0xB5; 0x62; cls; id; 0; 0] in HH.
  rewrite feed_app, HH by lia. cbn [bind].
  rewrite feed_zero_stuck by reflexivity. cbn [bind]. rewrite quiet_app.
  eexists. split; [reflexivity|]. repeat split.
Qed.

(* ---------------------------------------------------------------- C07 *)
Lemma sum_app a b : sum (a ++ b) = sum a + sum b.
Proof. induction a as [|x a IH]; [reflexivity|]. unfold sum in *. cbn [app fold_right]. rewrite IH. lia. Qed.
Lemma wsum_app a : forall b, wsum (a ++ b) = wsum a + Zlen b * sum a + wsum b.
Proof.
  induction a as [|x a IH]; intros b; [cbn; lia|].
  cbn [app]. rewrite !wsum_cons, IH, app_length. unfold sum; cbn [fold_right]. fold (sum a).
  unfold Zlen. lia.
Qed.

Lemma mod256_eq a b : a mod 256 = b mod 256 -> (a - b) mod 256 = 0.
Proof. intros H. rewrite Zminus_mod, H, Z.sub_diag. reflexivity. Qed.

Lemma byte_mod_eq a b : byte_ok a -> byte_ok b -> (a - b) mod 256 = 0 -> a = b.
Proof. unfold byte_ok. lia. Qed.

Lemma ckb_range body : byte_ok (ck_b_of body).
Proof. unfold ck_b_of, byte_ok. lia. Qed.
Lemma cka_range body : byte_ok (ck_a_of body).
Proof. unfold ck_a_of, byte_ok. lia. Qed.

(* protected part: body and checksum *)
Definition closed (p : list Z) : Prop :=
  exists body, p = body ++ [ck_a_of body; ck_b_of body].

Lemma closed_split (y : list Z) : (length y >= 2)%nat -> exists y0 ka kb, y = y0 ++ [ka; kb].
Proof.
  intros H. destruct (rev_case y) as [->|(y1 & kb & ->)]; [cbn in H; lia|].
  destruct (rev_case y1) as [->|(y0 & ka & ->)]; [cbn in H; lia|].
  exists y0, ka, kb. rewrite <- app_assoc. reflexivity.
Qed.

Lemma app2_inj (p q : list Z) u v u' v' :
  p ++ [u; v] = q ++ [u'; v'] -> p = q /\ u = u' /\ v = v'.
Proof.
  change [u; v] with ([u] ++ [v]). change [u'; v'] with ([u'] ++ [v']). rewrite !app_assoc. intros H.
  apply app_inj_tail in H. destruct H as [H ->]. apply app_inj_tail in H. destruct H as [-> ->]. auto.
Qed.

Lemma pair_error_detected x a b a' b' y :
  byte_ok a -> byte_ok b -> byte_ok a' -> byte_ok b' ->
  closed (x ++ [a; b] ++ y) -> closed (x ++ [a'; b'] ++ y) -> (a, b) = (a', b').
Proof.
  intros Ha Hb Ha' Hb' [B1 E1] [B2 E2].
  destruct (le_lt_dec 2 (length y)) as [Hy|Hy].
  - destruct (closed_split y) as (y0 & ka & kb & ->); [lia|].
    rewrite !app_assoc in E1, E2. apply app2_inj in E1. apply app2_inj in E2.
    destruct E1 as (<- & F1a & F1b). destruct E2 as (<- & F2a & F2b).
    rewrite F1a in F2a. rewrite F1b in F2b.
    unfold ck_a_of, ck_b_of in *. apply mod256_eq in F2a. apply mod256_eq in F2b.
    rewrite !wsum_app, !sum_app in F2b. rewrite !sum_app in F2a.
    assert (W : forall u v, wsum [u; v] = 2 * u + v) by (intros; cbn [wsum length]; lia).
    assert (S2 : forall u v, sum [u; v] = u + v) by (intros; unfold sum; cbn [fold_right]; lia).
    rewrite !W, !S2 in F2b. rewrite !S2 in F2a.
    change (Zlen [a; b]) with 2 in F2b. change (Zlen [a'; b']) with 2 in F2b.
    set (n := Zlen y0) in *. set (sx := sum x) in *. set (sy := sum y0) in *.
    set (wx := wsum x) in *. set (wy := wsum y0) in *.
    assert (Q1 : ((a - a') + (b - b')) mod 256 = 0) by (rewrite <- F2a; f_equal; lia).
    assert (Q2 : ((n + 2) * (a - a') + (n + 1) * (b - b')) mod 256 = 0).
    { rewrite <- F2b. f_equal. lia. }
    assert (Q3 : (a - a') mod 256 = 0).
    { replace (a - a') with (((n + 2) * (a - a') + (n + 1) * (b - b')) - (n + 1) * ((a - a') + (b - b'))) by lia.
      rewrite Zminus_mod, Q2, Zmult_mod, Q1, Z.mul_0_r. reflexivity. }
    assert (a = a') by (apply byte_mod_eq; assumption). subst a'.
    assert (b = b'). { apply byte_mod_eq; [assumption..|]. rewrite <- Q1. f_equal. lia. }
    subst; reflexivity.
  - destruct y as [|kb [|z y]]; [| |cbn in Hy; lia].
    + rewrite app_nil_r in E1, E2. apply app2_inj in E1. apply app2_inj in E2.
      destruct E1 as (<- & -> & ->). destruct E2 as (<- & -> & ->). reflexivity.
    + change ([a; b] ++ [kb]) with ([a] ++ [b; kb]) in E1. change ([a'; b'] ++ [kb]) with ([a'] ++ [b'; kb]) in E2.
      rewrite !app_assoc in E1, E2. apply app2_inj in E1. apply app2_inj in E2.
      destruct E1 as (<- & H1 & G1). destruct E2 as (<- & H2 & G2). rewrite G1 in G2.
      unfold ck_b_of in G2. apply mod256_eq in G2. rewrite !wsum_app in G2.
      assert (W : forall u, wsum [u] = u) by (intros; cbn [wsum length]; lia).
      rewrite !W in G2. change (Zlen [a]) with 1 in G2. change (Zlen [a']) with 1 in G2.
      assert (a = a') by (apply byte_mod_eq; [assumption..|]; rewrite <- G2; f_equal; lia).
      subst a'. congruence.
Qed.

Lemma corrupt_pair_rejected ls s cls id pl x a b a' b' y :
  Forall listener_ok ls -> Idle s -> ubx_payload_ok pl ->
  byte_ok a -> byte_ok b -> byte_ok a' -> byte_ok b' ->
  ubx_frame cls id pl = [0xB5; 0x62] ++ x ++ [a; b] ++ y ->
  (a, b) <> (a', b') ->
  (* the two length bytes are unchanged *)
  firstn 2 (skipn 2 (x ++ [a'; b'] ++ y)) = [Zlen pl mod 256; Zlen pl / 256] ->
  exists s', feed (map build ls) s ([0xB5; 0x62] ++ x ++ [a'; b'] ++ y)
             = Ok (s', quiet (8 + length pl)) /\ parsing_message s' = false.
Proof.
  intros Hls Hid [Hl Hp] Ha Hb Ha' Hb' E Hne HL.
  unfold ubx_frame in E. apply app_inv_head in E.
  assert (Hc1 : closed (x ++ [a; b] ++ y)) by (eexists; symmetry; exact E).
  assert (Hlen : length (x ++ [a'; b'] ++ y) = (6 + length pl)%nat).
  { apply (f_equal (@length Z)) in E. rewrite !app_length in *.
    unfold ubx_body in E. rewrite app_length in E. cbn [length] in *. lia. }
  remember (x ++ [a'; b'] ++ y) as p' eqn:Ep'.
  destruct (closed_split p') as (q & ka & kb & Eq); [lia|].
  assert (Hq : length q = (4 + length pl)%nat) by (rewrite Eq, app_length in Hlen; cbn [length] in Hlen; clear - Hlen; lia).
  destruct q as [|c' [|i' [|lo [|hi pl']]]]; cbn [length] in Hq; try lia.
  assert (Hpl' : length pl' = length pl) by lia.
  assert (Hlo : lo = Zlen pl mod 256 /\ hi = Zlen pl / 256).
  { rewrite Eq in HL. cbn in HL. injection HL as -> ->. auto. }
  destruct Hlo as [-> ->].
  assert (EZ : Zlen pl = Zlen pl') by (unfold Zlen; lia).
  assert (Er : [0xB5; 0x62] ++ p' = raw_frame c' i' pl' ka kb).
  { rewrite Eq, EZ. reflexivity. }
  rewrite Er. destruct Hid as (Hst & Hsm & Hbuf & Hmod).
  rewrite feed_frame; [|assumption|assumption|rewrite <- EZ; exact Hl].
  cbv zeta.
  destruct ((ck_a_of (ubx_body c' i' pl') =? ka) && (ck_b_of (ubx_body c' i' pl') =? kb)) eqn:Eck.
  - exfalso. apply Hne. apply (pair_error_detected x a b a' b' y); try assumption.
    exists (ubx_body c' i' pl'). rewrite <- Ep', Eq. 
    assert (ka = ck_a_of (ubx_body c' i' pl')) as <- by lia.
    assert (kb = ck_b_of (ubx_body c' i' pl')) as <- by lia.
    unfold ubx_body. rewrite <- EZ. reflexivity.
  - rewrite Hpl'. eexists. split; [reflexivity|]. reflexivity.
Qed.

(* ---------------------------------------------------------------- C04 / C08 recovery *)
Lemma oversize_rejected ls s cls id n :
  Idle s -> 2048 < n < 65536 ->
  exists s', feed ls s [0xB5; 0x62; cls; id; n mod 256; n / 256] = Ok (s', quiet 6) /\
    Idle s' /\ nerr s' = u32 (nerr s + 1) /\ nmsg s' = nmsg s /\ inbuf s' = inbuf s.
Proof.
  intros (Hst & Hsm & Hbuf & Hmod) Hn. pose proof (feed_oversize ls s cls id n Hst Hn) as HF.
  unfold header in HF. eexists. split; [exact HF|]. repeat split; cbn; assumption.
Qed.

Lemma bad_frame_rejected ls s cls id pl ka kb :
  Idle s -> 1 <= Zlen pl <= 2048 ->
  (ka, kb) <> (ck_a_of (ubx_body cls id pl), ck_b_of (ubx_body cls id pl)) ->
  exists s', feed ls s ([0xB5; 0x62] ++ ubx_body cls id pl ++ [ka; kb]) = Ok (s', quiet (8 + length pl)) /\
    Idle s' /\ nerr s' = u32 (nerr s + 1) /\ nmsg s' = nmsg s.
Proof.
  intros (Hst & Hsm & Hbuf & Hmod) Hl Hne.
  change ([0xB5; 0x62] ++ ubx_body cls id pl ++ [ka; kb]) with (raw_frame cls id pl ka kb).
  rewrite feed_frame by assumption. cbv zeta.
  replace ((ck_a_of (ubx_body cls id pl) =? ka) && (ck_b_of (ubx_body cls id pl) =? kb)) with false.
  - eexists. split; [reflexivity|]. repeat split; cbn; try assumption.
    apply skipn_length_mem; [assumption|lia].
  - symmetry. apply andb_false_iff.
    destruct (Z.eqb_spec (ck_a_of (ubx_body cls id pl)) ka) as [<-|]; [|auto].
    destruct (Z.eqb_spec (ck_b_of (ubx_body cls id pl)) kb) as [<-|]; [|auto]. congruence.
Qed.

(* ---------------------------------------------------------------- C14 *)
Lemma inv_shape ls u pre s outs :
  Forall listener_ok ls -> uninit_ok u -> bytes_ok pre ->
  feed (map build ls) (ubx_init u) pre = Ok (s, outs) ->
  length (inbuf s) = 2048%nat /\ length (modname s) = 10%nat.
Proof.
  intros Hls Hu Hby HF.
  destruct (refine_idle ls (ubx_init u) pre Hls (init_idle u Hu) (init_small u) Hby)
    as (its & t & E & Hok & Ht & [(s1 & s' & E1 & _ & Hid & Hsm & _ & HT & Ha & Hb)|[_ E1]]);
    rewrite HF in E1; [|discriminate].
  injection E1 as E1 E2. subst s'. destruct Hid as (_ & _ & H1 & H2).
  destruct HT as (_ & _ & _ & _ & _ & _ & _ & T8 & T9). rewrite T8, T9. auto.
Qed.

Lemma restart_idle ls u pre s outs :
  Forall listener_ok ls -> uninit_ok u -> bytes_ok pre ->
  feed (map build ls) (ubx_init u) pre = Ok (s, outs) ->
  Idle (restart s) /\ nmsg (restart s) = nmsg s /\ nerr (restart s) = nerr s /\ inbuf (restart s) = inbuf s.
Proof.
  intros Hls Hu Hby HF. destruct (inv_shape ls u pre s outs Hls Hu Hby HF).
  repeat split; assumption.
Qed.

(* ---------------------------------------------------------------- C11, C12 *)
Lemma filter_quiet n : filter (fun o : byte_out => snd o) (quiet n) = [].
Proof. unfold quiet. induction n; [reflexivity|exact IHn]. Qed.

Lemma count_true_items ls its : forall mem,
  Zlen (filter (fun o : byte_out => snd o) (items_outs ls mem its)) = count is_good its.
Proof.
  assert (Hq : forall n, filter (fun o : byte_out => snd o) (quiet n) = []).
  { intros n. unfold quiet. induction n; [reflexivity|exact IHn]. }
  induction its as [|it its IH]; intros mem; [reflexivity|].
  cbn [items_outs]. rewrite filter_app, Zlen_app, IH, count_cons. f_equal.
  destruct it; cbn [item_outs]; rewrite ?filter_app, Hq; reflexivity.
Qed.

Lemma counters_spec ls u stream s outs :
  Forall listener_ok ls -> uninit_ok u -> bytes_ok stream ->
  feed (map build ls) (ubx_init u) stream = Ok (s, outs) ->
  nmsg s = Zlen (filter (fun o : byte_out => snd o) outs) mod 2 ^ 32 /\
  exists its t, stream = items_bytes its ++ t /\ items_ok 0 its /\ tail_ok (items_last 0 its) t /\
    nmsg s = count is_good its mod 2 ^ 32 /\ nerr s = count is_error its mod 2 ^ 32 /\
    got_ack s = (0 <? count (is_good_of 5 1) its) /\ got_nack s = (0 <? count (is_good_of 5 0) its) /\
    got_ver s = (0 <? count (is_good_of 10 4) its).
Proof.
  intros Hls Hu Hby HF.
  destruct (refine_idle ls (ubx_init u) stream Hls (init_idle u Hu) (init_small u) Hby)
    as (its & t & E & Hok & Ht & [(s1 & s' & E1 & _ & Hid & Hsm & HP & HT & Ha & Hb)|[_ E1]]);
    rewrite HF in E1; [|discriminate].
  injection E1 as E1 E2. subst s'.
  destruct HT as (T1 & T2 & T3 & T4 & T5 & _). destruct HP as (_ & _ & P3 & P4 & P5 & P6 & P7 & _).
  cbn in P3, P4, P5, P6, P7. rewrite T1, T2, T3, T4, T5.
  split.
  - rewrite E2, filter_app, Zlen_app, count_true_items.
    rewrite filter_quiet, Zlen_nil, Z.add_0_r. exact P3.
  - exists its, t. repeat split; assumption.
Qed.
