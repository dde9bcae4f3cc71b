(* Proofs about the UBX reader. *)
From Verif Require Import Base ZBits UbxSpec UbxModel.

(* ---------------------------------------------------------------- checksum *)
Lemma wsum_cons b r : wsum (b :: r) = (1 + Z.of_nat (length r)) * b + wsum r.
Proof. cbn [wsum length]. rewrite Nat2Z.inj_succ. f_equal. lia. Qed.

Lemma ck_fold l : forall a b,
  fold_left ck_step l (a mod 256, b mod 256)
  = ((a + sum l) mod 256, (b + Zlen l * a + wsum l) mod 256).
Proof.
  induction l as [|x l IH]; intros a b.
  - cbn [fold_left]. unfold Zlen, sum; cbn [fold_right wsum length].
    f_equal; f_equal; lia.
  - cbn [fold_left]. unfold ck_step at 2. cbn [fst snd].
    unfold u8. change (2 ^ 8) with 256.
    assert (E1 : (a mod 256 + x) mod 256 = (a + x) mod 256)
      by (rewrite Zplus_mod_idemp_l; reflexivity).
    rewrite E1.
    assert (E2 : (b mod 256 + (a + x) mod 256) mod 256 = (b + (a + x)) mod 256)
      by (rewrite <- Zplus_mod; reflexivity).
    rewrite E2, IH, wsum_cons, Zlen_cons. unfold sum; cbn [fold_right]. unfold Zlen.
    f_equal; f_equal; lia.
Qed.

Lemma ck_fold0 l : fold_left ck_step l (0, 0) = (ck_a_of l, ck_b_of l).
Proof.
  pose proof (ck_fold l 0 0) as H. rewrite Z.mod_0_l in H by lia. rewrite H.
  unfold ck_a_of, ck_b_of. f_equal; f_equal; lia.
Qed.

Lemma aget_app_mid (a b : list Z) x : aget (a ++ x :: b) (Zlen a) = Ok x.
Proof.
  unfold aget. rewrite Zlen_app, Zlen_cons.
  pose proof (Zlen_nonneg a); pose proof (Zlen_nonneg b).
  replace ((0 <=? Zlen a) && (Zlen a <? Zlen a + (1 + Zlen b))) with true by lia.
  unfold Zlen; rewrite Nat2Z.id, app_nth2, Nat.sub_diag by lia. reflexivity.
Qed.

Lemma ck_loop_spec pl : forall done rest ab,
  ck_loop (length pl) (done ++ pl ++ rest) (Zlen done) ab = Ok (fold_left ck_step pl ab).
Proof.
  induction pl as [|x pl IH]; intros done rest ab; [reflexivity|].
  cbn [length ck_loop app fold_left]. rewrite aget_app_mid. cbn [bind].
  specialize (IH (done ++ [x]) rest (ck_step ab x)).
  rewrite <- app_assoc, Zlen_app in IH. exact IH.
Qed.

Lemma checksum_spec cls id pl rest : Zlen pl < 65536 ->
  calculate_checksum cls id (Zlen pl) (pl ++ rest)
  = Ok (ck_a_of (ubx_body cls id pl), ck_b_of (ubx_body cls id pl)).
Proof.
  intros Hl. unfold calculate_checksum, ubx_body.
  pose proof (Zlen_nonneg pl).
  rewrite land_255, shiftr_8, land_255.
  rewrite (Z.mod_small (Zlen pl / 256)) by lia.
  replace (Z.to_nat (Zlen pl)) with (length pl) by (unfold Zlen; lia).
  rewrite (ck_loop_spec pl [] rest). rewrite <- ck_fold0. reflexivity.
Qed.

(* ---------------------------------------------------------------- feeding *)
Lemma feed_app ls a : forall s b,
  feed ls s (a ++ b) =
  let* (s1, o1) := feed ls s a in let* (s2, o2) := feed ls s1 b in Ok (s2, o1 ++ o2).
Proof.
  induction a as [|x a IH]; intros s b; cbn [app feed bind].
  - destruct (feed ls s b) as [[s2 o2]|k]; reflexivity.
  - destruct (read_cb ls s x) as [[[s1 c] ok]|k]; cbn [bind]; [|reflexivity].
    rewrite IH. destruct (feed ls s1 a) as [[s2 o2]|k]; cbn [bind]; [|reflexivity].
    destruct (feed ls s2 b) as [[s3 o3]|k]; reflexivity.
Qed.

(* State while collecting the payload. *)
Definition pay_state (s : ubx) cls id n h buf pv : ubx :=
  mkUbx pv h true false (got_ack s) (got_ver s) (got_nack s) GOT_LENGTH2 cls id n 0 0
        (nerr s) (nmsg s) buf (major s) (minor s) (modname s).
Definition mid_state (s : ubx) p cls id n ka buf pv : ubx :=
  mkUbx pv n true false (got_ack s) (got_ver s) (got_nack s) p cls id n ka 0
        (nerr s) (nmsg s) buf (major s) (minor s) (modname s).

Lemma quiet_app a b : quiet a ++ quiet b = quiet (a + b).
Proof. unfold quiet. symmetry. apply repeat_app. Qed.

Definition header (cls id n : Z) : list Z := [0xB5; 0x62; cls; id; n mod 256; n / 256].

Lemma feed_header ls s cls id n :
  st s = START -> 0 <= n <= 2048 ->
  feed ls s (header cls id n) = Ok (pay_state s cls id n 0 (inbuf s) (n / 256), quiet 6).
Proof.
  intros Hst Hn. unfold header.
  destruct s; cbn in Hst; subst.
  cbv - [Z.modulo Z.div Z.lor Z.shiftl Z.add u16 u32 Z.gtb BUFFER_SIZE decode_message].
  rewrite len_of_bytes by (unfold byte_ok; lia).
  replace (n mod 256 + 256 * (n / 256)) with n by lia.
  unfold BUFFER_SIZE. replace (n >? 2048) with false by lia.
  cbv iota beta. reflexivity.
Qed.

Lemma feed_oversize ls s cls id n :
  st s = START -> 2048 < n < 65536 ->
  feed ls s (header cls id n)
  = Ok (mkUbx (n / 256) 0 false false (got_ack s) (got_ver s) (got_nack s) START cls id n 0 0
          (u32 (nerr s + 1)) (nmsg s) (inbuf s) (major s) (minor s) (modname s), quiet 6).
Proof.
  intros Hst Hn. unfold header.
  destruct s; cbn in Hst; subst.
  cbv - [Z.modulo Z.div Z.lor Z.shiftl Z.add u16 u32 Z.gtb BUFFER_SIZE decode_message].
  rewrite len_of_bytes by (unfold byte_ok; lia).
  replace (n mod 256 + 256 * (n / 256)) with n by lia.
  unfold BUFFER_SIZE. replace (n >? 2048) with true by lia.
  cbv iota beta. reflexivity.
Qed.

Lemma read_pay ls s cls id n done y old pv x :
  Zlen done < n -> n < 65536 ->
  read_cb ls (pay_state s cls id n (Zlen done) (done ++ y :: old) pv) x
  = Ok (if Zlen done =? n - 1
        then mid_state s GOT_PAYLOAD cls id n 0 (done ++ x :: old) x
        else pay_state s cls id n (Zlen done + 1) (done ++ x :: old) x, [], false).
Proof.
  intros H1 H2. pose proof (Zlen_nonneg done).
  unfold read_cb, read_switch.
  assert (E1 : st (pay_state s cls id n (Zlen done) (done ++ y :: old) pv) = GOT_LENGTH2) by reflexivity.
  assert (E2 : head (pay_state s cls id n (Zlen done) (done ++ y :: old) pv) = Zlen done) by reflexivity.
  assert (E3 : mlen (pay_state s cls id n (Zlen done) (done ++ y :: old) pv) = n) by reflexivity.
  assert (E4 : inbuf (pay_state s cls id n (Zlen done) (done ++ y :: old) pv) = done ++ y :: old) by reflexivity.
  rewrite E1, E2, E3, E4. replace (Zlen done <? n) with true by lia.
  rewrite aset_app. cbn [bind w_inbuf head mlen].
  destruct (Z.eqb_spec (Zlen done) (n - 1)) as [E|E].
  - cbn - [Zlen u16 Z.sub].
    destruct (Z.eqb_spec (Zlen done) (n - 1)) as [_|]; [|contradiction].
    cbn - [Zlen u16 Z.sub]. unfold mid_state.
    unfold u16. change (2 ^ 16) with 65536.
    rewrite (Z.mod_small (Zlen done + 1)) by lia.
    replace (Zlen done + 1) with n by lia. reflexivity.
  - cbn - [Zlen u16 Z.sub].
    destruct (Z.eqb_spec (Zlen done) (n - 1)) as [|_]; [contradiction|].
    cbn - [Zlen u16 Z.sub]. unfold pay_state.
    unfold u16. change (2 ^ 16) with 65536.
    rewrite (Z.mod_small (Zlen done + 1)) by lia. reflexivity.
Qed.

Lemma feed_payload ls s cls id n : forall pl done old pv,
  pl <> [] -> n = Zlen done + Zlen pl -> n <= Zlen (done ++ old) -> n < 65536 ->
  feed ls (pay_state s cls id n (Zlen done) (done ++ old) pv) pl
  = Ok (mid_state s GOT_PAYLOAD cls id n 0 (done ++ pl ++ skipn (length pl) old) (last pl 0),
        quiet (length pl)).
Proof.
  induction pl as [|x pl IH]; intros done old pv Hne Hn Hle Hlt; [congruence|].
  rewrite Zlen_cons in Hn. rewrite Zlen_app in Hle.
  pose proof (Zlen_nonneg pl); pose proof (Zlen_nonneg done).
  destruct old as [|y old]; [rewrite Zlen_nil in Hle; lia|].
  cbn [feed]. rewrite read_pay by lia. cbn [bind].
  destruct pl as [|x' pl].
  - rewrite Zlen_nil in Hn. replace (Zlen done =? n - 1) with true by lia. reflexivity.
  - rewrite Zlen_cons in Hn. pose proof (Zlen_nonneg pl).
    replace (Zlen done =? n - 1) with false by lia.
    replace (Zlen done + 1) with (Zlen (done ++ [x]))
      by (rewrite Zlen_app, Zlen_cons, Zlen_nil; lia).
    replace (done ++ x :: old) with ((done ++ [x]) ++ old) by (rewrite <- app_assoc; reflexivity).
    rewrite IH; [| discriminate | rewrite Zlen_app, !Zlen_cons, Zlen_nil; lia
                 | rewrite !Zlen_app, !Zlen_cons in *; rewrite ?Zlen_nil; lia | lia].
    cbn [bind]. rewrite <- app_assoc. reflexivity.
Qed.

(* ---------------------------------------------------------------- one whole frame *)
(* State just before decode_message. *)
Definition full_state (s : ubx) cls id pl ka kb pv : ubx :=
  mkUbx pv (Zlen pl) true false (got_ack s) (got_ver s) (got_nack s) GOT_CK_B cls id (Zlen pl) ka kb
        (nerr s) (nmsg s) (pl ++ skipn (length pl) (inbuf s)) (major s) (minor s) (modname s).

Definition finish_ok (s : ubx) kb : ubx := w_prev (w_flags (w_st s START) false true) kb.
Definition finish_bad (s : ubx) kb : ubx :=
  w_prev (w_flags (w_st (w_nerr s (u32 (nerr s + 1))) START) false false) kb.

Definition raw_frame cls id pl ka kb : list Z := header cls id (Zlen pl) ++ pl ++ [ka; kb].

Lemma raw_frame_length cls id pl ka kb : length (raw_frame cls id pl ka kb) = (8 + length pl)%nat.
Proof. unfold raw_frame, header. rewrite !app_length. cbn [length]. lia. Qed.

Lemma ubx_frame_raw cls id pl :
  ubx_frame cls id pl = raw_frame cls id pl (ck_a_of (ubx_body cls id pl)) (ck_b_of (ubx_body cls id pl)).
Proof. unfold ubx_frame, raw_frame, ubx_body, header. reflexivity. Qed.

Lemma read_ck1 ls s cls id n buf pv ka :
  read_cb ls (mid_state s GOT_PAYLOAD cls id n 0 buf pv) ka
  = Ok (mid_state s GOT_CK_A cls id n ka buf ka, [], false).
Proof. reflexivity. Qed.

Definition ckb_state (s : ubx) cls id n ka kb buf : ubx :=
  mkUbx ka n true false (got_ack s) (got_ver s) (got_nack s) GOT_CK_B cls id n ka kb
        (nerr s) (nmsg s) buf (major s) (minor s) (modname s).
Lemma read_ck2 ls s cls id n buf ka kb :
  read_cb ls (mid_state s GOT_CK_A cls id n ka buf ka) kb
  = let* (s2, calls, ok) := decode_message ls (ckb_state s cls id n ka kb buf) in
    if ok then Ok (finish_ok s2 kb, calls, true) else Ok (finish_bad s2 kb, calls, false).
Proof. reflexivity. Qed.

Theorem feed_frame ls s cls id pl ka kb :
  st s = START -> length (inbuf s) = 2048%nat -> 1 <= Zlen pl <= 2048 ->
  feed ls s (raw_frame cls id pl ka kb) =
  (let s1 := full_state s cls id pl ka kb ka in
   if (ck_a_of (ubx_body cls id pl) =? ka) && (ck_b_of (ubx_body cls id pl) =? kb)
   then let* s2 := decode_switch (w_nmsg s1 (u32 (nmsg s + 1))) in
        Ok (finish_ok s2 kb, quiet (7 + length pl) ++ [(notify ls s2, true)])
   else Ok (finish_bad s1 kb, quiet (8 + length pl))).
Proof.
  intros Hst Hbuf Hpl. unfold raw_frame.
  rewrite feed_app, feed_header by (assumption || lia). cbn [bind].
  rewrite feed_app.
  change (inbuf s) with ([] ++ inbuf s). change 0 with (@Zlen Z []) at 1.
  rewrite feed_payload; [| intros ->; rewrite Zlen_nil in Hpl; lia
     | rewrite Zlen_nil; lia | cbn [app]; unfold Zlen; rewrite Hbuf; unfold Zlen in Hpl; lia | lia].
  cbn [bind app feed].
  rewrite read_ck1. cbn [bind]. rewrite read_ck2.
  change (ckb_state _ _ _ _ _ _ _) with (full_state s cls id pl ka kb ka).
  unfold decode_message at 1.
  change (mcls (full_state s cls id pl ka kb ka)) with cls.
  change (mtyp (full_state s cls id pl ka kb ka)) with id.
  change (mlen (full_state s cls id pl ka kb ka)) with (Zlen pl).
  change (inbuf (full_state s cls id pl ka kb ka)) with (pl ++ skipn (length pl) (inbuf s)).
  rewrite checksum_spec by lia. cbn [bind].
  change (cka (full_state s cls id pl ka kb ka)) with ka.
  change (ckb (full_state s cls id pl ka kb ka)) with kb.
  change (nmsg (full_state s cls id pl ka kb ka)) with (nmsg s).
  rewrite <- negb_andb.
  destruct ((ck_a_of (ubx_body cls id pl) =? ka) && (ck_b_of (ubx_body cls id pl) =? kb));
    cbn [negb].
  - destruct (decode_switch _) as [s2|k]; cbn [bind]; [|reflexivity].
    f_equal. f_equal.
    rewrite app_assoc, quiet_app. change (([], false) :: [(notify ls s2, true)]) with (quiet 1 ++ [(notify ls s2, true)]).
    rewrite app_assoc, quiet_app. f_equal. f_equal. lia.
  - cbn [bind]. f_equal. f_equal.
    change ([([], false); ([], false)]) with (quiet 2).
    rewrite !quiet_app. f_equal. lia.
Qed.

(* ---------------------------------------------------------------- decode_switch *)
Lemma version_slot_frame s i s' :
  version_slot s i = Ok s' ->
  s' = w_modname (w_version s (major s') (minor s')) (modname s').
Proof.
  unfold version_slot. intros H.
  destruct (str_prefix (inbuf s) (ext_off i) lit_protver) as [p|]; cbn [bind] in H; [|discriminate].
  destruct p.
  - unfold extract_version_string in H.
    destruct (copy_until_dot 5 (inbuf s) (ext_off i + 8)) as [[t1 q]|]; cbn [bind] in H; [|discriminate].
    destruct (atoi t1) as [ma|]; cbn [bind] in H; [|discriminate].
    destruct (copy_until_nul 5 (inbuf s) q) as [t2|]; cbn [bind] in H; [|discriminate].
    destruct (atoi t2) as [mi|]; cbn [bind] in H; [|discriminate].
    destruct (str_prefix _ _ lit_mod) as [m|]; cbn [bind] in H; [|discriminate].
    destruct m.
    + unfold extract_module_name in H.
      destruct (copy_name _ _ _ _ _) as [nm|]; cbn [bind] in H; [|discriminate].
      injection H as <-. destruct s; reflexivity.
    + injection H as <-. destruct s; reflexivity.
  - cbn [bind] in H.
    destruct (str_prefix _ _ lit_mod) as [m|]; cbn [bind] in H; [|discriminate].
    destruct m.
    + unfold extract_module_name in H.
      destruct (copy_name _ _ _ _ _) as [nm|]; cbn [bind] in H; [|discriminate].
      injection H as <-. destruct s; reflexivity.
    + injection H as <-. destruct s; reflexivity.
Qed.

Lemma version_loop_frame n : forall i s s',
  version_loop n i s = Ok s' ->
  s' = w_modname (w_version s (major s') (minor s')) (modname s').
Proof.
  induction n as [|n IH]; intros i s s' H; cbn [version_loop] in H.
  - injection H as <-. destruct s; reflexivity.
  - destruct (version_slot s i) as [s1|] eqn:E; cbn [bind] in H; [|discriminate].
    apply version_slot_frame in E. apply IH in H. rewrite H, E.
    destruct s, s1, s'; reflexivity.
Qed.

Definition is_ver (s : ubx) : bool := (mcls s =? 0x0A) && (mtyp s =? 0x04).

(* decode_switch changes only the flags and the version strings *)
Lemma decode_switch_frame s s' :
  decode_switch s = Ok s' ->
  s' = mkUbx (prev s) (head s) (start_m s) (end_m s)
         (got_ack s || ((mcls s =? 5) && (mtyp s =? 1)))
         (got_ver s || is_ver s)
         (got_nack s || ((mcls s =? 5) && (mtyp s =? 0)))
         (st s) (mcls s) (mtyp s) (mlen s) (cka s) (ckb s) (nerr s) (nmsg s) (inbuf s)
         (major s') (minor s') (modname s')
  /\ (is_ver s = false -> major s' = major s /\ minor s' = minor s /\ modname s' = modname s).
Proof.
  unfold decode_switch, is_ver. intros H.
  destruct (Z.eqb_spec (mcls s) 5) as [E|E].
  - rewrite E. cbn [andb].
    destruct (Z.eqb_spec (mtyp s) 1) as [E1|E1].
    + rewrite E1. injection H as <-. destruct s; cbn in *.
      rewrite orb_true_r, !orb_false_r. subst. auto.
    + destruct (Z.eqb_spec (mtyp s) 0) as [E0|E0].
      * injection H as <-. destruct s; cbn in *. rewrite orb_true_r, !orb_false_r. subst. auto.
      * injection H as <-. destruct s; cbn in *. rewrite !orb_false_r. subst. auto.
  - cbn [andb]. rewrite !orb_false_r.
    destruct (Z.eqb_spec (mcls s) 10) as [EA|EA].
    + destruct (Z.eqb_spec (mtyp s) 4) as [E4|E4].
      * cbn [andb]. rewrite orb_true_r. unfold version_cb in H.
        destruct (version_loop 20 0 s) as [s1|] eqn:EV; cbn [bind] in H; [|discriminate].
        destruct (print_name (modname s1)) as [u|]; cbn [bind] in H; [|discriminate].
        injection H as <-. apply version_loop_frame in EV. split; [|discriminate].
        rewrite EV. destruct s, s1; reflexivity.
      * injection H as <-. cbn [andb]. rewrite orb_false_r. destruct s; auto.
    + injection H as <-. cbn [andb]. rewrite orb_false_r. destruct s; auto.
Qed.

Lemma str_prefix_ok buf lit : forall pos,
  0 <= pos -> pos + Zlen lit <= Zlen buf -> exists b, str_prefix buf pos lit = Ok b.
Proof.
  induction lit as [|c lit IH]; intros pos H0 H; cbn [str_prefix]; [eauto|].
  rewrite Zlen_cons in H. pose proof (Zlen_nonneg lit).
  unfold aget. replace ((0 <=? pos) && (pos <? Zlen buf)) with true by lia.
  cbn [bind]. destruct (_ =? c); [apply IH; lia|eauto].
Qed.

Lemma aget_in buf pos : 0 <= pos < Zlen buf -> aget buf pos = Ok (nth (Z.to_nat pos) buf 0).
Proof. intros H. unfold aget. replace ((0 <=? pos) && (pos <? Zlen buf)) with true by lia. reflexivity. Qed.

Lemma atoi_digits_ub l acc k : atoi_digits l acc = UB k -> k = UB_cstring.
Proof.
  revert acc; induction l as [|c l IH]; intros acc H; cbn in H; [congruence|].
  destruct (is_digit c); [eauto|discriminate].
Qed.
Lemma atoi_ub l k : atoi l = UB k -> k = UB_cstring.
Proof.
  induction l as [|c l IH]; intros H; cbn [atoi] in H; [congruence|].
  destruct (is_space c); [auto|].
  destruct (c =? 45).
  - destruct (atoi_digits l 0) eqn:E; cbn [bind] in H; [discriminate|].
    injection H as <-. eauto using atoi_digits_ub.
  - destruct (c =? 43); eauto using atoi_digits_ub.
Qed.

Lemma copy_until_dot_ok buf n : forall pos,
  0 <= pos -> pos + Z.of_nat n <= Zlen buf ->
  exists t q, copy_until_dot n buf pos = Ok (t, q) /\ pos <= q <= pos + Z.of_nat n.
Proof.
  induction n as [|n IH]; intros pos H0 H; cbn [copy_until_dot].
  - exists [], pos; split; [reflexivity|lia].
  - rewrite aget_in by lia. cbn [bind]. destruct (_ =? 46).
    + eexists _, _; split; [reflexivity|lia].
    + destruct (IH (pos + 1)) as (t & q & E & Hq); [lia|lia|]. rewrite E. cbn [bind].
      eexists _, _; split; [reflexivity|lia].
Qed.
Lemma copy_until_nul_ok buf n : forall pos,
  0 <= pos -> pos + Z.of_nat n <= Zlen buf -> exists t, copy_until_nul n buf pos = Ok t.
Proof.
  induction n as [|n IH]; intros pos H0 H; cbn [copy_until_nul].
  - eauto.
  - rewrite aget_in by lia. cbn [bind]. destruct (_ =? 0); [eauto|].
    destruct (IH (pos + 1)) as (t & E); [lia|lia|]. rewrite E. cbn [bind]. eauto.
Qed.
Lemma copy_name_ok buf n : forall pos nm i,
  0 <= pos -> pos + Z.of_nat n <= Zlen buf -> 0 <= i -> i + Z.of_nat n <= Zlen nm ->
  exists nm', copy_name n buf pos nm i = Ok nm' /\ length nm' = length nm.
Proof.
  induction n as [|n IH]; intros pos nm i H0 H Hi Hn; cbn [copy_name].
  - eauto.
  - rewrite aget_in by lia. cbn [bind].
    destruct (aset nm i (nth (Z.to_nat pos) buf 0)) as [nm1|k] eqn:E.
    + pose proof (aset_ok_length _ _ _ _ E) as EL. cbn [bind]. destruct (_ =? 0); [eauto|].
      destruct (IH (pos + 1) nm1 (i + 1)) as (nm' & E' & EL'); try lia.
      { unfold Zlen in *; lia. }
      exists nm'. split; [exact E'|lia].
    + exfalso. unfold aset in E.
      replace ((0 <=? i) && (i <? Zlen nm)) with true in E by lia. discriminate.
Qed.

Lemma version_slot_cases s i :
  Zlen (inbuf s) = 2048 -> length (modname s) = 10%nat -> 0 <= i < 20 ->
  (exists s', version_slot s i = Ok s' /\ length (modname s') = 10%nat)
  \/ version_slot s i = UB UB_cstring.
Proof.
  intros HB HM Hi. unfold version_slot, ext_off.
  destruct (str_prefix_ok (inbuf s) lit_protver (40 + 10 * i)) as [p Ep];
    [lia|change (Zlen lit_protver) with 8; lia|]. rewrite Ep. cbn [bind].
  assert (Hmod : forall t, inbuf t = inbuf s -> modname t = modname s ->
    exists s', (let* m := str_prefix (inbuf t) (40 + 10 * i) lit_mod in
      if m then extract_module_name t (40 + 10 * i) else Ok t) = Ok s' /\ length (modname s') = 10%nat).
  { intros t Ht Hm. rewrite Ht.
    destruct (str_prefix_ok (inbuf s) lit_mod (40 + 10 * i)) as [m Em];
      [lia|change (Zlen lit_mod) with 4; lia|]. rewrite Em. cbn [bind].
    destruct m.
    - unfold extract_module_name. rewrite Ht, Hm.
      destruct (copy_name_ok (inbuf s) 10 (40 + 10 * i + 4) (modname s) 0) as (nm & En & El);
        [lia|lia|lia|unfold Zlen; rewrite HM; lia|].
      rewrite En. cbn [bind]. eexists; split; [reflexivity|]. cbn. lia.
    - exists t. rewrite Hm. auto. }
  destruct p; [|cbn [bind]; left; apply Hmod; reflexivity].
  unfold extract_version_string.
  destruct (copy_until_dot_ok (inbuf s) 5 (40 + 10 * i + 8)) as (t & q & Et & Hq); [lia|lia|].
  rewrite Et. cbn [bind].
  destruct (atoi t) as [ma|k] eqn:Ea; cbn [bind]; [|right; f_equal; eauto using atoi_ub].
  destruct (copy_until_nul_ok (inbuf s) 5 q) as (t2 & Et2); [lia|lia|]. rewrite Et2. cbn [bind].
  destruct (atoi t2) as [mi|k] eqn:Eb; cbn [bind]; [|right; f_equal; eauto using atoi_ub].
  left; apply Hmod; reflexivity.
Qed.

Lemma version_loop_cases n : forall i s,
  Zlen (inbuf s) = 2048 -> length (modname s) = 10%nat -> 0 <= i -> i + Z.of_nat n <= 20 ->
  (exists s', version_loop n i s = Ok s' /\ length (modname s') = 10%nat)
  \/ version_loop n i s = UB UB_cstring.
Proof.
  induction n as [|n IH]; intros i s HB HM Hi Hn; cbn [version_loop]; [left; eauto|].
  destruct (version_slot_cases s i HB HM) as [(s1 & E & HM1)|E]; [lia| |]; rewrite E; cbn [bind]; auto.
  apply IH; auto; try lia.
  apply version_slot_frame in E. rewrite E. destruct s; cbn in *; lia.
Qed.

Lemma decode_switch_cases s :
  Zlen (inbuf s) = 2048 -> length (modname s) = 10%nat ->
  (exists s', decode_switch s = Ok s' /\ length (modname s') = 10%nat)
  \/ (decode_switch s = UB UB_cstring /\ is_ver s = true).
Proof.
  intros HB HM. unfold decode_switch, is_ver.
  destruct (Z.eqb_spec (mcls s) 5) as [E|E].
  { left. destruct (mtyp s =? 1); [eexists; split; [reflexivity|exact HM]|].
    destruct (mtyp s =? 0); eexists; (split; [reflexivity|exact HM]). }
  destruct (Z.eqb_spec (mcls s) 10) as [EA|EA]; [|left; eauto].
  destruct (Z.eqb_spec (mtyp s) 4) as [E4|E4]; [|left; eauto].
  unfold version_cb.
  destruct (version_loop_cases 20 0 s HB HM) as [(s1 & E1 & H1)|E1]; [lia|lia| |];
    rewrite E1; cbn [bind]; [|right; auto].
  unfold print_name. destruct (existsb (Z.eqb 0) (modname s1)); cbn [bind]; [left|right; auto].
  eexists; split; [reflexivity|exact H1].
Qed.
