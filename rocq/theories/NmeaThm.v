From Verif Require Import Base NmeaModel NmeaProofs.

(* a line without inner "$G"/CR LF pairs or NULs, of at most n bytes between "$G" and CR LF *)
Definition body_ok (n : Z) (body : list Z) : Prop := plain (71 :: body ++ [13]) /\ ~ In 0 body /\ Zlen body <= n.

Lemma clean_after s b s' t : NInv s -> nmea_read s b = Ok (s', true, t) -> NInv s' /\ n_buf s' = repeat 0 82 /\ n_len s' = 0.
Proof.
  intros HI E. destruct (ninv_step s b s' true t HI E) as (HI' & _ & HO). split; [exact HI'|].
  destruct (nmea_step s b HI) as [l E1 E2 R _|E1 E2 H0 R|E1 E2 H0 R|N1 N2 H3 R|N1 N2 H3 R]; rewrite R in E; try discriminate.
  assert (EQ := f_equal (fun o => match o with Ok (x, _, _) => x | UB _ => s end) E); cbn beta iota in EQ. subst s'. split; reflexivity.
Qed.

Lemma in0_skip k : (k < 80)%nat -> In 0 (skipn k (repeat 0 80)) /\ upto0 (skipn k (repeat 0 80)) = [].
Proof.
  intros H. assert (E : skipn k (repeat 0 80) = repeat 0 (80 - k)).
  { replace 80%nat with (k + (80 - k))%nat at 1 by lia. rewrite repeat_app, skipn_app, repeat_length, Nat.sub_diag, skipn_all2 by (rewrite repeat_length; lia). reflexivity. }
  rewrite E. destruct (80 - k)%nat as [|m] eqn:Em; [lia|]. cbn. split; [left; reflexivity|reflexivity].
Qed.

Definition line_outs (body : list Z) : list (bool * option (list Z)) := nquiet (length body + 3) ++ [(true, Some (sentence body))].

Lemma clean_sentence s body : NInv s -> n_buf s = repeat 0 82 -> n_len s = 0 -> body_ok 77 body ->
  exists s', nmea_feed s (sentence body) = Ok (s', line_outs body) /\ NInv s' /\ n_buf s' = repeat 0 82 /\ n_len s' = 0.
Proof.
  intros HI HB HL (HP & H0 & HN).
  destruct (sentence_spec s body HI HP H0 ltac:(lia)) as (tl & HT & HC & HS & _).
  specialize (HC 0 HB HL). destruct (in0_skip (length body + 2)) as [I1 I2]; [unfold Zlen in HN; lia|].
  rewrite HC in HS. rewrite I2 in HS. destruct (HS I1) as (s' & E & B1 & B2 & _). rewrite app_nil_r in E.
  exists s'. split; [exact E|]. split; [|split; [rewrite B1; reflexivity|exact B2]]. split; [rewrite B1; reflexivity|lia].
Qed.

Lemma clean_lines bodies : forall s, NInv s -> n_buf s = repeat 0 82 -> n_len s = 0 -> Forall (body_ok 77) bodies ->
  exists s', nmea_feed s (flat_map sentence bodies) = Ok (s', flat_map line_outs bodies).
Proof.
  induction bodies as [|x r IH]; intros s HI HB HL HF.
  - exists s. reflexivity.
  - inversion HF as [|x' r' Hx Hr]; subst. destruct (clean_sentence s x HI HB HL Hx) as (s1 & E1 & I1 & B1 & L1).
    destruct (IH s1 I1 B1 L1 Hr) as (s2 & E2). exists s2. cbn [flat_map]. rewrite nmea_feed_app, E1. cbn [bind]. rewrite E2. reflexivity.
Qed.

Lemma longest_overreads s body : NInv s -> plain (71 :: body ++ [13]) -> ~ In 0 body -> Zlen body = 78 ->
  nmea_feed s (sentence body) = UB UB_cstring.
Proof.
  intros HI HP H0 HN. destruct (sentence_spec s body HI HP H0 ltac:(lia)) as (tl & HT & _ & _ & HS). apply HS.
  rewrite skipn_all2; [intros []|]. unfold Zlen in *. lia.
Qed.

Lemma init_results buf0 bs s' outs : Zlen buf0 = 82 -> nmea_feed (nmea_init buf0) bs = Ok (s', outs) ->
  length outs = length bs /\
  forall k, (k < length bs)%nat -> (fst (nth k outs (false, None)) = true <-> nth k bs 0 = 10 /\ (0 < k)%nat /\ nth (k - 1) bs 0 = 13).
Proof.
  intros Hz E. destruct (nmea_results bs (nmea_init buf0) s' outs) as [H1 H2].
  - split; [exact Hz|cbn; lia].
  - exact E.
  - split; [exact H1|]. intros k Hk. rewrite (H2 k Hk). destruct k as [|k]; cbn [nth n_prev nmea_init].
    + split; [intros [_ H]; discriminate|intros (_ & H & _); lia].
    + replace (S k - 1)%nat with k by lia. split; [intros [A B]; split; [exact A|split; [lia|exact B]]|intros (A & _ & B); split; assumption].
Qed.

Lemma feed_reach buf0 : forall bs s s' o, NReach buf0 s -> bytes_ok bs -> nmea_feed s bs = Ok (s', o) -> NReach buf0 s'.
Proof.
  induction bs as [|b r IH]; intros s s' o HR HB E; cbn [nmea_feed] in E.
  - assert (s' = s) by congruence. subst. exact HR.
  - destruct (nmea_read s b) as [[[s1 ok] t]|] eqn:E1; cbn [bind] in E; [|discriminate].
    destruct (nmea_feed s1 r) as [[s2 o2]|] eqn:E2; cbn [bind] in E; [|discriminate].
    assert (s' = s2) by congruence. subst s'. inversion HB; subst. eapply IH; [|eassumption|exact E2]. eapply NR_read; eassumption.
Qed.

(* the only fault: printing at a CR LF with no NUL byte in the buffer *)
Lemma init_fault buf0 bs k : Zlen buf0 = 82 -> bytes_ok bs -> nmea_feed (nmea_init buf0) bs = UB k ->
  k = UB_cstring /\ exists pre post s o, bs = pre ++ [13; 10] ++ post /\ nmea_feed (nmea_init buf0) (pre ++ [13]) = Ok (s, o) /\
    exists full, aset (n_buf s) (n_len s) 10 = Ok full /\ ~ In 0 full.
Proof.
  intros Hz HB.
  assert (G : forall bs done s0 o0, bytes_ok bs -> NReach buf0 s0 -> nmea_feed (nmea_init buf0) done = Ok (s0, o0) ->
     (n_prev s0 = last done 0) -> nmea_feed s0 bs = UB k ->
     k = UB_cstring /\ exists pre post s o, done ++ bs = pre ++ [13; 10] ++ post /\ nmea_feed (nmea_init buf0) (pre ++ [13]) = Ok (s, o) /\
       exists full, aset (n_buf s) (n_len s) 10 = Ok full /\ ~ In 0 full).
  { clear bs HB. induction bs as [|b r IH]; intros done s0 o0 HB HR HD HP E; cbn [nmea_feed] in E; [discriminate|].
    inversion HB as [|b' r' Hb Hr]; subst.
    destruct (nmea_safe buf0 s0 b Hz HR Hb) as [(s1 & ok & t & E1 & HR1 & _)|(E1 & Eb & Ep & Hn)].
    - rewrite E1 in E. cbn [bind] in E.
      destruct (nmea_feed s1 r) as [[s2 o2]|k2] eqn:E2; cbn [bind] in E; [discriminate|]. assert (k2 = k) by congruence. subst k2.
      destruct (IH (done ++ [b]) s1 (o0 ++ [(ok, t)]) Hr HR1) as [K1 K2].
      + rewrite nmea_feed_app, HD. cbn [bind nmea_feed]. rewrite E1. reflexivity.
      + rewrite last_last. apply (ninv_step s0 b s1 ok t (nreach_inv buf0 s0 Hz HR) E1).
      + exact E2.
      + rewrite <- app_assoc in K2. cbn [app] in K2. split; assumption.
    - rewrite E1 in E. cbn [bind] in E. split; [congruence|].
      destruct (exists_last (l := done)) as (pre & x & ED).
      { intros ->. cbn [last] in HP. lia. }
      subst done. rewrite last_last in HP. rewrite HP in Ep. clear HP. subst x b.
      exists pre, r, s0, o0. split; [rewrite <- app_assoc; reflexivity|]. split; [exact HD|].
      exists (stored s0 10). split; [apply aset_stored; exact (nreach_inv buf0 s0 Hz HR)|exact Hn]. }
  intros E. destruct (G bs [] (nmea_init buf0) [] HB (NR_init buf0) eq_refl eq_refl E) as [K1 K2]. split; assumption.
Qed.

Fixpoint plainb (p : Z) (l : list Z) : bool :=
  match l with [] => true | c :: r => negb ((p =? 36) && (c =? 71)) && negb ((p =? 13) && (c =? 10)) && plainb c r end.
Lemma plainb_app a : forall p l, plainb p (a ++ l) = true -> exists q, plainb q l = true.
Proof.
  induction a as [|x a IH]; intros p l H; [exists p; exact H|]. cbn [app plainb] in H. apply andb_prop in H as [_ H]. exact (IH x l H).
Qed.
Lemma plain_dec l : plainb 0 l = true -> plain l.
Proof.
  intros H a b. split; intros ->; apply plainb_app in H as [q H]; cbn in H; rewrite ?Bool.andb_false_r in H; discriminate.
Qed.
