(* The UBX reader follows the grammar of UbxSpec on every byte stream. *)
From Verif Require Import Base ZBits UbxSpec UbxModel UbxProofs.

(* ---------------------------------------------------------------- listeners *)
Definition build (l : listener) : mlistener :=
  fold_right (fun p m => subscribe m (fst p) (snd p)) (mkML (lid l) []) (subs l).
Definition pair_ok (p : Z * Z) : Prop := byte_ok (fst p) /\ byte_ok (snd p).
Definition listener_ok (l : listener) : Prop := Forall pair_ok (subs l).

Lemma sub_key_val c i : byte_ok c -> byte_ok i -> sub_key c i = 256 * c + i.
Proof.
  unfold byte_ok; intros Hc Hi. unfold sub_key.
  rewrite lor_shiftl_low by (change (2 ^ 8) with 256; lia).
  unfold u16. change (2 ^ 8) with 256. change (2 ^ 16) with 65536. rewrite Z.mod_small; lia.
Qed.

Lemma build_id l : ml_id (build l) = lid l.
Proof.
  unfold build. induction (subs l) as [|p ps IH]; [reflexivity|].
  cbn [fold_right]. unfold subscribe at 1. cbn [ml_id]. exact IH.
Qed.

Lemma build_subscribed l cls id :
  listener_ok l -> byte_ok cls -> byte_ok id -> subscribed (build l) cls id = wants l cls id.
Proof.
  unfold listener_ok, wants, build. intros H Hc Hi.
  induction (subs l) as [|p ps IH]; [reflexivity|].
  inversion H as [|? ? Hp Hps]; subst. cbn [fold_right existsb].
  rewrite <- IH by assumption. unfold subscribed, subscribe at 1. cbn [ml_keys existsb]. f_equal.
  destruct Hp as [H1 H2]. rewrite !sub_key_val by assumption.
  unfold pair_eqb. cbn [fst snd]. unfold byte_ok in *. lia.
Qed.

Lemma notify_spec ls s :
  Forall listener_ok ls -> byte_ok (mcls s) -> byte_ok (mtyp s) ->
  notify (map build ls) s = calls_for ls (mcls s) (mtyp s) (inbuf s).
Proof.
  intros H Hc Hi. unfold notify, calls_for.
  induction ls as [|l ls IH]; [reflexivity|].
  inversion H as [|? ? Hl Hls]; subst. cbn [map filter].
  rewrite build_subscribed by assumption.
  destruct (wants l (mcls s) (mtyp s)); cbn [map]; rewrite IH by assumption; [|reflexivity].
  rewrite build_id. reflexivity.
Qed.

(* ---------------------------------------------------------------- idle states *)
Definition Idle (s : ubx) : Prop :=
  st s = START /\ start_m s = false /\ length (inbuf s) = 2048%nat /\ length (modname s) = 10%nat.

Definition uninit_ok (u : uninit) : Prop :=
  length (un_inbuf u) = 2048%nat /\ length (un_modname u) = 10%nat.

Lemma init_idle u : uninit_ok u -> Idle (ubx_init u).
Proof. intros [H1 H2]. repeat split; assumption. Qed.

Lemma read_noise ls s b :
  st s = START -> ~ (prev s = 0xB5 /\ b = 0x62) ->
  read_cb ls s b = Ok (w_prev s b, [], false).
Proof.
  intros Hst Hn. unfold read_cb, read_switch. rewrite Hst. unfold START_BYTE_1, START_BYTE_2.
  replace ((b =? 98) && (prev s =? 181)) with false by lia.
  cbn [bind]. rewrite Hst. reflexivity.
Qed.

Lemma w_prev_self s : w_prev s (prev s) = s.
Proof. destruct s; reflexivity. Qed.

Lemma feed_tl ls s t s' outs :
  st s = START -> prev s = 0xB5 ->
  feed ls s (0xB5 :: t) = Ok (s', outs) -> feed ls s t = Ok (s', tl outs).
Proof.
  intros Hst Hp H. cbn [feed] in H. rewrite read_noise in H by (auto; lia).
  cbn [bind] in H. rewrite <- Hp, w_prev_self in H.
  destruct (feed ls s t) as [[s2 o]|k]; cbn [bind] in H; [|discriminate].
  injection H as <- <-. reflexivity.
Qed.
Lemma feed_tl_ub ls s t k :
  st s = START -> prev s = 0xB5 ->
  feed ls s (0xB5 :: t) = UB k -> feed ls s t = UB k.
Proof.
  intros Hst Hp H. cbn [feed] in H. rewrite read_noise in H by (auto; lia).
  cbn [bind] in H. rewrite <- Hp, w_prev_self in H.
  destruct (feed ls s t) as [[s2 o]|k']; cbn [bind] in H; [discriminate|congruence].
Qed.

(* Effect of an item on the state (counters, flags, buffer). *)
Definition item_post (s : ubx) (it : item) (s' : ubx) : Prop :=
  prev s' = item_last it /\
  inbuf s' = item_mem (inbuf s) it /\
  nmsg s' = (if is_good it then u32 (nmsg s + 1) else nmsg s) /\
  nerr s' = (if is_error it then u32 (nerr s + 1) else nerr s) /\
  got_ack s' = got_ack s || is_good_of 5 1 it /\
  got_nack s' = got_nack s || is_good_of 5 0 it /\
  got_ver s' = got_ver s || is_good_of 10 4 it /\
  (is_good_of 10 4 it = false ->
     major s' = major s /\ minor s' = minor s /\ modname s' = modname s).

Lemma item_last_app it l a : item_bytes it = l ++ [a] -> item_last it = a.
Proof. unfold item_last; intros ->. apply last_last. Qed.

Lemma skipn_length_mem (pl mem : list Z) :
  length mem = 2048%nat -> Zlen pl <= 2048 -> length (pl ++ skipn (length pl) mem) = 2048%nat.
Proof. unfold Zlen; intros. rewrite app_length, skipn_length. lia. Qed.

Definition item_bytes_ok (it : item) : Prop := bytes_ok (item_bytes it).

Lemma exec_item ls s it :
  Forall listener_ok ls -> Idle s -> item_ok (prev s) it -> item_bytes_ok it ->
  (exists s', feed (map build ls) s (item_bytes it) = Ok (s', item_outs ls (inbuf s) it)
              /\ Idle s' /\ item_post s it s')
  \/ (is_good_of 10 4 it = true /\ feed (map build ls) s (item_bytes it) = UB UB_cstring).
Proof.
  intros Hls (Hst & Hsm & Hbuf & Hmod) Hok Hby. destruct it as [b|cls id pl|cls id pl ka kb|cls id n].
  - (* noise *)
    left. exists (w_prev s b). cbn [item_bytes feed]. rewrite read_noise by (auto; exact Hok).
    cbn [bind]. repeat split; try (destruct s; cbn in *; auto; fail);
      destruct s; cbn; rewrite orb_false_r; reflexivity.
  - (* good *)
    destruct Hok as [Hp Hlen].
    assert (Hbytes : 0xB5 :: item_bytes (Good cls id pl)
        = raw_frame cls id pl (ck_a_of (ubx_body cls id pl)) (ck_b_of (ubx_body cls id pl)))
      by reflexivity.
    pose proof (feed_frame (map build ls) s cls id pl (ck_a_of (ubx_body cls id pl))
                  (ck_b_of (ubx_body cls id pl)) Hst Hbuf Hlen) as HF.
    cbv zeta in HF. rewrite !Z.eqb_refl in HF. cbn [andb] in HF.
    match type of HF with context [decode_switch ?x] => set (x1 := x) in * end.
    assert (Hx1 : Zlen (inbuf x1) = 2048).
    { unfold x1, full_state. cbn. unfold Zlen. rewrite skipn_length_mem; [reflexivity|assumption|lia]. }
    assert (Hcb : byte_ok cls /\ byte_ok id).
    { unfold item_bytes_ok, bytes_ok, item_bytes, ubx_body in Hby.
      inversion Hby as [|? ? _ H1]; subst. cbn [app] in H1.
      inversion H1 as [|? ? Ha H2]; subst. inversion H2; subst. auto. }
    destruct (decode_switch_cases x1 Hx1 Hmod) as [(x2 & E2 & Hm2)|[E2 Hv]].
    + left. exists (finish_ok x2 (ck_b_of (ubx_body cls id pl))).
      rewrite E2 in HF. cbn [bind] in HF. rewrite <- Hbytes in HF.
      apply feed_tl in HF; [|assumption|assumption].
      apply decode_switch_frame in E2. destruct E2 as [E2 E2v].
      assert (Hn : notify (map build ls) x2 = calls_for ls cls id (pl ++ skipn (length pl) (inbuf s))).
      { rewrite notify_spec; [rewrite E2; reflexivity|assumption|rewrite E2; apply Hcb|rewrite E2; apply Hcb]. }
      rewrite Hn in HF.
      split; [|split].
      * rewrite HF. f_equal. f_equal. unfold item_outs. cbn [item_mem].
        replace (length (item_bytes (Good cls id pl)) - 1)%nat with (6 + length pl)%nat.
        { reflexivity. }
        { apply (f_equal (@length Z)) in Hbytes. rewrite raw_frame_length in Hbytes. cbn [length] in Hbytes. lia. }
      * unfold Idle, finish_ok. cbn. repeat split; [|assumption].
        rewrite E2. unfold x1. cbn. apply skipn_length_mem; [assumption|lia].
      * unfold item_post. cbn [is_good is_error is_good_of item_mem].
        repeat split; try (unfold finish_ok; cbn; rewrite E2; reflexivity).
        -- change (prev (finish_ok x2 (ck_b_of (ubx_body cls id pl)))) with (ck_b_of (ubx_body cls id pl)).
           symmetry.
           apply item_last_app with (l := 98 :: ubx_body cls id pl ++ [ck_a_of (ubx_body cls id pl)]).
           cbn [item_bytes app]. rewrite <- app_assoc. reflexivity.
        -- unfold finish_ok; cbn. apply E2v; assumption.
        -- unfold finish_ok; cbn. apply E2v; assumption.
        -- unfold finish_ok; cbn. apply E2v; assumption.
    + right. split; [exact Hv|]. rewrite E2 in HF. cbn [bind] in HF. rewrite <- Hbytes in HF.
      apply feed_tl_ub in HF; assumption.
  - (* bad *)
    left. destruct Hok as (Hp & Hlen & Hne).
    assert (Hbytes : 0xB5 :: item_bytes (Bad cls id pl ka kb) = raw_frame cls id pl ka kb) by reflexivity.
    pose proof (feed_frame (map build ls) s cls id pl ka kb Hst Hbuf Hlen) as HF.
    cbv zeta in HF.
    replace ((ck_a_of (ubx_body cls id pl) =? ka) && (ck_b_of (ubx_body cls id pl) =? kb)) with false in HF.
    2:{ symmetry. apply andb_false_iff.
        destruct (Z.eqb_spec (ck_a_of (ubx_body cls id pl)) ka) as [<-|]; [|auto].
        destruct (Z.eqb_spec (ck_b_of (ubx_body cls id pl)) kb) as [<-|]; [|auto]. congruence. }
    rewrite <- Hbytes in HF. apply feed_tl in HF; [|assumption|assumption].
    exists (finish_bad (full_state s cls id pl ka kb ka) kb).
    split; [|split].
    + rewrite HF. f_equal. f_equal. unfold item_outs.
      replace (length (item_bytes (Bad cls id pl ka kb))) with (7 + length pl)%nat.
      { reflexivity. }
      { apply (f_equal (@length Z)) in Hbytes. rewrite raw_frame_length in Hbytes. cbn [length] in Hbytes. lia. }
    + unfold Idle, finish_bad. cbn. repeat split; [|assumption].
      apply skipn_length_mem; [assumption|lia].
    + unfold item_post. cbn [is_good is_error is_good_of item_mem]. rewrite !orb_false_r.
      repeat split. change (kb = item_last (Bad cls id pl ka kb)). symmetry.
      apply item_last_app with (l := 98 :: ubx_body cls id pl ++ [ka]).
      cbn [item_bytes app]. rewrite <- app_assoc. reflexivity.
  - (* oversize *)
    left. destruct Hok as [Hp Hn].
    pose proof (feed_oversize (map build ls) s cls id n Hst Hn) as HF.
    change (header cls id n) with (0xB5 :: item_bytes (Oversize cls id n)) in HF.
    apply feed_tl in HF; [|assumption|assumption].
    eexists. split; [exact HF|]. split.
    + unfold Idle. cbn. auto.
    + unfold item_post. cbn. rewrite !orb_false_r. repeat split.
Qed.

(* ---------------------------------------------------------------- sequences of items *)
Definition no_ver (its : list item) : Prop := count (is_good_of 10 4) its = 0.

Definition items_post (s : ubx) (its : list item) (s' : ubx) : Prop :=
  prev s' = items_last (prev s) its /\
  inbuf s' = items_mem (inbuf s) its /\
  nmsg s' = (nmsg s + count is_good its) mod 2 ^ 32 /\
  nerr s' = (nerr s + count is_error its) mod 2 ^ 32 /\
  got_ack s' = got_ack s || (0 <? count (is_good_of 5 1) its) /\
  got_nack s' = got_nack s || (0 <? count (is_good_of 5 0) its) /\
  got_ver s' = got_ver s || (0 <? count (is_good_of 10 4) its) /\
  (no_ver its -> major s' = major s /\ minor s' = minor s /\ modname s' = modname s).

Lemma count_cons f it its : count f (it :: its) = (if f it then 1 else 0) + count f its.
Proof. unfold count. cbn [filter]. destruct (f it); [rewrite Zlen_cons|]; lia. Qed.
Lemma count_nonneg f its : 0 <= count f its.
Proof. apply Zlen_nonneg. Qed.

Definition small_counters (s : ubx) : Prop := 0 <= nmsg s < 2 ^ 32 /\ 0 <= nerr s < 2 ^ 32.

Lemma exec_items ls its : forall s,
  Forall listener_ok ls -> Idle s -> small_counters s ->
  items_ok (prev s) its -> bytes_ok (items_bytes its) ->
  (exists s', feed (map build ls) s (items_bytes its) = Ok (s', items_outs ls (inbuf s) its)
              /\ Idle s' /\ small_counters s' /\ items_post s its s')
  \/ (0 < count (is_good_of 10 4) its /\ feed (map build ls) s (items_bytes its) = UB UB_cstring).
Proof.
  induction its as [|it its IH]; intros s Hls Hid Hsm Hok Hby.
  - left. exists s. cbn [items_bytes flat_map feed]. split; [reflexivity|]. split; [assumption|].
    split; [assumption|].
    destruct Hsm. unfold items_post, count, no_ver. cbn. rewrite !Z.add_0_r, !orb_false_r, !Z.mod_small by lia.
    repeat split.
  - destruct Hok as [Hok1 Hok2]. unfold items_bytes in *. cbn [flat_map] in *.
    apply bytes_ok_app in Hby. destruct Hby as [Hb1 Hb2].
    rewrite feed_app.
    destruct (exec_item ls s it Hls Hid Hok1 Hb1) as [(s1 & E1 & Hid1 & HP)|[Hv E1]].
    + rewrite E1. cbn [bind].
      destruct HP as (P1 & P2 & P3 & P4 & P5 & P6 & P7 & P8).
      assert (Hsm1 : small_counters s1).
      { unfold small_counters in *. rewrite P3, P4. unfold u32.
        destruct (is_good it), (is_error it); lia. }
      destruct (IH s1 Hls Hid1 Hsm1) as [(s2 & E2 & Hid2 & Hsm2 & HQ)|[Hv E2]].
      * rewrite P1. exact Hok2.
      * exact Hb2.
      * left. exists s2. rewrite E2. cbn [bind]. split; [cbn [items_outs]; rewrite P2; reflexivity|].
        split; [assumption|]. split; [assumption|].
        destruct HQ as (Q1 & Q2 & Q3 & Q4 & Q5 & Q6 & Q7 & Q8).
        unfold items_post. rewrite !count_cons.
        rewrite Q1, Q2, Q3, Q4, Q5, Q6, Q7, P1, P2, P3, P4, P5, P6, P7.
        pose proof (count_nonneg (is_good_of 5 1) its). pose proof (count_nonneg (is_good_of 5 0) its).
        pose proof (count_nonneg (is_good_of 10 4) its).
        split; [reflexivity|]. split; [reflexivity|].
        split. { unfold u32. destruct (is_good it); [rewrite Zplus_mod_idemp_l|]; f_equal; lia. }
        split. { unfold u32. destruct (is_error it); [rewrite Zplus_mod_idemp_l|]; f_equal; lia. }
        split. { rewrite <- orb_assoc. f_equal. destruct (is_good_of 5 1 it); cbn [orb]; lia. }
        split. { rewrite <- orb_assoc. f_equal. destruct (is_good_of 5 0 it); cbn [orb]; lia. }
        split. { rewrite <- orb_assoc. f_equal. destruct (is_good_of 10 4 it); cbn [orb]; lia. }
        intros Hnv. unfold no_ver in Hnv. rewrite count_cons in Hnv.
        destruct (is_good_of 10 4 it); [lia|].
        destruct P8 as (A1 & A2 & A3); [reflexivity|].
        destruct Q8 as (B1 & B2 & B3); [unfold no_ver; lia|].
        rewrite B1, B2, B3. auto.
      * right. rewrite E2. cbn [bind]. split; [|reflexivity]. rewrite count_cons.
        destruct (is_good_of 10 4 it); lia.
    + right. rewrite E1. cbn [bind]. split; [|reflexivity]. rewrite count_cons, Hv.
      pose proof (count_nonneg (is_good_of 10 4) its). lia.
Qed.

(* ---------------------------------------------------------------- the unfinished tail *)
Lemma feed_prefix_ok ls a b : forall s s' outs,
  feed ls s (a ++ b) = Ok (s', outs) ->
  exists s1, feed ls s a = Ok (s1, firstn (length a) outs).
Proof.
  induction a as [|x a IH]; intros s s' outs H; cbn [app feed] in *.
  - exists s. reflexivity.
  - destruct (read_cb ls s x) as [[[s1 c] ok]|k]; cbn [bind] in *; [|discriminate].
    destruct (feed ls s1 (a ++ b)) as [[s2 o]|k] eqn:E; cbn [bind] in *; [|discriminate].
    injection H as <- <-. destruct (IH _ _ _ E) as (s3 & E3). rewrite E3. cbn [bind length firstn]. eauto.
Qed.

Lemma last_indep {A} (x : A) l d d' : last (x :: l) d = last (x :: l) d'.
Proof. revert x; induction l as [|y l IH]; intros x; [reflexivity|]. cbn [last] in *. apply IH. Qed.

Lemma feed_zero_stuck ls s : forall bs,
  st s = GOT_LENGTH2 -> mlen s = 0 -> head s = 0 ->
  feed ls s bs = Ok (w_prev s (last bs (prev s)), quiet (length bs)).
Proof.
  intros bs. revert s. induction bs as [|b bs IH]; intros s H1 H2 H3; cbn [feed].
  - cbn. rewrite w_prev_self. reflexivity.
  - unfold read_cb, read_switch. rewrite H1, H2, H3, Z.ltb_irrefl. cbn [bind]. rewrite H1. cbn [is_ckb bind].
    rewrite (IH (w_prev s b)); [|destruct s; assumption..].
    cbn [bind length]. unfold quiet. cbn [repeat]. f_equal. f_equal.
    destruct bs; [destruct s; reflexivity|].
    change (last (b :: z :: bs) (prev s)) with (last (z :: bs) (prev s)).
    rewrite (last_indep z bs (prev (w_prev s b)) (prev s)). destruct s; reflexivity.
Qed.

Definition tail_post (s s' : ubx) : Prop :=
  nmsg s' = nmsg s /\ nerr s' = nerr s /\ got_ack s' = got_ack s /\ got_nack s' = got_nack s /\
  got_ver s' = got_ver s /\ major s' = major s /\ minor s' = minor s /\ modname s' = modname s /\
  length (inbuf s') = length (inbuf s).

Lemma feed_payload_part ls s cls id n : forall pl done old pv,
  Zlen done + Zlen pl < n -> n <= Zlen (done ++ old) -> n < 65536 ->
  feed ls (pay_state s cls id n (Zlen done) (done ++ old) pv) pl
  = Ok (pay_state s cls id n (Zlen done + Zlen pl) (done ++ pl ++ skipn (length pl) old) (last pl pv),
        quiet (length pl)).
Proof.
  induction pl as [|x pl IH]; intros done old pv Hn Hle Hlt.
  - change (Zlen (@nil Z)) with 0. rewrite Z.add_0_r. reflexivity.
  - rewrite Zlen_cons in Hn. rewrite Zlen_app in Hle.
    pose proof (Zlen_nonneg pl); pose proof (Zlen_nonneg done).
    destruct old as [|y old]; [rewrite Zlen_nil in Hle; lia|].
    cbn [feed]. rewrite read_pay by lia. cbn [bind].
    replace (Zlen done =? n - 1) with false by lia.
    replace (Zlen done + 1) with (Zlen (done ++ [x]))
      by (rewrite Zlen_app, Zlen_cons, Zlen_nil; lia).
    replace (done ++ x :: old) with ((done ++ [x]) ++ old) by (rewrite <- app_assoc; reflexivity).
    rewrite IH; [| rewrite Zlen_app, !Zlen_cons, Zlen_nil; lia
                 | rewrite !Zlen_app, !Zlen_cons in *; rewrite ?Zlen_nil; lia | lia].
    cbn [bind]. rewrite <- app_assoc, Zlen_app, !Zlen_cons, Zlen_nil. f_equal. f_equal.
    replace (Zlen done + (1 + 0) + Zlen pl) with (Zlen done + (1 + Zlen pl)) by lia.
    destruct pl; [reflexivity|].
    change (last (x :: z :: pl) pv) with (last (z :: pl) pv).
    rewrite (last_indep z pl x pv). reflexivity.
Qed.

(* the goal of the four tail cases, stated on the stream with its leading B5 *)
Definition tail_goal ls s x : Prop :=
  exists s', feed ls s (0xB5 :: 0x62 :: x) = Ok (s', quiet (S (S (length x)))) /\
    tail_post s s' /\ parsing_message s' = true /\ st s' <> START.

Lemma tail_short ls s r : st s = START -> Zlen r < 4 -> tail_goal ls s r.
Proof.
  intros Hst Hr.
  assert (Hshort : r = [] \/ (exists a, r = [a]) \/ (exists a b, r = [a; b]) \/ (exists a b c, r = [a; b; c])).
  { destruct r as [|a [|b [|c [|d r]]]]; eauto 10.
    exfalso. rewrite !Zlen_cons in Hr. pose proof (Zlen_nonneg r). lia. }
  clear Hr. destruct s; cbn in Hst; subst.
  destruct Hshort as [->|[(a & ->)|[(a & b & ->)|(a & b & c & ->)]]];
    (eexists; split; [cbv; reflexivity|]; split; [repeat split|]; split; [reflexivity|discriminate]).
Qed.

Lemma hdr_app cls id n rest :
  0xB5 :: 0x62 :: [cls; id; n mod 256; n / 256] ++ rest = header cls id n ++ rest.
Proof. reflexivity. Qed.

Lemma tail_zero ls s cls id rest :
  st s = START -> tail_goal ls s ([cls; id; 0 mod 256; 0 / 256] ++ rest).
Proof.
  intros Hst. unfold tail_goal. rewrite hdr_app.
  eexists. split; [|split; [|split]].
  - rewrite feed_app, feed_header by (assumption || lia). cbn [bind].
    rewrite feed_zero_stuck by reflexivity. cbn [bind]. rewrite quiet_app. 
    replace (S (S (length ([cls; id; 0 mod 256; 0 / 256] ++ rest)))) with (6 + length rest)%nat
      by (rewrite app_length; reflexivity).
    reflexivity.
  - repeat split.
  - reflexivity.
  - discriminate.
Qed.

Lemma tail_part ls s cls id n rest :
  st s = START -> n <= Zlen (inbuf s) -> 0 < n <= 2048 -> Zlen rest < n ->
  tail_goal ls s ([cls; id; n mod 256; n / 256] ++ rest).
Proof.
  intros Hst Hbuf Hn Hr. unfold tail_goal. rewrite hdr_app.
  eexists. split; [|split; [|split]].
  - rewrite feed_app, feed_header by (assumption || lia). cbn [bind].
    pose proof (feed_payload_part ls s cls id n rest [] (inbuf s) (n / 256)) as HP.
    rewrite Zlen_nil in HP. cbn [app] in HP. rewrite HP by lia. cbn [bind]. rewrite quiet_app.
    replace (S (S (length ([cls; id; n mod 256; n / 256] ++ rest)))) with (6 + length rest)%nat
      by (rewrite app_length; reflexivity).
    reflexivity.
  - repeat split. unfold pay_state. cbn [inbuf]. rewrite app_length, skipn_length.
    unfold Zlen in *. lia.
  - reflexivity.
  - discriminate.
Qed.

Lemma tail_full ls s cls id n pl e :
  st s = START -> n <= Zlen (inbuf s) -> 0 < n <= 2048 -> Zlen pl = n -> (e = [] \/ exists ka, e = [ka]) ->
  tail_goal ls s ([cls; id; n mod 256; n / 256] ++ pl ++ e).
Proof.
  intros Hst Hbuf Hn Hpl He. unfold tail_goal. rewrite hdr_app.
  assert (HH2 : feed ls s (header cls id n ++ pl)
           = Ok (mid_state s GOT_PAYLOAD cls id n 0 (pl ++ skipn (length pl) (inbuf s)) (last pl 0),
                 quiet (6 + length pl))).
  { rewrite feed_app, feed_header by (assumption || lia). cbn [bind].
    pose proof (feed_payload ls s cls id n pl [] (inbuf s) (n / 256)) as HP.
    rewrite Zlen_nil in HP. cbn [app] in HP.
    rewrite HP; [|intros E; rewrite E, Zlen_nil in Hpl; lia|lia|lia|lia].
    cbn [bind]. rewrite quiet_app. reflexivity. }
  assert (HL : length (pl ++ skipn (length pl) (inbuf s)) = length (inbuf s)).
  { rewrite app_length, skipn_length. unfold Zlen in *. lia. }
  replace (S (S (length ([cls; id; n mod 256; n / 256] ++ pl ++ e)))) with (6 + length pl + length e)%nat
    by (rewrite !app_length; cbn [length]; lia).
  rewrite app_assoc, feed_app, HH2. cbn [bind].
  destruct He as [->|(ka & ->)].
  - eexists. split; [cbn [feed bind]; rewrite app_nil_r; cbn [length]; rewrite Nat.add_0_r; reflexivity|].
    split; [repeat split; exact HL|]. split; [reflexivity|discriminate].
  - eexists. split.
    + cbn [feed]. rewrite read_ck1. cbn [bind]. change [([] : list call, false)] with (quiet 1).
      rewrite quiet_app. reflexivity.
    + split; [repeat split; exact HL|]. split; [reflexivity|discriminate].
Qed.

Lemma exec_tail ls s t :
  Idle s -> tail_ok (prev s) t -> bytes_ok t ->
  exists s', feed ls s t = Ok (s', quiet (length t)) /\ tail_post s s' /\
    (t = [] -> s' = s) /\ (t <> [] -> parsing_message s' = true /\ st s' <> START).
Proof.
  intros (Hst & Hsm & Hbuf & Hmod) [->|(Hp & r & -> & Hr)] Hby.
  { exists s. repeat split; congruence. }
  assert (HB : Zlen (inbuf s) = 2048) by (unfold Zlen; rewrite Hbuf; reflexivity). clear Hbuf Hby.
  assert (HG : tail_goal ls s r).
  { destruct Hr as [Hr|(cls & id & n & rest & -> & Hn & Hrest)]; [apply tail_short; assumption|].
    destruct (Z.eq_dec n 0) as [->|Hn0]; [apply tail_zero; assumption|].
    destruct Hrest as [Hrest|Hrest]; [contradiction|].
    destruct (Z.lt_ge_cases (Zlen rest) n) as [Hlt|Hge]; [apply tail_part; try assumption; lia|].
    rewrite <- (firstn_skipn (Z.to_nat n) rest).
    apply tail_full; try assumption; try lia.
    - unfold Zlen in *. rewrite firstn_length. lia.
    - assert (Hel : (length (skipn (Z.to_nat n) rest) <= 1)%nat) by (rewrite skipn_length; unfold Zlen in *; lia).
      destruct (skipn (Z.to_nat n) rest) as [|ka [|kb e]]; [auto|eauto|cbn in Hel; lia]. }
  destruct HG as (s' & E & HP & H1 & H2).
  apply feed_tl in E; [|assumption|assumption].
  exists s'. rewrite E. split; [reflexivity|]. split; [assumption|]. split; [discriminate|auto].
Qed.

(* ---------------------------------------------------------------- every stream has a segmentation *)
Lemma items_last_cons p it its : items_last p (it :: its) = items_last (item_last it) its.
Proof. reflexivity. Qed.

Theorem segmentation : forall stream p, bytes_ok stream ->
  exists its t, stream = items_bytes its ++ t /\ items_ok p its /\ tail_ok (items_last p its) t.
Proof.
  intros stream. remember (length stream) as k eqn:Hk.
  assert (Hle : (length stream <= k)%nat) by lia. clear Hk. revert stream Hle.
  induction k as [|k IH]; intros stream Hle p Hby.
  { destruct stream; [|cbn in Hle; lia]. exists [], []. repeat split. left; reflexivity. }
  destruct stream as [|b r]; [exists [], []; repeat split; left; reflexivity|].
  cbn [length] in Hle.
  inversion Hby as [|? ? Hb Hr]; subst.
  assert (Hcons : forall it rest, b :: r = item_bytes it ++ rest -> item_ok p it -> 
    (length rest <= k)%nat -> bytes_ok rest ->
    exists its t, b :: r = items_bytes its ++ t /\ items_ok p its /\ tail_ok (items_last p its) t).
  { intros it rest E Hok Hlen Hrest.
    destruct (IH rest Hlen (item_last it) Hrest) as (its & t & E2 & H2 & H3).
    exists (it :: its), t. unfold items_bytes in *. cbn [flat_map]. rewrite <- app_assoc, <- E2.
    split; [exact E|]. split; [split; assumption|exact H3]. }
  destruct (Z.eq_dec p 0xB5) as [Hp|Hp]; [destruct (Z.eq_dec b 0x62) as [Hb62|Hb62]|].
  2:{ apply (Hcons (Noise b) r); [reflexivity|cbn; lia|lia|assumption]. }
  2:{ apply (Hcons (Noise b) r); [reflexivity|cbn; lia|lia|assumption]. }
  subst b.
  destruct (Z.lt_ge_cases (Zlen r) 4) as [H4|H4].
  { exists [], (0x62 :: r). split; [reflexivity|]. split; [exact I|]. right. split; [exact Hp|].
    exists r. auto. }
  destruct r as [|cls [|id [|lo [|hi rest]]]];
    try (exfalso; rewrite ?Zlen_cons, ?Zlen_nil in H4; lia).
  inversion Hr as [|? ? Hc Hr1]; subst. inversion Hr1 as [|? ? Hi Hr2]; subst.
  inversion Hr2 as [|? ? Hlo Hr3]; subst. inversion Hr3 as [|? ? Hhi Hr4]; subst.
  cbn [length] in Hle.
  set (n := lo + 256 * hi).
  assert (Elo : n mod 256 = lo) by (unfold n, byte_ok in *; lia).
  assert (Ehi : n / 256 = hi) by (unfold n, byte_ok in *; lia).
  assert (Hn : 0 <= n < 65536) by (unfold n, byte_ok in *; lia).
  destruct (Z.lt_ge_cases 2048 n) as [Hbig|Hsmall].
  { apply (Hcons (Oversize cls id n) rest).
    - cbn [item_bytes app]. rewrite Elo, Ehi. reflexivity.
    - cbn. lia.
    - lia.
    - assumption. }
  destruct (Z.eq_dec n 0) as [Hn0|Hn0].
  { exists [], (0x62 :: cls :: id :: lo :: hi :: rest). split; [reflexivity|]. split; [exact I|].
    right. split; [reflexivity|]. eexists; split; [reflexivity|]. right.
    exists cls, id, n, rest. rewrite Elo, Ehi. split; [reflexivity|]. split; [lia|auto]. }
  destruct (Z.lt_ge_cases (Zlen rest) (n + 2)) as [Hsh|Hlong].
  { exists [], (0x62 :: cls :: id :: lo :: hi :: rest). split; [reflexivity|]. split; [exact I|].
    right. split; [reflexivity|]. eexists; split; [reflexivity|]. right.
    exists cls, id, n, rest. rewrite Elo, Ehi. split; [reflexivity|]. split; [lia|auto]. }
  clearbody n.
  set (pl := firstn (Z.to_nat n) rest).
  assert (Hpl : Zlen pl = n) by (unfold pl, Zlen in *; rewrite firstn_length; lia).
  assert (Hsp : rest = pl ++ skipn (Z.to_nat n) rest) by (symmetry; apply firstn_skipn).
  assert (Hl2 : (2 <= length (skipn (Z.to_nat n) rest))%nat)
    by (rewrite skipn_length; unfold Zlen in *; lia).
  destruct (skipn (Z.to_nat n) rest) as [|ka [|kb rest']] eqn:Esk; [cbn in Hl2; lia|cbn in Hl2; lia|].
  assert (Hrest' : bytes_ok rest').
  { rewrite Hsp in Hr4. apply bytes_ok_app in Hr4. destruct Hr4 as [_ Hr4].
    apply (bytes_ok_app [ka; kb] rest'). exact Hr4. }
  assert (Hlen' : (length rest' <= k)%nat).
  { rewrite Hsp, app_length in Hle. cbn [length] in Hle. lia. }
  assert (Ebody : ubx_body cls id pl = [cls; id; lo; hi] ++ pl)
    by (unfold ubx_body; rewrite Hpl, Elo, Ehi; reflexivity).
  destruct (Z.eq_dec ka (ck_a_of (ubx_body cls id pl))) as [Ea|Ea];
    [destruct (Z.eq_dec kb (ck_b_of (ubx_body cls id pl))) as [Eb|Eb]|].
  - apply (Hcons (Good cls id pl) rest').
    + cbn [item_bytes]. rewrite <- Ea, <- Eb, Ebody. cbn [app]. rewrite <- app_assoc. cbn [app].
      rewrite <- Hsp. reflexivity.
    + cbn. lia.
    + exact Hlen'.
    + exact Hrest'.
  - apply (Hcons (Bad cls id pl ka kb) rest').
    + cbn [item_bytes]. rewrite Ebody. cbn [app]. rewrite <- app_assoc. cbn [app].
      rewrite <- Hsp. reflexivity.
    + unfold item_ok. split; [reflexivity|]. split; [lia|].
      intros E; apply pair_equal_spec in E; destruct E; contradiction.
    + exact Hlen'.
    + exact Hrest'.
  - apply (Hcons (Bad cls id pl ka kb) rest').
    + cbn [item_bytes]. rewrite Ebody. cbn [app]. rewrite <- app_assoc. cbn [app].
      rewrite <- Hsp. reflexivity.
    + unfold item_ok. split; [reflexivity|]. split; [lia|].
      intros E; apply pair_equal_spec in E; destruct E; contradiction.
    + exact Hlen'.
    + exact Hrest'.
Qed.
