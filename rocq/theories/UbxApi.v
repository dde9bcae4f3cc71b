(* UBX receive properties over every reader history (Reach); lemmas used by Properties_Ubx. *)
From Verif Require Import Base ZBits UbxSpec UbxModel UbxProofs UbxStream UbxMain UbxMore UbxVersion UbxHist.

(* A MON-VER message whose decoding over-reads a character array (see UbxVersion). *)
Definition monver_unsafe (msg oldname : list Z) : Prop :=
  (exists i, 0 <= i < 20 /\ slot_overread msg i) \/ name_unterminated msg oldname.

(* the message structure after a frame with payload pl *)
Definition overlay (pl mem : list Z) : list Z := pl ++ skipn (length pl) mem.

Lemma frame_post ls s cls id pl :
  Forall listener_ok ls -> Idle s -> byte_ok cls -> byte_ok id -> ubx_payload_ok pl ->
  ((cls, id) = (10, 4) -> ~ monver_unsafe (overlay pl (inbuf s)) (modname s)) ->
  exists s', feed (map build ls) s (ubx_frame cls id pl)
      = Ok (s', quiet (7 + length pl) ++ [(calls_for ls cls id (overlay pl (inbuf s)), true)])
    /\ Idle s' /\ inbuf s' = overlay pl (inbuf s)
    /\ nmsg s' = u32 (nmsg s + 1) /\ nerr s' = nerr s
    /\ got_ack s' = got_ack s || ((cls =? 5) && (id =? 1))
    /\ got_nack s' = got_nack s || ((cls =? 5) && (id =? 0))
    /\ got_ver s' = got_ver s || ((cls =? 10) && (id =? 4))
    /\ ((cls, id) <> (10, 4) -> major s' = major s /\ minor s' = minor s /\ modname s' = modname s).
Proof.
  intros Hls Hid Hc Hi [Hl Hpl] Hsafe.
  assert (Hid2 : Idle (w_prev s 0xB5)) by (destruct Hid as (? & ? & ? & ?); repeat split; assumption).
  assert (Hok : item_ok (prev (w_prev s 0xB5)) (Good cls id pl)) by (split; [reflexivity|exact Hl]).
  assert (Hby : item_bytes_ok (Good cls id pl)).
  { unfold item_bytes_ok, bytes_ok. cbn [item_bytes]. constructor; [unfold byte_ok; lia|].
    apply Forall_app. split.
    - unfold ubx_body. repeat (constructor; [unfold byte_ok in *; lia|]). exact Hpl.
    - constructor; [|constructor; [|constructor]]; unfold ck_a_of, ck_b_of, byte_ok; lia. }
  assert (Hfirst : read_cb (map build ls) s 0xB5 = Ok (w_prev s 0xB5, [], false)).
  { apply read_noise; [apply Hid|lia]. }
  assert (EF : feed (map build ls) s (ubx_frame cls id pl) = feed (map build ls) s (0xB5 :: item_bytes (Good cls id pl))) by reflexivity.
  cbn [feed] in EF. rewrite Hfirst in EF. cbn [bind] in EF.
  destruct (exec_item ls _ _ Hls Hid2 Hok Hby) as [(s' & E & Hid' & HP)|[Hv E]]; rewrite E in EF; cbn [bind] in EF.
  - exists s'. destruct HP as (_ & P2 & P3 & P4 & P5 & P6 & P7 & P8). cbn [is_good is_error is_good_of] in P3, P4, P5, P6, P7, P8.
    split; [|].
    + rewrite EF. f_equal. f_equal. unfold item_outs.
      replace (length (item_bytes (Good cls id pl)) - 1)%nat with (6 + length pl)%nat
        by (cbn [item_bytes]; unfold ubx_body; cbn [app length]; rewrite app_length; cbn [length]; lia).
      reflexivity.
    + split; [exact Hid'|]. split; [exact P2|]. split; [exact P3|]. split; [exact P4|]. split; [exact P5|].
      split; [exact P6|]. split; [exact P7|]. intros Hne. apply P8.
      destruct ((cls =? 10) && (id =? 4)) eqn:EE; [|reflexivity]. exfalso. apply Hne. f_equal; lia.
  - exfalso. cbn [is_good_of] in Hv. assert (cls = 10) by lia. assert (id = 4) by lia. subst cls id.
    destruct (monver_frame ls s pl Hls Hid (conj Hl Hpl)) as [(s' & outs & E' & _)|[_ HU]].
    + rewrite E' in EF. discriminate.
    + exact (Hsafe eq_refl HU).
Qed.

Lemma ls_frame u s ls cls id pl :
  uninit_ok u -> Reach u s -> parsing_message s = false ->
  Forall listener_ok ls -> byte_ok cls -> byte_ok id -> ubx_payload_ok pl ->
  ((cls, id) = (10, 4) -> ~ monver_unsafe (overlay pl (inbuf s)) (modname s)) ->
  exists s', feed (map build ls) s (ubx_frame cls id pl)
      = Ok (s', quiet (7 + length pl) ++ [(calls_for ls cls id (overlay pl (inbuf s)), true)])
    /\ parsing_message s' = false /\ inbuf s' = overlay pl (inbuf s).
Proof.
  intros Hu HR HP Hls Hc Hi Hpl Hs. apply (reach_idle_iff u s Hu HR) in HP.
  destruct (frame_post ls s cls id pl Hls HP Hc Hi Hpl Hs) as (s' & E & Hid & HB & _).
  exists s'. split; [exact E|]. split; [apply idle_not_parsing; exact Hid|exact HB].
Qed.

Lemma ls_stream u s ls cs :
  uninit_ok u -> Reach u s -> parsing_message s = false ->
  Forall listener_ok ls -> chunks_ok (prev s) cs ->
  (exists s' outs, feed (map build ls) s (chunks_bytes cs) = Ok (s', outs) /\ parsing_message s' = false /\
      Forall2 (delivered ls) (chunk_frames cs) (deliveries outs) /\ stray_calls outs = [])
  \/ ((exists pl, In (10, 4, pl) (chunk_frames cs)) /\ feed (map build ls) s (chunks_bytes cs) = UB UB_cstring).
Proof.
  intros Hu HR HP Hls Hok. apply (reach_idle_iff u s Hu HR) in HP.
  destruct (chunks_delivered ls s cs Hls HP (reach_small u s Hu HR) Hok) as [(s' & o & E & Hid & H1 & H2)|H]; [left|right; exact H].
  exists s', o. split; [exact E|]. split; [apply idle_not_parsing; exact Hid|]. auto.
Qed.

Lemma ls_oversize u s ls cls id n :
  uninit_ok u -> Reach u s -> parsing_message s = false -> 2048 < n < 65536 ->
  exists s', feed (map build ls) s [0xB5; 0x62; cls; id; n mod 256; n / 256] = Ok (s', quiet 6) /\
    parsing_message s' = false /\ nerr s' = u32 (nerr s + 1) /\ nmsg s' = nmsg s /\ inbuf s' = inbuf s.
Proof.
  intros Hu HR HP Hn. apply (reach_idle_iff u s Hu HR) in HP.
  destruct (oversize_rejected (map build ls) s cls id n HP Hn) as (s' & E & Hid & H).
  exists s'. split; [exact E|]. split; [apply idle_not_parsing; exact Hid|exact H].
Qed.

(* an oversized header or a corrupt frame, then a good one *)
Lemma oversize_then_frame u s ls c0 i0 n cls id pl :
  uninit_ok u -> Reach u s -> parsing_message s = false -> 2048 < n < 65536 ->
  Forall listener_ok ls -> byte_ok cls -> byte_ok id -> ubx_payload_ok pl -> (cls, id) <> (10, 4) ->
  exists s', feed (map build ls) s ([0xB5; 0x62; c0; i0; n mod 256; n / 256] ++ ubx_frame cls id pl)
      = Ok (s', quiet 6 ++ quiet (7 + length pl) ++ [(calls_for ls cls id (overlay pl (inbuf s)), true)])
    /\ parsing_message s' = false /\ nerr s' = u32 (nerr s + 1) /\ nmsg s' = u32 (nmsg s + 1).
Proof.
  intros Hu HR HP Hn Hls Hc Hi Hpl Hne. apply (reach_idle_iff u s Hu HR) in HP.
  destruct (oversize_rejected (map build ls) s c0 i0 n HP Hn) as (s1 & E1 & Hid1 & N1 & M1 & B1).
  destruct (frame_post ls s1 cls id pl Hls Hid1 Hc Hi Hpl) as (s2 & E2 & Hid2 & _ & M2 & N2 & _); [intros; contradiction|].
  exists s2. rewrite feed_app, E1. cbn [bind]. rewrite E2. cbn [bind]. rewrite B1.
  split; [reflexivity|]. split; [apply idle_not_parsing; exact Hid2|]. split; congruence.
Qed.

Lemma bad_then_frame u s ls c0 i0 pl0 ka kb cls id pl :
  uninit_ok u -> Reach u s -> parsing_message s = false -> 1 <= Zlen pl0 <= 2048 ->
  (ka, kb) <> (ck_a_of (ubx_body c0 i0 pl0), ck_b_of (ubx_body c0 i0 pl0)) ->
  Forall listener_ok ls -> byte_ok cls -> byte_ok id -> ubx_payload_ok pl -> (cls, id) <> (10, 4) ->
  exists s1 s', feed (map build ls) s ([0xB5; 0x62] ++ ubx_body c0 i0 pl0 ++ [ka; kb]) = Ok (s1, quiet (8 + length pl0))
    /\ parsing_message s1 = false /\ nerr s1 = u32 (nerr s + 1) /\ nmsg s1 = nmsg s
    /\ feed (map build ls) s1 (ubx_frame cls id pl)
       = Ok (s', quiet (7 + length pl) ++ [(calls_for ls cls id (overlay pl (inbuf s1)), true)])
    /\ parsing_message s' = false /\ nerr s' = nerr s1 /\ nmsg s' = u32 (nmsg s1 + 1).
Proof.
  intros Hu HR HP Hn Hk Hls Hc Hi Hpl Hne. apply (reach_idle_iff u s Hu HR) in HP.
  destruct (bad_frame_rejected (map build ls) s c0 i0 pl0 ka kb HP Hn Hk) as (s1 & E1 & Hid1 & N1 & M1).
  destruct (frame_post ls s1 cls id pl Hls Hid1 Hc Hi Hpl) as (s2 & E2 & Hid2 & _ & M2 & N2 & _); [intros; contradiction|].
  exists s1, s2. split; [exact E1|]. split; [apply idle_not_parsing; exact Hid1|]. split; [exact N1|]. split; [exact M1|].
  split; [exact E2|]. split; [apply idle_not_parsing; exact Hid2|]. auto.
Qed.

Lemma zero_blocks u s ls cls id bs :
  uninit_ok u -> Reach u s -> parsing_message s = false ->
  exists s', feed (map build ls) s ([0xB5; 0x62; cls; id; 0; 0] ++ bs) = Ok (s', quiet (6 + length bs)) /\
    parsing_message s' = true /\ nerr s' = nerr s /\ nmsg s' = nmsg s.
Proof.
  intros Hu HR HP. apply (reach_idle_iff u s Hu HR) in HP. apply zero_length_blocks. exact HP.
Qed.

Lemma corrupt_pair u s ls cls id pl x a b a' b' y :
  uninit_ok u -> Reach u s -> parsing_message s = false ->
  Forall listener_ok ls -> ubx_payload_ok pl ->
  byte_ok a -> byte_ok b -> byte_ok a' -> byte_ok b' ->
  ubx_frame cls id pl = [0xB5; 0x62] ++ x ++ [a; b] ++ y ->
  (a, b) <> (a', b') ->
  firstn 2 (skipn 2 (x ++ [a'; b'] ++ y)) = [Zlen pl mod 256; Zlen pl / 256] ->
  exists s', feed (map build ls) s ([0xB5; 0x62] ++ x ++ [a'; b'] ++ y)
             = Ok (s', quiet (8 + length pl)) /\ parsing_message s' = false.
Proof.
  intros Hu HR HP. apply (reach_idle_iff u s Hu HR) in HP. intros Hls Hpl Ha Hb Ha' Hb' E Hne HL. exact (corrupt_pair_rejected ls s cls id pl x a b a' b' y Hls HP Hpl Ha Hb Ha' Hb' E Hne HL).
Qed.

(* single byte *)
Lemma corrupt_byte u s ls cls id pl x a a' y :
  uninit_ok u -> Reach u s -> parsing_message s = false ->
  Forall listener_ok ls -> byte_ok cls -> byte_ok id -> ubx_payload_ok pl -> byte_ok a' -> a <> a' ->
  ubx_frame cls id pl = [0xB5; 0x62] ++ x ++ [a] ++ y ->
  (length x <> 2 /\ length x <> 3)%nat ->
  exists s', feed (map build ls) s ([0xB5; 0x62] ++ x ++ [a'] ++ y)
             = Ok (s', quiet (8 + length pl)) /\ parsing_message s' = false.
Proof.
  intros Hu HR HP Hls Hc Hi Hpl Ha' Hne E Hpos.
  assert (Hby : bytes_ok (ubx_frame cls id pl)).
  { unfold ubx_frame, bytes_ok. apply Forall_app. split; [repeat constructor; unfold byte_ok; lia|].
    destruct Hpl as [Hl Hp]. apply Forall_app. split.
    - unfold ubx_body. apply Forall_app. split; [|exact Hp].
      repeat (constructor; [unfold byte_ok in *; lia|]). constructor.
    - constructor; [|constructor; [|constructor]]; unfold ck_a_of, ck_b_of, byte_ok; lia. }
  rewrite E in Hby. apply bytes_ok_app in Hby. destruct Hby as [_ Hby].
  apply bytes_ok_app in Hby. destruct Hby as [Hx Hby]. inversion Hby as [|? ? Ha Hy]; subst.
  assert (HLx : firstn 2 (skipn 2 (x ++ [a] ++ y)) = [Zlen pl mod 256; Zlen pl / 256]).
  { unfold ubx_frame in E. apply app_inv_head in E. rewrite <- E. reflexivity. }
  assert (HL : forall z, firstn 2 (skipn 2 (x ++ z :: y)) = [Zlen pl mod 256; Zlen pl / 256]).
  { intros z. cbn [app] in HLx. destruct x as [|x0 [|x1 [|x2 [|x3 x]]]]; cbn [app length] in *; try lia.
    - exact HLx.
    - exact HLx.
    - exact HLx. }
  destruct y as [|b y].
  - destruct (rev_case x) as [->|(x' & w & ->)].
    + exfalso. apply (f_equal (@length Z)) in E. unfold ubx_frame, ubx_body in E. cbn in E. rewrite app_length in E. cbn in E. lia.
    + apply bytes_ok_app in Hx. destruct Hx as [_ Hw]. inversion Hw; subst.
      rewrite <- !app_assoc in *. cbn [app] in *.
      eapply (corrupt_pair u s ls cls id pl x' w a w a' []); eauto; try congruence.
      specialize (HL a'). rewrite <- app_assoc in HL. exact HL.
  - inversion Hy; subst. change ([a'] ++ b :: y) with ([a'; b] ++ y).
    apply (corrupt_pair u s ls cls id pl x a b a' b y); try assumption; try congruence.
    apply (HL a').
Qed.

(* subscriptions *)
Lemma subscribed_exact id ps c i :
  Forall pair_ok ps -> byte_ok c -> byte_ok i ->
  (subscribed (fold_left (fun m p => subscribe m (fst p) (snd p)) ps (mkML id [])) c i = true <-> In (c, i) ps).
Proof.
  intros Hps Hc Hi. unfold subscribed.
  assert (G : forall ps ks, Forall pair_ok ps ->
    (existsb (Z.eqb (sub_key c i)) (ml_keys (fold_left (fun m p => subscribe m (fst p) (snd p)) ps (mkML id ks))) = true
     <-> In (c, i) ps \/ existsb (Z.eqb (sub_key c i)) ks = true)).
  { clear ps Hps. induction ps as [|[c1 i1] ps IH]; intros ks Hps; cbn [fold_left].
    - cbn [In ml_keys]. tauto.
    - inversion Hps as [|? ? [H1 H2] H3]; subst. cbn [fst snd] in *.
      unfold subscribe at 2. cbn [ml_keys ml_id]. rewrite IH by exact H3. cbn [existsb In].
      rewrite orb_true_iff, Z.eqb_eq.
      rewrite (sub_key_val c i Hc Hi), (sub_key_val c1 i1 H1 H2).
      assert (HE : 256 * c + i = 256 * c1 + i1 <-> (c1, i1) = (c, i)).
      { unfold byte_ok in *. split; [intros; f_equal; lia|intros [=]; subst; reflexivity]. }
      rewrite HE. tauto. }
  rewrite (G ps [] Hps). cbn. intuition discriminate.
Qed.

(* flags: a byte on which read_cb returns false changes none of them *)
Lemma flags_quiet ls s b s' c :
  read_cb ls s b = Ok (s', c, false) ->
  got_ack s' = got_ack s /\ got_nack s' = got_nack s /\ got_ver s' = got_ver s /\
  major s' = major s /\ minor s' = minor s /\ modname s' = modname s /\ nmsg s' = nmsg s.
Proof.
  intros H.
  assert (HS : forall e s1, read_switch s b = Ok (e, s1) ->
     got_ack s1 = got_ack s /\ got_nack s1 = got_nack s /\ got_ver s1 = got_ver s /\
     major s1 = major s /\ minor s1 = minor s /\ modname s1 = modname s /\ nmsg s1 = nmsg s).
  { intros e s1 E. unfold read_switch in E. destruct (st s); try (injection E as <- <-; repeat split; reflexivity).
    - destruct (_ && _); injection E as <- <-; repeat split; reflexivity.
    - destruct (_ >? _); injection E as <- <-; repeat split; reflexivity.
    - destruct (head s <? mlen s); [|injection E as <- <-; repeat split; reflexivity].
      destruct (aset _ _ _) as [bf|]; cbn [bind] in E; [|discriminate].
      destruct (_ =? _); injection E as <- <-; repeat split; reflexivity. }
  unfold read_cb in H. destruct (read_switch s b) as [[e s1]|] eqn:E; cbn [bind] in H; [|discriminate].
  specialize (HS e s1 eq_refl).
  destruct e; [injection H as <- _; exact HS|].
  destruct (is_ckb (st s1)); [|injection H as <- _; exact HS].
  unfold decode_message in H. destruct (calculate_checksum _ _ _ _) as [[a0 b0]|]; cbn [bind] in H; [|discriminate].
  destruct (negb _ || negb _); cbn [bind] in H.
  - injection H as <- _. exact HS.
  - destruct (decode_switch _) as [s2|]; cbn [bind] in H; discriminate.
Qed.

Lemma frame_flags u s ls cls id pl :
  uninit_ok u -> Reach u s -> parsing_message s = false ->
  Forall listener_ok ls -> byte_ok cls -> byte_ok id -> ubx_payload_ok pl ->
  ((cls, id) = (10, 4) -> ~ monver_unsafe (overlay pl (inbuf s)) (modname s)) ->
  exists s' outs, feed (map build ls) s (ubx_frame cls id pl) = Ok (s', outs)
    /\ (got_ack s' = true <-> got_ack s = true \/ (cls, id) = (5, 1))
    /\ (got_nack s' = true <-> got_nack s = true \/ (cls, id) = (5, 0)).
Proof.
  intros Hu HR HP Hls Hc Hi Hpl Hs. apply (reach_idle_iff u s Hu HR) in HP.
  destruct (frame_post ls s cls id pl Hls HP Hc Hi Hpl Hs) as (s' & E & _ & _ & _ & _ & A & N & _).
  exists s'. eexists. split; [exact E|]. rewrite A, N, !orb_true_iff, !andb_true_iff, !Z.eqb_eq.
  split; split; intros [H|H]; auto; right; [destruct H; congruence|injection H; auto|destruct H; congruence|injection H; auto].
Qed.

(* C14: restart, then a frame *)
Lemma restart_then_frame u s ls cls id pl :
  uninit_ok u -> Reach u s ->
  Forall listener_ok ls -> byte_ok cls -> byte_ok id -> ubx_payload_ok pl ->
  ((cls, id) = (10, 4) -> ~ monver_unsafe (overlay pl (inbuf s)) (modname s)) ->
  parsing_message (restart s) = false /\
  (nmsg (restart s) = nmsg s /\ nerr (restart s) = nerr s /\ inbuf (restart s) = inbuf s /\
   got_ack (restart s) = got_ack s /\ got_nack (restart s) = got_nack s /\ got_ver (restart s) = got_ver s /\
   major (restart s) = major s /\ minor (restart s) = minor s /\ modname (restart s) = modname s) /\
  exists s', feed (map build ls) (restart s) (ubx_frame cls id pl)
      = Ok (s', quiet (7 + length pl) ++ [(calls_for ls cls id (overlay pl (inbuf s)), true)])
    /\ parsing_message s' = false.
Proof.
  intros Hu HR Hls Hc Hi Hpl Hs. destruct (reach_restart_idle u s Hu HR) as (Hid & HX).
  split; [reflexivity|]. split; [exact HX|].
  destruct (frame_post ls (restart s) cls id pl Hls Hid Hc Hi Hpl Hs) as (s' & E & Hid' & _).
  exists s'. split; [exact E|apply idle_not_parsing; exact Hid'].
Qed.

(* C13 *)
Lemma monver_reach u s ls pl :
  uninit_ok u -> Reach u s -> parsing_message s = false ->
  Forall listener_ok ls -> ubx_payload_ok pl ->
  let msg := overlay pl (inbuf s) in
  (exists s' outs, feed (map build ls) s (ubx_frame 10 4 pl) = Ok (s', outs) /\ parsing_message s' = false /\
      ~ monver_unsafe msg (modname s) /\ got_ver s' = true /\
      (forall i, last_slot (has_protver msg) 20 i ->
         exists t1 t2, version_texts msg i t1 t2 /\ numeral t1 (major s') /\ numeral t2 (minor s')) /\
      (no_slot (has_protver msg) 20 -> major s' = major s /\ minor s' = minor s) /\
      (forall i a r, last_slot (has_mod msg) 20 i -> window msg (slot i + 4) 10 = a ++ 0 :: r -> ~ In 0 a ->
         exists z, modname s' = a ++ 0 :: z) /\
      (no_slot (has_mod msg) 20 -> modname s' = modname s))
  \/ (feed (map build ls) s (ubx_frame 10 4 pl) = UB UB_cstring /\ monver_unsafe msg (modname s)).
Proof.
  intros Hu HR HP Hls Hpl msg. apply (reach_idle_iff u s Hu HR) in HP.
  destruct (monver_frame ls s pl Hls HP Hpl) as [(s' & outs & E & Hid & G & (L1 & L2 & L3 & L4) & N1 & N2)|[E H]].
  - left. exists s', outs. split; [exact E|]. split; [apply idle_not_parsing; exact Hid|].
    split. { intros [(i & Hi & Ho)|H]; [exact (N1 i Hi Ho)|exact (N2 H)]. }
    split; [exact G|]. split; [exact L1|]. split; [exact L2|]. split; [|exact L4].
    intros i a r Hi. apply (L3 i Hi).
  - right. split; [exact E|exact H].
Qed.

(* the usual text PROTVER=<digits>.<digits>NUL *)
Lemma protver_plain msg i ds es r t1 t2 ma mi :
  digits ds -> digits es -> (1 <= length ds <= 4)%nat -> (1 <= length es <= 4)%nat ->
  0 <= i < 20 -> Zlen msg = 2048 ->
  skipn (Z.to_nat (slot i)) msg = PROTVER ++ ascii ds ++ [46] ++ ascii es ++ [0] ++ r ->
  version_texts msg i t1 t2 -> numeral t1 ma -> numeral t2 mi ->
  ma = decimal ds /\ mi = decimal es.
Proof.
  intros Hd He Ld Le Hi HL E (used & HU1 & HU2) N1 N2.
  assert (Hsk : forall k, 0 <= k -> skipn (Z.to_nat (slot i + k)) msg = skipn (Z.to_nat k) (PROTVER ++ ascii ds ++ [46] ++ ascii es ++ [0] ++ r)).
  { intros k Hk. rewrite <- E. rewrite skipn_add. f_equal. unfold slot. lia. }
  assert (Hla : forall l, length (ascii l) = length l) by (intros; unfold ascii; apply map_length).
  assert (Hn46 : forall l, digits l -> ~ In 46 (ascii l)).
  { intros l Hl HI. unfold ascii in HI. apply in_map_iff in HI. destruct HI as (d & Ed & HI).
    unfold digits in Hl. rewrite Forall_forall in Hl. specialize (Hl d HI). lia. }
  assert (Hn0 : forall l, digits l -> ~ In 0 (ascii l)).
  { intros l Hl HI. unfold ascii in HI. apply in_map_iff in HI. destruct HI as (d & Ed & HI).
    unfold digits in Hl. rewrite Forall_forall in Hl. specialize (Hl d HI). lia. }
  assert (HT1 : until_dot (window msg (slot i + 8) 5) (ascii ds ++ [0]) (Zlen ds + 1)).
  { left. exists (ascii ds), (firstn (4 - length ds) (ascii es ++ [0] ++ r)).
    split; [|split; [apply Hn46; exact Hd|split; [reflexivity|unfold Zlen; rewrite Hla; reflexivity]]].
    unfold window. rewrite Hsk by lia. change (Z.to_nat 8) with (length PROTVER).
    rewrite skipn_app, skipn_all, Nat.sub_diag. cbn [skipn app].
    rewrite firstn_app, Hla. rewrite firstn_all2 by (rewrite Hla; lia). f_equal.
    replace (5 - length ds)%nat with (S (4 - length ds)) by lia. reflexivity. }
  destruct (until_dot_fun _ _ _ _ _ HU1 HT1) as [-> ->].
  assert (HT2 : until_nul (window msg (slot i + 8 + (Zlen ds + 1)) 5) (ascii es ++ [0])).
  { left. exists (ascii es), (firstn (4 - length es) r).
    split; [|split; [apply Hn0; exact He|reflexivity]].
    unfold window. replace (slot i + 8 + (Zlen ds + 1)) with (slot i + (8 + (Zlen ds + 1))) by lia.
    rewrite Hsk by (unfold Zlen; lia).
    replace (Z.to_nat (8 + (Zlen ds + 1))) with (length (PROTVER ++ ascii ds ++ [46]))
      by (rewrite !app_length, Hla; unfold Zlen; cbn [length PROTVER]; lia).
    rewrite !app_assoc. rewrite <- (app_assoc _ (ascii es)), <- (app_assoc _ (ascii es ++ [0])).
    rewrite <- (app_assoc PROTVER), skipn_app, skipn_all, Nat.sub_diag. cbn [skipn app].
    rewrite <- app_assoc, firstn_app, Hla. rewrite firstn_all2 by (rewrite Hla; lia). f_equal.
    replace (5 - length es)%nat with (S (4 - length es)) by lia. reflexivity. }
  pose proof (until_nul_fun _ _ _ HU2 HT2) as ->.
  assert (HN : forall l, digits l -> (1 <= length l)%nat -> numeral (ascii l ++ [0]) (decimal l)).
  { intros l Hl Hne. exists [], [], 1, l, 0, []. split; [reflexivity|]. split; [constructor|]. split; [left; auto|].
    split; [exact Hl|]. split; [unfold digit_char; lia|]. split; [intros _ ->; cbn in Hne; lia|lia]. }
  split; [apply (numeral_fun _ _ _ N1)|apply (numeral_fun _ _ _ N2)]; apply HN; auto; lia.
Qed.

(* C09 *)
Lemma stale_exposed u s ls cls id pl l :
  uninit_ok u -> Reach u s -> parsing_message s = false ->
  Forall listener_ok ls -> byte_ok cls -> byte_ok id -> ubx_payload_ok pl -> (cls, id) <> (10, 4) ->
  In l ls -> wants l cls id = true ->
  exists s' outs calls, feed (map build ls) s (ubx_frame cls id pl) = Ok (s', outs ++ [(calls, true)]) /\
    In (mkCall (lid l) cls id (pl ++ skipn (length pl) (inbuf s))) calls.
Proof.
  intros Hu HR HP Hls Hc Hi Hpl Hne Hin Hw.
  destruct (ls_frame u s ls cls id pl Hu HR HP Hls Hc Hi Hpl) as (s' & E & _); [intros; contradiction|].
  exists s', (quiet (7 + length pl)). eexists. split; [exact E|].
  unfold calls_for. apply in_map_iff. exists l. split; [reflexivity|]. apply filter_In. auto.
Qed.
