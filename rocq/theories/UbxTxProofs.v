(* Proofs about the sending half of UBX (C15-C18). *)
From Verif Require Import Base ZBits UbxSpec UbxModel UbxProofs UbxTx UbxTxSpec.

Lemma frame_writes_bytes cls id pl : concat (frame_writes cls id pl) = ubx_frame cls id pl.
Proof. unfold frame_writes, ubx_frame, ubx_body. cbn [concat app]. reflexivity. Qed.

(* ------------------------------------------------ lemmas *)
Lemma load_spec pl : forall done rest, load (length pl) (done ++ pl ++ rest) (Zlen done) = Ok pl.
Proof.
  induction pl as [|x pl IH]; intros done rest; [reflexivity|].
  cbn [load length app]. rewrite aget_app_mid. cbn [bind].
  specialize (IH (done ++ [x]) rest). rewrite <- app_assoc in IH. cbn [app] in IH.
  rewrite Zlen_app in IH. change (Zlen [x]) with 1 in IH. rewrite IH. reflexivity.
Qed.

Lemma send_message_spec cls id pl rest : Zlen pl < 65536 ->
  send_message cls id (pl ++ rest) (Zlen pl) = Ok (frame_writes cls id pl).
Proof.
  intros H. unfold send_message. rewrite checksum_spec by exact H. cbn [bind].
  pose proof (load_spec pl [] rest) as HL. cbn [app] in HL. change (Zlen []) with 0 in HL.
  unfold Zlen at 1. rewrite Nat2Z.id, HL. cbn [bind]. unfold frame_writes, START_BYTE_1, START_BYTE_2.
  rewrite !land_255, shiftr_8. pose proof (Zlen_nonneg pl).
  rewrite (Z.mod_small (Zlen pl / 256)) by lia. reflexivity.
Qed.

Lemma ck_loop_over buf n : forall i ab, 0 <= i -> i <= Zlen buf -> i + Z.of_nat n > Zlen buf ->
  ck_loop n buf i ab = UB UB_oob_read.
Proof.
  induction n as [|n IH]; intros i ab H1 H2 H3; [lia|]. cbn [ck_loop].
  destruct (Z.eq_dec i (Zlen buf)) as [->|Hne].
  - unfold aget. replace ((0 <=? Zlen buf) && (Zlen buf <? Zlen buf)) with false by lia. reflexivity.
  - rewrite aget_in by lia. cbn [bind]. apply IH; lia.
Qed.

Lemma send_message_over cls id buf len : Zlen buf < len -> send_message cls id buf len = UB UB_oob_read.
Proof.
  intros H. unfold send_message, calculate_checksum. rewrite ck_loop_over; [reflexivity|lia|apply Zlen_nonneg|].
  pose proof (Zlen_nonneg buf). lia.
Qed.

Lemma aset_head h t i v : 0 <= i < Zlen h ->
  aset (h ++ t) i v = let* h' := aset h i v in Ok (h' ++ t).
Proof.
  intros H. unfold aset. rewrite Zlen_app. pose proof (Zlen_nonneg t).
  replace ((0 <=? i) && (i <? Zlen h + Zlen t)) with true by lia.
  replace ((0 <=? i) && (i <? Zlen h)) with true by lia. cbn [bind]. f_equal.
  unfold Zlen in H. rewrite firstn_app, skipn_app.
  replace (Z.to_nat i - length h)%nat with 0%nat by lia.
  replace (S (Z.to_nat i) - length h)%nat with 0%nat by lia. cbn [firstn skipn].
  rewrite app_nil_r, <- app_assoc. reflexivity.
Qed.

Lemma put_head bs : forall h t off, 0 <= off -> off + Zlen bs <= Zlen h ->
  put (h ++ t) off bs = let* h' := put h off bs in Ok (h' ++ t).
Proof.
  induction bs as [|b bs IH]; intros h t off H1 H2; [reflexivity|].
  rewrite Zlen_cons in H2. pose proof (Zlen_nonneg bs). cbn [put].
  rewrite aset_head by lia. destruct (aset h off b) as [h'|k] eqn:E; cbn [bind]; [|reflexivity].
  apply IH; [lia|]. unfold Zlen in *. rewrite (aset_ok_length _ _ _ _ E). lia.
Qed.

(* every buffer of at least n bytes splits *)
Lemma split_at (n : nat) (l : list Z) : (n <= length l)%nat -> exists h t, l = h ++ t /\ length h = n.
Proof.
  intros H. exists (firstn n l), (skipn n l). split; [symmetry; apply firstn_skipn|]. rewrite firstn_length. lia.
Qed.

Lemma send_out_spec cls id pl rest n : Zlen pl = n -> n < 65536 ->
  send_out cls id (pl ++ rest) n = Ok (pl ++ rest, frame_writes cls id pl).
Proof. intros <- H. unfold send_out. rewrite send_message_spec by exact H. reflexivity. Qed.

Ltac unlist H :=
  repeat match type of H with
  | length ?l = O => destruct l; [clear H|discriminate H]
  | length ?l = S _ => let x := fresh "x" in destruct l as [|x l]; [discriminate H|]; cbn [length] in H; apply eq_add_S in H
  end.

Ltac put_step := rewrite put_head by (cbv; split; congruence || (intros; discriminate)); cbn [bind].

Lemma zlen_le (h : list Z) n m : length h = n -> m <= Z.of_nat n -> m <= Zlen h.
Proof. unfold Zlen. intros -> H. exact H. Qed.

Lemma put_length bs : forall h off h', put h off bs = Ok h' -> length h' = length h.
Proof.
  induction bs as [|b bs IH]; intros h off h' E; cbn [put] in E; [congruence|].
  destruct (aset h off b) as [h1|k] eqn:E1; cbn [bind] in E; [|discriminate].
  rewrite (IH _ _ _ E). apply (aset_ok_length _ _ _ _ E1).
Qed.

Lemma u8_le (x : Z) : u8 x = x mod 256.
Proof. reflexivity. Qed.
Lemma le32_u32 x : le32 (u32 x) = le32 x.
Proof. 
  unfold le32, u32. change (2 ^ 32) with 4294967296.
  assert (E : forall a b c d a' b' c' d' : Z, a = a' -> b = b' -> c = c' -> d = d' -> [a; b; c; d] = [a'; b'; c'; d'])
    by (intros; subst; reflexivity).
  apply E; lia.
Qed.


(* evaluate one store into the concrete head of the buffer *)
Ltac put_go :=
  rewrite put_head by (vm_compute; discriminate);
  match goal with |- context [put ?h ?o ?b] =>
    let r := eval vm_compute in (put h o b) in change (put h o b) with r end;
  cbn [bind].

Lemma configure_spec out version layer data key size :
  12 <= Zlen out -> byte_ok version -> byte_ok layer ->
  exists out', length out' = length out /\
    configure out version layer data key size
    = Ok (out', frame_writes 0x06 0x8A (valset_payload version layer key (value_bytes size data))).
Proof.
  intros Hlen Hv Hy. destruct (split_at 12 out) as (h & t & -> & Hh); [unfold Zlen in Hlen; lia|].
  exists (valset_payload version layer key (value_bytes size data) ++ t). split.
  { rewrite !app_length, Hh. f_equal. unfold valset_payload, value_bytes.
    destruct (size =? 1); [reflexivity|]. destruct (size =? 2); reflexivity. }
  unfold configure. rewrite !le32_u32, (u8_id version Hv), (u8_id layer Hy), u8_le.
  unlist Hh. unfold valset_payload, value_bytes, le32.
  generalize (data mod 256) as d0. generalize ((data / 256) mod 256) as d1. generalize ((data / 65536) mod 256) as d2.
  generalize ((data / 16777216) mod 256) as d3.
  generalize (key mod 256) as k0. generalize ((key / 256) mod 256) as k1. generalize ((key / 65536) mod 256) as k2.
  generalize ((key / 16777216) mod 256) as k3. intros.
  do 3 put_go.
  destruct (Z.eqb_spec size 1) as [E1|E1]; destruct (Z.eqb_spec size 2) as [E2|E2]; try lia; cbn [bind];
    repeat put_go; rewrite send_out_spec by (reflexivity || lia); reflexivity.
Qed.

Lemma get_configuration_spec out version layer key :
  16 <= Zlen out -> byte_ok version -> byte_ok layer ->
  exists out', length out' = length out /\
    get_configuration out version layer key
    = Ok (out', frame_writes 0x06 0x8B (valget_payload version layer key)).
Proof.
  intros Hlen Hv Hy. destruct (split_at 16 out) as (h & t & -> & Hh); [unfold Zlen in Hlen; lia|].
  exists (valget_payload version layer key ++ t). split.
  { rewrite !app_length, Hh. reflexivity. }
  unfold get_configuration. rewrite !le32_u32, (u8_id version Hv), (u8_id layer Hy).
  unlist Hh. unfold valget_payload, le32.
  generalize (key mod 256) as k0. generalize ((key / 256) mod 256) as k1. generalize ((key / 65536) mod 256) as k2.
  generalize ((key / 16777216) mod 256) as k3. intros.
  repeat put_go; rewrite send_out_spec by (reflexivity || lia); reflexivity.
Qed.

Lemma start_survey_in_spec out : 40 <= Zlen out ->
  start_survey_in out = Ok (tmode3_payload out 1 60 3 ++ skipn 40 out, frame_writes 0x06 0x71 (tmode3_payload out 1 60 3)).
Proof.
  intros Hlen. destruct (split_at 40 out) as (h & t & -> & Hh); [unfold Zlen in Hlen; lia|].
  unfold start_survey_in. unlist Hh.
  repeat put_go. rewrite send_out_spec by (reflexivity || lia). reflexivity.
Qed.

Lemma prt_spec out : 20 <= Zlen out -> forall major, major <= 23 ->
  exists out', length out' = length out /\
    disable_nmea major out = Ok (out', frame_writes 0x06 0x00 (prt_payload 3 0 921600 0x21 0x21 0x8C0)).
Proof.
  intros Hlen major Hm. destruct (split_at 20 out) as (h & t & -> & Hh); [unfold Zlen in Hlen; lia|].
  exists (prt_payload 3 0 921600 0x21 0x21 0x8C0 ++ t). split.
  { rewrite !app_length, Hh. reflexivity. }
  unfold disable_nmea. replace (major <=? 23) with true by lia. unlist Hh.
  repeat put_go. rewrite send_out_spec by (reflexivity || lia). reflexivity.
Qed.

Lemma nav5_spec out : 36 <= Zlen out -> forall major, major <= 23 ->
  exists out', length out' = length out /\
    set_dynamic_mode major out = Ok (out', frame_writes 0x06 0x24 (nav5_payload 1 8)).
Proof.
  intros Hlen major Hm. destruct (split_at 36 out) as (h & t & -> & Hh); [unfold Zlen in Hlen; lia|].
  exists (nav5_payload 1 8 ++ t). split.
  { rewrite !app_length, Hh. reflexivity. }
  unfold set_dynamic_mode. replace (major <=? 23) with true by lia. unlist Hh.
  repeat put_go. rewrite send_out_spec by (reflexivity || lia). reflexivity.
Qed.

Lemma rate_spec out period : 6 <= Zlen out -> forall major, major <= 23 ->
  exists out', length out' = length out /\
    set_nav_rate major period out = Ok (out', frame_writes 0x06 0x08 (rate_payload (period mod 256) 1 0)).
Proof.
  intros Hlen major Hm. destruct (split_at 6 out) as (h & t & -> & Hh); [unfold Zlen in Hlen; lia|].
  exists (rate_payload (period mod 256) 1 0 ++ t). split.
  { rewrite !app_length, Hh. reflexivity. }
  unfold set_nav_rate. replace (major <=? 23) with true by lia. unlist Hh.
  rewrite u8_le. unfold rate_payload, le16.
  generalize ((period mod 256) mod 256) as p0. generalize ((period mod 256 / 256) mod 256) as p1. intros.
  repeat put_go. rewrite send_out_spec by (reflexivity || lia). reflexivity.
Qed.

Lemma cfg_msg_spec out cls id rate : 3 <= Zlen out ->
  exists out', length out' = length out /\
    enable_message cls id rate out = Ok (out', frame_writes 0x06 0x01 [cls mod 256; id mod 256; rate mod 256]).
Proof.
  intros Hlen. destruct (split_at 3 out) as (h & t & -> & Hh); [unfold Zlen in Hlen; lia|].
  exists ([cls mod 256; id mod 256; rate mod 256] ++ t). split.
  { rewrite !app_length, Hh. reflexivity. }
  unfold enable_message. rewrite !u8_le. unlist Hh.
  generalize (cls mod 256) as a. generalize (id mod 256) as b. generalize (rate mod 256) as c. intros.
  repeat put_go. rewrite send_out_spec by (reflexivity || lia). reflexivity.
Qed.

Lemma length_zlen {A} (a b : list A) n : length a = length b -> n <= Zlen b -> n <= Zlen a.
Proof. unfold Zlen. intros ->. auto. Qed.

Ltac cfg E Hl o :=
  match goal with |- context [configure ?b 0 1 ?d ?k 1] =>
    let H := fresh in
    assert (H : 12 <= Zlen b) by (eauto using length_zlen; lia);
    destruct (configure_spec b 0 1 d k 1 H ltac:(unfold byte_ok; lia) ltac:(unfold byte_ok; lia)) as (o & Hl & E);
    rewrite E; cbn [bind]; clear H
  end.

Lemma disable_nmea_new out major : 12 <= Zlen out -> 23 < major ->
  exists out', length out' = length out /\
    disable_nmea major out = Ok (out', valset1 0x10770002 0 ++ valset1 0x10780002 0).
Proof.
  intros Hlen Hm. unfold disable_nmea, seq. replace (major <=? 23) with false by lia.
  cfg E1 H1 o1. cfg E2 H2 o2. exists o2. split; [congruence|]. reflexivity.
Qed.

Lemma set_dynamic_mode_new out major : 12 <= Zlen out -> 23 < major ->
  exists out', length out' = length out /\
    set_dynamic_mode major out = Ok (out', valset1 0x20110021 6).
Proof.
  intros Hlen Hm. unfold set_dynamic_mode. replace (major <=? 23) with false by lia.
  cfg E1 H1 o1. exists o1. split; [congruence|]. reflexivity.
Qed.

Lemma set_nav_rate_new out period major : 12 <= Zlen out -> 23 < major ->
  exists out', length out' = length out /\
    set_nav_rate major period out
    = Ok (out', valset1 0x30210001 period ++ valset1 0x30210002 1 ++ valset1 0x20210003 0).
Proof.
  intros Hlen Hm. unfold set_nav_rate, seq. replace (major <=? 23) with false by lia.
  cfg E1 H1 o1. cfg E2 H2 o2. cfg E3 H3 o3. exists o3. split; [congruence|].
  unfold valset1, value_bytes. cbn [Z.eqb Pos.eqb]. rewrite u8_le, Z.mod_mod by lia. reflexivity.
Qed.
