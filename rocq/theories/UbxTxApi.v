(* API-level statements about sending, used by Properties_UbxTx. *)
From Verif Require Import Base ZBits UbxSpec UbxModel UbxProofs UbxStream UbxMain UbxMore UbxVersion UbxHist UbxApi UbxTx UbxTxSpec UbxTxProofs.

(* The 2048-byte message union, seen as its first len bytes and the rest. *)
Lemma tx_send cls id buf len : Zlen buf = 2048 -> 0 <= len <= 2048 ->
  exists w, send_message cls id buf len = Ok w /\
    concat w = ubx_frame cls id (firstn (Z.to_nat len) buf) /\ length w = 9%nat.
Proof.
  intros Hb Hl. assert (Hz : Zlen (firstn (Z.to_nat len) buf) = len).
  { unfold Zlen in *. rewrite firstn_length. lia. }
  exists (frame_writes cls id (firstn (Z.to_nat len) buf)). split; [|split; [apply frame_writes_bytes|reflexivity]].
  rewrite <- (firstn_skipn (Z.to_nat len) buf) at 1. rewrite <- Hz at 3.
  apply send_message_spec. lia.
Qed.

Lemma tx_over cls id buf len : Zlen buf = 2048 -> 2048 < len -> send_message cls id buf len = UB UB_oob_read.
Proof. intros Hb Hl. apply send_message_over. lia. Qed.

(* A second reader, idle, is fed what was written. *)
Lemma tx_received u s ls cls id buf len w :
  uninit_ok u -> Reach u s -> parsing_message s = false -> Forall listener_ok ls ->
  byte_ok cls -> byte_ok id ->
  ((cls, id) = (10, 4) -> ~ monver_unsafe (overlay (firstn (Z.to_nat len) buf) (inbuf s)) (modname s)) -> bytes_ok buf -> Zlen buf = 2048 -> 1 <= len <= 2048 ->
  send_message cls id buf len = Ok w ->
  exists s' msg, feed (map build ls) s (concat w)
      = Ok (s', quiet (7 + Z.to_nat len) ++ [(calls_for ls cls id msg, true)]) /\
    parsing_message s' = false /\ firstn (Z.to_nat len) msg = firstn (Z.to_nat len) buf.
Proof.
  intros Hu HR HP Hls Hc Hi Hne Hb Hz Hlen HS.
  destruct (tx_send cls id buf len Hz) as (w' & HS' & HW & _); [lia|].
  rewrite HS' in HS. injection HS as HS. subst w'. rewrite HW.
  assert (Hl : length (firstn (Z.to_nat len) buf) = Z.to_nat len).
  { unfold Zlen in Hz. rewrite firstn_length. lia. }
  assert (Hpl : ubx_payload_ok (firstn (Z.to_nat len) buf)).
  { split; [unfold Zlen; rewrite Hl; lia|apply bytes_ok_firstn; exact Hb]. }
  destruct (ls_frame u s ls cls id _ Hu HR HP Hls Hc Hi Hpl) as (s' & E & HP' & _); [exact Hne|].
  exists s', (overlay (firstn (Z.to_nat len) buf) (inbuf s)). rewrite Hl in E. split; [exact E|]. split; [exact HP'|].
  unfold overlay. rewrite firstn_app, Hl, Nat.sub_diag. cbn [firstn]. rewrite app_nil_r.
  apply firstn_all2. rewrite Hl. reflexivity.
Qed.

Lemma le32_inj a b : 0 <= a < 2 ^ 32 -> 0 <= b < 2 ^ 32 -> le32 a = le32 b -> a = b.
Proof. intros Ha Hb E. rewrite <- (le32_inv a Ha), <- (le32_inv b Hb), E. reflexivity. Qed.

Lemma app_inj_len {A} (a a' b b' : list A) : length a = length a' -> a ++ b = a' ++ b' -> a = a' /\ b = b'.
Proof.
  revert a'. induction a as [|x a IH]; intros [|y a'] H E; try discriminate H; [auto|].
  cbn [length] in H. cbn [app] in E. injection E as -> E. destruct (IH a') as [-> ->]; auto.
Qed.

Lemma items_inv data l : cfg_items data l -> data <> [] -> (5 <= length data)%nat.
Proof.
  intros H Hne. destruct H as [|key v rest l n Hk Hs Hv Hr]; [congruence|].
  rewrite !app_length. cbn [le32 length].
  assert (1 <= n)%nat. { unfold item_size in Hs. destruct ((key / 2 ^ 28) mod 8) as [|[[|[]|]|[[]|[]|]|]|]; try discriminate; injection Hs as <-; lia. }
  lia.
Qed.

Lemma valset_items key v : 0 <= key < 2 ^ 32 -> length v = 4%nat ->
  (exists l, cfg_items (le32 key ++ v) l) <-> item_size key = Some 4%nat.
Proof.
  intros Hk Hv. split.
  - intros [l H]. inversion H as [E1 E2|key' v' rest l' n Hk' Hs Hl Hr E1 E2].
    assert (EE : le32 key' = le32 key /\ v' ++ rest = v).
    { split; [unfold le32; congruence|assumption]. }
    destruct EE as [Ek Ev]. apply le32_inj in Ek; [|assumption|assumption]. subst key'.
    rewrite Hs. f_equal. destruct rest as [|x rest].
    + rewrite app_nil_r in Ev. congruence.
    + assert (Hx : (5 <= length (x :: rest))%nat) by (eapply items_inv; [exact Hr|discriminate]).
      assert (HL : length (v' ++ x :: rest) = 4%nat) by congruence. rewrite app_length in HL. lia.
  - intros Hs. exists [(key, v)]. rewrite <- (app_nil_r v) at 1. eapply items_cons; eauto. constructor.
Qed.

Lemma value_bytes_len size data : length (value_bytes size data) = 4%nat.
Proof. unfold value_bytes. destruct (size =? 1); [reflexivity|]. destruct (size =? 2); reflexivity. Qed.

Lemma tx_configure out version layer data key size :
  Zlen out = 2048 -> byte_ok version -> byte_ok layer ->
  exists out', Zlen out' = 2048 /\
    configure out version layer data key size
    = Ok (out', frame_writes 0x06 0x8A (valset_payload version layer key (value_bytes size data))).
Proof.
  intros Hz Hv Hl. destruct (configure_spec out version layer data key size) as (o & HL & E); [lia|assumption..|].
  exists o. split; [unfold Zlen in *; congruence|exact E].
Qed.

Lemma tx_configure_items out version layer data key size :
  Zlen out = 2048 -> byte_ok version -> byte_ok layer -> 0 <= key < 2 ^ 32 ->
  exists out' items, configure out version layer data key size
      = Ok (out', frame_writes 0x06 0x8A ([version; layer; 0; 0] ++ items)) /\
    ((exists l, cfg_items items l) <-> item_size key = Some 4%nat).
Proof.
  intros Hz Hv Hl Hk. destruct (tx_configure out version layer data key size Hz Hv Hl) as (o & _ & E).
  exists o, (le32 key ++ value_bytes size data). split; [exact E|].
  apply valset_items; [exact Hk|apply value_bytes_len].
Qed.

(* A requested value is transmitted faithfully (as the little-endian 4-byte number) exactly when .. *)
Lemma value_faithful size data : 0 <= data < 2 ^ 32 ->
  of_le (value_bytes size data) = data <-> (size = 1 /\ data < 256) \/ size = 2 \/ data = 0.
Proof.
  change (2 ^ 32) with 4294967296. intros H. unfold value_bytes.
  destruct (Z.eqb_spec size 1) as [->|H1].
  - cbn [of_le fold_right]. lia.
  - destruct (Z.eqb_spec size 2) as [->|H2].
    + rewrite le32_inv by (change (2 ^ 32) with 4294967296; exact H). lia.
    + cbn [of_le fold_right]. lia.
Qed.

Lemma tx_old out major period cls id rate :
  Zlen out = 2048 -> major <= 23 ->
  (exists o, Zlen o = 2048 /\ disable_nmea major out = Ok (o, frame_writes 0x06 0x00 (prt_payload 3 0 921600 0x21 0x21 0x8C0))) /\
  (exists o, Zlen o = 2048 /\ set_dynamic_mode major out = Ok (o, frame_writes 0x06 0x24 (nav5_payload 1 8))) /\
  (exists o, Zlen o = 2048 /\ set_nav_rate major period out = Ok (o, frame_writes 0x06 0x08 (rate_payload (period mod 256) 1 0))) /\
  (exists o, Zlen o = 2048 /\ enable_message cls id rate out = Ok (o, frame_writes 0x06 0x01 [cls mod 256; id mod 256; rate mod 256])).
Proof.
  intros Hz Hm.
  destruct (prt_spec out ltac:(lia) major Hm) as (o1 & L1 & E1).
  destruct (nav5_spec out ltac:(lia) major Hm) as (o2 & L2 & E2).
  destruct (rate_spec out period ltac:(lia) major Hm) as (o3 & L3 & E3).
  destruct (cfg_msg_spec out cls id rate ltac:(lia)) as (o4 & L4 & E4).
  unfold Zlen in *. repeat split; [exists o1|exists o2|exists o3|exists o4]; (split; [congruence|assumption]).
Qed.

Lemma tx_new out major period cls id rate :
  Zlen out = 2048 -> 23 < major ->
  (exists o, Zlen o = 2048 /\ disable_nmea major out = Ok (o, valset1 0x10770002 0 ++ valset1 0x10780002 0)) /\
  (exists o, Zlen o = 2048 /\ set_dynamic_mode major out = Ok (o, valset1 0x20110021 6)) /\
  (exists o, Zlen o = 2048 /\ set_nav_rate major period out = Ok (o, valset1 0x30210001 period ++ valset1 0x30210002 1 ++ valset1 0x20210003 0)) /\
  (exists o, Zlen o = 2048 /\ enable_message cls id rate out = Ok (o, frame_writes 0x06 0x01 [cls mod 256; id mod 256; rate mod 256])).
Proof.
  intros Hz Hm.
  destruct (disable_nmea_new out major ltac:(lia) Hm) as (o1 & L1 & E1).
  destruct (set_dynamic_mode_new out major ltac:(lia) Hm) as (o2 & L2 & E2).
  destruct (set_nav_rate_new out period major ltac:(lia) Hm) as (o3 & L3 & E3).
  destruct (cfg_msg_spec out cls id rate ltac:(lia)) as (o4 & L4 & E4).
  unfold Zlen in *. repeat split; [exists o1|exists o2|exists o3|exists o4]; (split; [congruence|assumption]).
Qed.

Lemma tx_getcfg out version layer key :
  Zlen out = 2048 -> byte_ok version -> byte_ok layer ->
  exists o, Zlen o = 2048 /\ get_configuration out version layer key = Ok (o, frame_writes 0x06 0x8B (valget_payload version layer key)).
Proof.
  intros Hz Hv Hl. destruct (get_configuration_spec out version layer key) as (o & L & E); [lia|assumption..|].
  exists o. split; [unfold Zlen in *; congruence|exact E].
Qed.

Lemma tx_survey out : Zlen out = 2048 ->
  start_survey_in out = Ok (tmode3_payload out 1 60 3 ++ skipn 40 out, frame_writes 0x06 0x71 (tmode3_payload out 1 60 3)).
Proof. intros Hz. apply start_survey_in_spec. lia. Qed.

Lemma tx_survey_bytes out : Zlen out = 2048 ->
  exists o pl, start_survey_in out = Ok (o, frame_writes 0x06 0x71 pl) /\ length pl = 40%nat /\
    (forall i, (i < 40)%nat ->
       nth i pl 0 = match survey_fixed i with Some v => v | None => nth i out 0 end).
Proof.
  intros Hz. eexists _, _. split; [apply tx_survey; exact Hz|].
  destruct (split_at 40 out) as (h & t & -> & Hh); [unfold Zlen in Hz; lia|].
  unlist Hh. split; [reflexivity|]. intros i Hi.
  do 40 (destruct i as [|i]; [reflexivity|]). lia.
Qed.

(* what the buffer holds after an earlier message *)
Lemma tx_survey_after_enable out cls id rate o1 w1 :
  Zlen out = 2048 -> enable_message cls id rate out = Ok (o1, w1) ->
  exists o pl, start_survey_in o1 = Ok (o, frame_writes 0x06 0x71 pl) /\ nth 0 pl 0 = cls mod 256 /\ nth 1 pl 0 = id mod 256.
Proof.
  intros Hz HE. destruct (split_at 3 out) as (h & t & -> & Hh); [unfold Zlen in Hz; lia|]. unlist Hh.
  unfold enable_message in HE. rewrite !u8_le in HE. revert HE.
  generalize (cls mod 256) as a. generalize (id mod 256) as b. generalize (rate mod 256) as c. intros c b a.
  repeat put_go. rewrite send_out_spec by (reflexivity || lia). intros HE. injection HE as <- <-.
  assert (Hz' : Zlen ([a; b; c] ++ t) = 2048) by (rewrite Zlen_app in *; exact Hz).
  destruct (tx_survey_bytes _ Hz') as (o & pl & E & _ & Hn). exists o, pl. split; [exact E|].
  rewrite !Hn by lia. cbn. split; reflexivity.
Qed.
