(* Every history of the UBX reader: received bytes, restart(), flag clearing by wait_for_response and
   get_version, listeners registered at any time.  Invariant and the idle-state characterisation. *)
From Verif Require Import Base ZBits UbxSpec UbxModel UbxProofs UbxStream UbxMain UbxVersion.

(* UBX::wait_for_response ubx.cpp:94 and UBX::get_version ubx.cpp:69: the assignments to the flags *)
Definition clear_ack (s : ubx) : ubx := w_nack (w_ack s false) false.
Definition clear_ver (s : ubx) : ubx := w_ver s false.

(* Reader states that some sequence of API calls leads to.  Listeners may differ at every byte. *)
Inductive Reach (u : uninit) : ubx -> Prop :=
| R_init : Reach u (ubx_init u)
| R_rx s ls b s' calls ok :
    Reach u s -> Forall listener_ok ls -> byte_ok b ->
    read_cb (map build ls) s b = Ok (s', calls, ok) -> Reach u s'
| R_restart s : Reach u s -> Reach u (restart s)
| R_clear_ack s : Reach u s -> Reach u (clear_ack s)
| R_clear_ver s : Reach u s -> Reach u (clear_ver s).

Definition st_inv (s : ubx) : Prop :=
  match st s with
  | START => start_m s = false
  | GOT_START_FRAME | GOT_CLASS => start_m s = true /\ end_m s = false /\ head s = 0
  | GOT_MSG_ID => start_m s = true /\ end_m s = false /\ head s = 0
  | GOT_LENGTH1 => start_m s = true /\ end_m s = false /\ head s = 0 /\ 0 <= mlen s < 256
  | GOT_LENGTH2 => start_m s = true /\ end_m s = false /\ 0 <= mlen s <= 2048 /\
                   ((mlen s = 0 /\ head s = 0) \/ 0 <= head s < mlen s)
  | GOT_PAYLOAD | GOT_CK_A => start_m s = true /\ end_m s = false /\ 1 <= mlen s <= 2048 /\ head s = mlen s
  | GOT_CK_B => False
  end.

Definition Inv (s : ubx) : Prop :=
  st_inv s /\ Zlen (inbuf s) = 2048 /\ length (modname s) = 10%nat /\ small_counters s.

Lemma ck_loop_ok buf n : forall i ab, 0 <= i -> i + Z.of_nat n <= Zlen buf ->
  exists r, ck_loop n buf i ab = Ok r.
Proof.
  induction n as [|n IH]; intros i ab Hi Hn; [eexists; reflexivity|].
  cbn [ck_loop]. rewrite aget_in by lia. cbn [bind]. apply IH; lia.
Qed.

Lemma decode_message_cases ls s :
  Zlen (inbuf s) = 2048 -> length (modname s) = 10%nat -> 0 <= mlen s <= 2048 -> small_counters s ->
  (exists s' calls ok, decode_message ls s = Ok (s', calls, ok) /\
     inbuf s' = inbuf s /\ length (modname s') = 10%nat /\ small_counters s' /\
     (if ok then nmsg s' = u32 (nmsg s + 1) else s' = s /\ calls = []))
  \/ decode_message ls s = UB UB_cstring.
Proof.
  intros HB HM HL [C1 C2]. unfold decode_message, calculate_checksum.
  destruct (ck_loop_ok (inbuf s) (Z.to_nat (mlen s)) 0
     (ck_step (ck_step (ck_step (ck_step (0, 0) (mcls s)) (mtyp s)) (Z.land (mlen s) 255))
              (Z.land (Z.shiftr (mlen s) 8) 255))) as [[a b] E]; [lia|lia|].
  rewrite E. cbn [bind].
  destruct (negb (a =? cka s) || negb (b =? ckb s)).
  - left. do 3 eexists. split; [reflexivity|]. repeat split; auto; try apply C1; apply C2.
  - destruct (decode_switch_cases (w_nmsg s (u32 (nmsg s + 1)))) as [(s2 & E2 & HM2)|[E2 _]];
      [exact HB|exact HM| |]; rewrite E2; cbn [bind]; [left|right; reflexivity].
    apply decode_switch_frame in E2. destruct E2 as [E2 _].
    do 3 eexists. split; [reflexivity|]. rewrite E2 in HM2 |- *. cbn in HM2 |- *.
    split; [reflexivity|]. split; [exact HM2|]. split; [|reflexivity].
    split; cbn; [unfold u32; apply Z.mod_pos_bound; lia|exact C2].
Qed.

Definition step_goal ls s b : Prop :=
  (exists s' calls ok, read_cb ls s b = Ok (s', calls, ok) /\ Inv s') \/ read_cb ls s b = UB UB_cstring.

(* read_cb outside the two special states is the switch followed by prev_byte_ = byte *)
Lemma read_plain ls s b s1 :
  read_switch s b = Ok (false, s1) -> is_ckb (st s1) = false -> read_cb ls s b = Ok (w_prev s1 b, [], false).
Proof. intros E H. unfold read_cb. rewrite E. cbn [bind]. rewrite H. reflexivity. Qed.

Lemma step_plain ls s b s1 :
  read_switch s b = Ok (false, s1) -> is_ckb (st s1) = false ->
  st_inv (w_prev s1 b) -> Zlen (inbuf s1) = 2048 -> length (modname s1) = 10%nat -> small_counters s1 -> step_goal ls s b.
Proof.
  intros E H H1 H2 H3 H4. left. exists (w_prev s1 b), [], false. split; [apply read_plain; assumption|].
  split; [exact H1|]. split; [exact H2|]. split; [exact H3|exact H4].
Qed.

Lemma step_len1 ls s b : Inv s -> byte_ok b -> st s = GOT_LENGTH1 -> step_goal ls s b.
Proof.
  intros (HS & HB & HM & HC) Hb Est. unfold byte_ok in Hb. unfold st_inv in HS. rewrite Est in HS.
  destruct HS as (H1 & H2 & H3 & H4).
  assert (HV : u16 (Z.lor (mlen s) (Z.shiftl b 8)) = mlen s + 256 * b).
  { unfold u16. rewrite lor_low_shiftl by (change (2 ^ 8) with 256; lia). change (2 ^ 8) with 256. change (2 ^ 16) with 65536.
    rewrite Z.mod_small; lia. }
  assert (HR : read_switch s b =
    (if mlen s + 256 * b >? 2048
     then Ok (true, restart (w_prev (w_nerr (w_st (w_mlen s (mlen s + 256 * b)) GOT_LENGTH2) (u32 (nerr s + 1))) b))
     else Ok (false, w_st (w_mlen s (mlen s + 256 * b)) GOT_LENGTH2))).
  { unfold read_switch. rewrite Est, HV. reflexivity. }
  remember (mlen s + 256 * b) as n eqn:En. clear HV.
  destruct (Z.gtb_spec n 2048) as [Hg|Hg].
  - left. eexists _, [], false. split; [unfold read_cb; rewrite HR; reflexivity|].
    split; [reflexivity|]. split; [exact HB|]. split; [exact HM|].
    destruct HC as [C1 C2]. split; [exact C1|]. cbn [nerr restart w_flags w_st w_prev w_nerr]. unfold u32. apply Z.mod_pos_bound. lia.
  - eapply step_plain; [exact HR|reflexivity| |exact HB|exact HM|exact HC].
    cbn. split; [exact H1|]. split; [exact H2|]. split; [lia|]. lia.
Qed.

Lemma step_payload ls s b : Inv s -> byte_ok b -> st s = GOT_LENGTH2 -> step_goal ls s b.
Proof.
  intros (HS & HB & HM & HC) Hb Est. unfold st_inv in HS. rewrite Est in HS.
  destruct HS as (H1 & H2 & H3 & H4).
  destruct (Z_lt_dec (head s) (mlen s)) as [Hlt|Hge].
  - destruct (aset (inbuf s) (head s) b) as [bf'|k] eqn:EA.
    2:{ unfold aset in EA. replace ((0 <=? head s) && (head s <? Zlen (inbuf s))) with true in EA by lia. discriminate. }
    assert (EL : Zlen bf' = Zlen (inbuf s)) by (unfold Zlen; rewrite (aset_ok_length _ _ _ _ EA); reflexivity).
    assert (HU : u16 (head s + 1) = head s + 1) by (unfold u16; change (2 ^ 16) with 65536; apply Z.mod_small; lia).
    assert (HR : read_switch s b = Ok (false, w_head
       (if head s =? mlen s - 1 then w_st (w_inbuf s bf') GOT_PAYLOAD else w_inbuf s bf') (head s + 1))).
    { unfold read_switch. rewrite Est. replace (head s <? mlen s) with true by lia. rewrite EA. cbn [bind].
      change (head (w_inbuf s bf')) with (head s). change (mlen (w_inbuf s bf')) with (mlen s).
      destruct (head s =? mlen s - 1); rewrite <- HU; reflexivity. }
    clear HU. remember (head s + 1) as h eqn:Eh.
    destruct (Z.eqb_spec (head s) (mlen s - 1)) as [He|He].
    + eapply step_plain; [exact HR|reflexivity| |cbn [inbuf w_head w_st w_inbuf]; lia|exact HM|exact HC].
      cbn. split; [exact H1|]. split; [exact H2|]. split; lia.
    + eapply step_plain; [exact HR|cbn [st w_head w_inbuf]; rewrite Est; reflexivity| |cbn [inbuf w_head w_st w_inbuf]; lia|exact HM|exact HC].
      unfold st_inv. cbn [st w_prev w_head w_inbuf]. rewrite Est. cbn. split; [exact H1|]. split; [exact H2|]. split; lia.
  - eapply step_plain; [unfold read_switch; rewrite Est; replace (head s <? mlen s) with false by lia; reflexivity
      |rewrite Est; reflexivity| |exact HB|exact HM|exact HC].
    unfold st_inv. cbn [st w_prev]. rewrite Est. cbn. split; [exact H1|]. split; [exact H2|]. split; lia.
Qed.

Lemma step_ckb ls s b : Inv s -> byte_ok b -> st s = GOT_CK_A -> step_goal ls s b.
Proof.
  intros (HS & HB & HM & HC) Hb Est. unfold st_inv in HS. rewrite Est in HS.
  destruct HS as (H1 & H2 & H3 & H4).
  assert (HR : read_switch s b = Ok (false, w_st (w_ckb s b) GOT_CK_B)) by (unfold read_switch; rewrite Est; reflexivity).
  unfold step_goal, read_cb. rewrite HR. cbn [bind]. change (is_ckb (st (w_st (w_ckb s b) GOT_CK_B))) with true. cbv iota.
  destruct (decode_message_cases ls (w_st (w_ckb s b) GOT_CK_B)) as [(s2 & calls & ok & E & EB & EM & EC & EO)|E];
    [exact HB|exact HM|cbn [mlen w_st w_ckb]; lia|exact HC| |]; rewrite E; cbn [bind]; [left|right; reflexivity].
  assert (HB2 : Zlen (inbuf s2) = 2048) by (rewrite EB; exact HB). clear EB EO E.
  destruct ok.
  - do 3 eexists. split; [reflexivity|]. split; [reflexivity|]. split; [exact HB2|]. split; [exact EM|exact EC].
  - do 3 eexists. split; [reflexivity|]. split; [reflexivity|]. split; [exact HB2|]. split; [exact EM|].
    destruct EC as [D1 D2]. split; [exact D1|]. cbn [nerr w_flags w_st w_prev w_nerr]. unfold u32. apply Z.mod_pos_bound. lia.
Qed.

Lemma step_rest ls s b : Inv s -> byte_ok b ->
  st s <> GOT_LENGTH1 -> st s <> GOT_LENGTH2 -> st s <> GOT_CK_A -> step_goal ls s b.
Proof.
  intros (HS & HB & HM & HC) Hb N1 N2 N3. unfold st_inv in HS.
  destruct (st s) eqn:Est; try congruence.
  - destruct ((b =? START_BYTE_2) && (prev s =? START_BYTE_1)) eqn:EB.
    + eapply step_plain; [unfold read_switch; rewrite Est, EB; reflexivity|reflexivity| |exact HB|exact HM|exact HC].
      cbn. auto.
    + eapply step_plain; [unfold read_switch; rewrite Est, EB; reflexivity|rewrite Est; reflexivity| |exact HB|exact HM|exact HC].
      unfold st_inv. cbn [st w_prev]. rewrite Est. exact HS.
  - eapply step_plain; [unfold read_switch; rewrite Est; reflexivity|reflexivity| |exact HB|exact HM|exact HC]. exact HS.
  - eapply step_plain; [unfold read_switch; rewrite Est; reflexivity|reflexivity| |exact HB|exact HM|exact HC]. exact HS.
  - eapply step_plain; [unfold read_switch; rewrite Est; reflexivity|reflexivity| |exact HB|exact HM|exact HC].
    destruct HS as (H1 & H2 & H3). cbn. unfold byte_ok in Hb. auto.
  - eapply step_plain; [unfold read_switch; rewrite Est; reflexivity|reflexivity| |exact HB|exact HM|exact HC]. exact HS.
  - destruct HS.
Qed.

Lemma inv_step ls s b : Inv s -> byte_ok b ->
  (exists s' calls ok, read_cb ls s b = Ok (s', calls, ok) /\ Inv s') \/ read_cb ls s b = UB UB_cstring.
Proof.
  intros HI Hb. fold (step_goal ls s b).
  destruct (st s) eqn:E; try (apply step_rest; congruence).
  - apply step_len1; assumption.
  - apply step_payload; assumption.
  - apply step_ckb; assumption.
Qed.

Lemma zlen_2048 (l : list Z) : Zlen l = 2048 <-> length l = 2048%nat.
Proof. unfold Zlen. lia. Qed.

Lemma reach_inv u s : uninit_ok u -> Reach u s -> Inv s.
Proof.
  intros [U1 U2] H. induction H as [|s ls b s' calls ok _ IH Hls Hb E|s _ IH|s _ IH|s _ IH].
  - split; [reflexivity|]. split; [apply zlen_2048; exact U1|]. split; [exact U2|apply init_small].
  - destruct (inv_step (map build ls) s b IH Hb) as [(s1 & c1 & o1 & E1 & H1)|E1]; rewrite E in E1; [|discriminate].
    injection E1 as -> _ _. exact H1.
  - destruct IH as (HS & HB & HM & HC). split; [reflexivity|]. auto.
  - destruct IH as (HS & HB & HM & HC). split; [exact HS|]. auto.
  - destruct IH as (HS & HB & HM & HC). split; [exact HS|]. auto.
Qed.

(* For every reachable state: not parsing means idle. *)
Lemma reach_idle_iff u s : uninit_ok u -> Reach u s -> (parsing_message s = false <-> Idle s).
Proof.
  intros Hu HR. destruct (reach_inv u s Hu HR) as (HS & HB & HM & HC). apply zlen_2048 in HB.
  unfold parsing_message, Idle, st_inv in *.
  destruct (st s); try (destruct HS as (-> & -> & _)); cbn; try tauto;
    try (split; [discriminate|intros (H & _); discriminate]).
  rewrite HS. cbn. tauto.
Qed.

Lemma reach_small u s : uninit_ok u -> Reach u s -> small_counters s.
Proof. intros Hu HR. apply (reach_inv u s Hu HR). Qed.

Lemma reach_restart_idle u s : uninit_ok u -> Reach u s ->
  Idle (restart s) /\ nmsg (restart s) = nmsg s /\ nerr (restart s) = nerr s /\ inbuf (restart s) = inbuf s
  /\ got_ack (restart s) = got_ack s /\ got_nack (restart s) = got_nack s /\ got_ver (restart s) = got_ver s
  /\ major (restart s) = major s /\ minor (restart s) = minor s /\ modname (restart s) = modname s.
Proof. intros Hu HR. destruct (reach_inv u s Hu HR) as (HS & HB & HM & HC). apply zlen_2048 in HB. repeat split; assumption. Qed.

(* One byte in any reachable state: no undefined behaviour except the MON-VER string over-read. *)
Lemma reach_byte_ok u s ls b : uninit_ok u -> Reach u s -> byte_ok b ->
  (exists s' calls ok, read_cb ls s b = Ok (s', calls, ok)) \/ read_cb ls s b = UB UB_cstring.
Proof.
  intros Hu HR Hb. destruct (inv_step ls s b (reach_inv u s Hu HR) Hb) as [(s' & c & o & E & _)|E]; eauto.
Qed.

Lemma reach_feed u ls : forall bs s s' outs, Forall listener_ok ls -> bytes_ok bs -> Reach u s ->
  feed (map build ls) s bs = Ok (s', outs) -> Reach u s'.
Proof.
  induction bs as [|b bs IH]; intros s s' outs Hls Hby HR HF.
  - injection HF as <- _. exact HR.
  - inversion Hby as [|? ? Hb Hbs]; subst. cbn [feed] in HF.
    destruct (read_cb (map build ls) s b) as [[[s1 c] ok]|] eqn:E; cbn [bind] in HF; [|discriminate].
    destruct (feed (map build ls) s1 bs) as [[s2 o2]|] eqn:E2; cbn [bind] in HF; [|discriminate].
    injection HF as <- _. eapply IH; [exact Hls|exact Hbs| |exact E2].
    eapply R_rx; [exact HR|exact Hls|exact Hb|exact E].
Qed.

(* ------------------------------------------------ C13 at frame level *)
Lemma monver_frame ls s pl :
  Forall listener_ok ls -> Idle s -> ubx_payload_ok pl ->
  let msg := pl ++ skipn (length pl) (inbuf s) in
  (exists s' outs, feed (map build ls) s (ubx_frame 10 4 pl) = Ok (s', outs) /\ Idle s' /\
      got_ver s' = true /\ loop_effect msg 20 s s' /\
      no_slot (slot_overread msg) 20 /\ ~ name_unterminated msg (modname s))
  \/ (feed (map build ls) s (ubx_frame 10 4 pl) = UB UB_cstring /\
      ((exists i, 0 <= i < 20 /\ slot_overread msg i) \/ name_unterminated msg (modname s))).
Proof.
  intros Hls Hid [Hl Hp] msg.
  assert (Hid0 := Hid). destruct Hid0 as (Hst & Hsm & HB & HM).
  pose proof (frame_from_idle ls s 10 4 pl Hls Hid) as HFI.
  destruct HFI as [(s' & EF & Hid' & _)|[_ EF]]; try (unfold byte_ok; lia); [split; assumption| |];
    rewrite ubx_frame_raw in EF |- *; pose proof EF as EF0; rewrite feed_frame in EF0 by assumption;
    cbv zeta in EF0; rewrite !Z.eqb_refl in EF0; cbn [andb] in EF0;
    remember (full_state s 10 4 pl (ck_a_of (ubx_body 10 4 pl)) (ck_b_of (ubx_body 10 4 pl)) (ck_a_of (ubx_body 10 4 pl))) as s1 eqn:Es1;
    change (decode_switch (w_nmsg s1 (u32 (nmsg s + 1)))) with
      (if mcls s1 =? 0x05 then
         if mtyp s1 =? 0x01 then Ok (w_ack (w_nmsg s1 (u32 (nmsg s + 1))) true)
         else if mtyp s1 =? 0x00 then Ok (w_nack (w_nmsg s1 (u32 (nmsg s + 1))) true)
         else Ok (w_nmsg s1 (u32 (nmsg s + 1)))
       else if mcls s1 =? 0x0A then
         if mtyp s1 =? 0x04 then version_cb (w_nmsg s1 (u32 (nmsg s + 1))) else Ok (w_nmsg s1 (u32 (nmsg s + 1)))
       else Ok (w_nmsg s1 (u32 (nmsg s + 1)))) in EF0;
    replace (mcls s1) with 10 in EF0 by (subst s1; reflexivity);
    replace (mtyp s1) with 4 in EF0 by (subst s1; reflexivity);
    change (10 =? 5) with false in EF0; change (10 =? 10) with true in EF0; change (4 =? 4) with true in EF0;
    cbv iota in EF0;
    assert (EM : inbuf (w_nmsg s1 (u32 (nmsg s + 1))) = msg) by (subst s1; reflexivity);
    assert (EMo : modname (w_nmsg s1 (u32 (nmsg s + 1))) = modname s) by (subst s1; reflexivity);
    assert (Ema : major (w_nmsg s1 (u32 (nmsg s + 1))) = major s) by (subst s1; reflexivity);
    assert (Emi : minor (w_nmsg s1 (u32 (nmsg s + 1))) = minor s) by (subst s1; reflexivity);
    remember (w_nmsg s1 (u32 (nmsg s + 1))) as s2 eqn:Es2;
    (destruct (version_cb_spec s2) as [(s3 & E3 & G3 & L3 & N3 & NN3)|(E3 & H3)];
      [rewrite EM; apply zlen_2048; apply skipn_length_mem; [exact HB|lia]
      |rewrite EMo; exact HM| |]); rewrite E3 in EF0; cbn [bind] in EF0; try congruence;
    try rewrite EM in L3; try rewrite EM in N3; try rewrite EM, EMo in NN3; try rewrite EM, EMo in H3.
  - left. exists s', (quiet (7 + length pl) ++ [(calls_for ls 10 4 (pl ++ skipn (length pl) (inbuf s)), true)]).
    split; [exact EF|]. split; [exact Hid'|].
    injection EF0 as <- _. split; [exact G3|]. split; [|auto].
    destruct L3 as (A1 & A2 & A3 & A4).
    split; [exact A1|]. split; [intros H; destruct (A2 H) as [B1 B2]; rewrite <- Ema, <- Emi; split; [exact B1|exact B2]|].
    split; [exact A3|]. intros H. rewrite <- EMo. exact (A4 H).
  - right. split; [exact EF|exact H3].
Qed.
