(* What the library itself writes to standard output (C86):
     ubx.cpp:549-551    version_cb
     rtcm.cpp:107       read_cb (length check), rtcm.cpp:175 decode
     ublox.cpp:38-42    the constructor's retries
   Text on stderr (DBG), of listeners and of the navigation parser is not part of it. *)
From Coq Require Import String Ascii.
From Verif Require Import Base UbxSpec UbxModel UbxProofs UbxStream UbxMain UbxMore UbxHist UbxApi
  UbxTx UbxTxSpec UbxTxProofs RtcmModel RtcmSpec RtcmProofs RtcmApi UbloxModel UbloxSpec UbloxProofs UbloxApi UbloxThm ExShow TextSpec ConsoleSpec.
Local Open Scope string_scope.
Local Open Scope list_scope.
Local Open Scope Z_scope.

(* ---------------------------------------------------------------- model *)
(* %s: the characters before the first NUL *)
Fixpoint cstr (l : list Z) : string :=
  match l with [] => "" | c :: r => if c =? 0 then "" else String (ascii_of_N (Z.to_N c)) (cstr r) end.
(* ubx.cpp:549-551 *)
Definition version_text (ma mi : Z) (name : list Z) : string :=
  ("Connected:" ++ nl ++ "Module: " ++ cstr name ++ nl ++ "Protocol Version: " ++ dec ma ++ "." ++ dec mi ++ nl ++ nl)%string.
Definition version_of (s : ubx) : string := version_text (major s) (minor s) (modname s).
(* one byte given to UBX::read_cb (ubx.cpp:236-330) *)
Definition ubx_say (s : ubx) (b : Z) : outcome string :=
  let* (early, s1) := read_switch s b in
  if early then Ok ""
  else if is_ckb (st s1) then
    let* (a, c) := calculate_checksum (mcls s1) (mtyp s1) (mlen s1) (inbuf s1) in
    if negb (a =? cka s1) || negb (c =? ckb s1) then Ok ""
    else if (mcls s1 =? 0x0A) && (mtyp s1 =? 0x04)
    then let* s2 := version_cb (w_nmsg s1 (u32 (nmsg s1 + 1))) in Ok (version_of s2)
    else Ok ""
  else Ok "".
(* rtcm.cpp:107, 175 *)
Definition head_text : string := "buffer head > payload length".
Definition crc_text : string := ("RTCM not pass CRC check" ++ nl)%string.
(* one byte given to RTCM::read_cb (rtcm.cpp:63-159) *)
Definition rtcm_say (s : rtcm) (b : Z) : outcome string :=
  let* s1 := rtcm_switch s b in
  let t := (match r_st s with
            | R_GOT_LENGTH2 => if r_plen s1 <? u64 (r_head s1 - 3) then head_text else ""
            | _ => "" end) in
  if is_ckc (r_st s1) then
    let* ok := check_crc (rw_mlen (rw_new (rw_flags (rw_st s1 R_START) false true) true) (r_head s1)) in
    Ok (t ++ if ok then "" else crc_text)%string
  else Ok t.
(* ublox.cpp:120-139 *)
Definition ublox_say (s : ublox) (b : Z) : outcome string :=
  if parsing_message (u_ubx s) then ubx_say (u_ubx s) b
  else if rtcm_parsing (u_rtcm s) && (u_type s =? T_BASE) then rtcm_say (u_rtcm s) b
  else
    let* t1 := ubx_say (u_ubx s) b in
    let* t2 := rtcm_say (u_rtcm s) b in
    Ok (t1 ++ t2)%string.
Fixpoint ublox_says (s : ublox) (bs : list Z) : outcome string :=
  match bs with
  | [] => Ok ""
  | b :: r =>
      let* t := ublox_say s b in
      let* (s1, _) := ublox_byte s b in
      let* t2 := ublox_says s1 r in
      Ok (t ++ t2)%string
  end.
(* ublox.cpp:38-42: MAX_NUM_TRIES is 3 (ublox.h:39) *)
Definition retry_text (k : Z) : string := ("Unable to query version.  Trying again (" ++ dec k ++ " out of 3)" ++ nl)%string.
Definition version_says (s : ublox) (rx : list Z) : outcome string :=
  let s0 := uw_ubx s (w_ver (u_ubx s) false) in
  let* (s1, _) := usend send_ver_poll s0 in ublox_says s1 rx.
Definition ctor_says (u : uninit) (ru : runinit) (out0 : list Z) (nav_id : Z) (rx1 rx2 : list Z) : outcome string :=
  let s := ublox_blank u ru out0 nav_id in
  let* t1 := version_says s rx1 in
  let* (s1, _, ok1) := get_version s rx1 in
  if ok1 then Ok t1
  else
    let* t2 := version_says s1 rx2 in
    let* (_, _, ok2) := get_version s1 rx2 in
    Ok (t1 ++ retry_text 2 ++ t2 ++ if ok2 then "" else retry_text 3)%string.

(* ---------------------------------------------------------------- what is said about a frame, computed *)
Definition piece (d : ditem) (s : ublox) : string :=
  match d with
  | DUbx (Good cls id _) => if (cls =? 0x0A) && (id =? 0x04) then version_text (major (u_ubx s)) (minor (u_ubx s)) (modname (u_ubx s)) else ""
  | DRtcm (RBad _) => crc_text
  | _ => ""
  end.
Definition named (d : ditem) (s : ublox) : Prop :=
  match d with DUbx (Good cls id _) => (cls =? 0x0A) && (id =? 0x04) = true -> In 0 (modname (u_ubx s)) | _ => True end.
Lemma cstr_name l : In 0 l -> name_text l (cstr l).
Proof.
  induction l as [|c l IH]; intros H; [destruct H|]. cbn [cstr]. destruct (Z.eqb_spec c 0) as [->|Hne].
  - exists [], l. split; [reflexivity|]. split; [intros []|reflexivity].
  - destruct IH as (a & r & -> & Hn & ->); [destruct H; [congruence|assumption]|]. exists (c :: a), r. split; [reflexivity|].
    split; [intros [E|E]; [congruence|exact (Hn E)]|]. cbn [map string_of_list_ascii]. f_equal.
    unfold ascii_of_nat. f_equal. lia.
Qed.
Lemma name_fun l t t' : name_text l t -> name_text l t' -> t = t'.
Proof.
  intros (a & r & E & Hn & ->) (a' & r' & E' & Hn' & ->). assert (a = a') as ->; [|reflexivity].
  rewrite E in E'. clear E. revert a' E' Hn Hn'. induction a as [|x a IH]; intros [|x' a'] E Hn Hn'; cbn in E.
  - reflexivity.
  - exfalso. apply Hn'. left. congruence.
  - exfalso. apply Hn. left. congruence.
  - f_equal; [congruence|]. apply IH; [congruence|intros H; apply Hn; right; exact H|intros H; apply Hn'; right; exact H].
Qed.
Lemma banner_fun ma mi l t t' : banner ma mi l t -> banner ma mi l t' -> t = t'.
Proof. intros (x & H & ->) (x' & H' & ->). rewrite (name_fun l x x' H H'). reflexivity. Qed.
Lemma sapp_assoc (a b c : string) : (a ++ (b ++ c))%string = ((a ++ b) ++ c)%string.
Proof. induction a as [|x a IH]; [reflexivity|]. cbn. rewrite IH. reflexivity. Qed.
Lemma version_banner ma mi l : In 0 l -> banner ma mi l (version_text ma mi l).
Proof.
  intros H. exists (cstr l). split; [apply cstr_name; exact H|]. unfold version_text, line, nl, number, dec.
  change (ascii_of_nat 10) with "010"%char. change ("" ++ String "010" "")%string with (String "010" "").
  rewrite !sapp_assoc. reflexivity.
Qed.
Lemma piece_said d s : named d s -> said d s (piece d s).
Proof.
  destruct d as [b|[b|c i pl|c i pl ka kb|c i n]|[b|h|f|f]]; cbn [named said piece]; intros H; try reflexivity.
  destruct ((c =? 10) && (i =? 4)); [apply version_banner, H; reflexivity|reflexivity].
Qed.
Lemma said_fun d s t t' : said d s t -> said d s t' -> t = t'.
Proof.
  destruct d as [b|[b|c i pl|c i pl ka kb|c i n]|[b|h|f|f]]; cbn [said]; try congruence.
  destruct ((c =? 10) && (i =? 4)); [apply banner_fun|congruence].
Qed.

(* ---------------------------------------------------------------- proofs: one byte *)
Lemma sapp_nil_r (t : string) : (t ++ "")%string = t.
Proof. induction t as [|c t IH]; [reflexivity|]. cbn. rewrite IH. reflexivity. Qed.
Lemma ubx_say_quiet ls s b s' c : read_cb ls s b = Ok (s', c, false) -> ubx_say s b = Ok "".
Proof.
  unfold read_cb, ubx_say. destruct (read_switch s b) as [[early s1]|k]; cbn [bind]; [|discriminate]. destruct early; [reflexivity|].
  destruct (is_ckb (st s1)); [|reflexivity]. unfold decode_message.
  destruct (calculate_checksum (mcls s1) (mtyp s1) (mlen s1) (inbuf s1)) as [[a d]|k]; cbn [bind]; [|discriminate].
  destruct (negb (a =? cka s1) || negb (d =? ckb s1)); [reflexivity|]. cbv zeta.
  destruct (decode_switch (w_nmsg s1 (u32 (nmsg s1 + 1)))) as [s2|k]; cbn [bind]; [|discriminate]. intros H. exfalso. congruence.
Qed.
Lemma ubx_say_call i keys s b s' cls id m ok : read_cb [mkML i keys] s b = Ok (s', [mkCall i cls id m], ok) ->
  ubx_say s b = Ok (if (cls =? 0x0A) && (id =? 0x04) then version_of s' else "") /\
  ((cls =? 0x0A) && (id =? 0x04) = true -> In 0 (modname s')).
Proof.
  unfold read_cb, ubx_say. destruct (read_switch s b) as [[early s1]|k]; cbn [bind]; [|discriminate]. destruct early; [discriminate|].
  destruct (is_ckb (st s1)); [|discriminate]. unfold decode_message.
  destruct (calculate_checksum (mcls s1) (mtyp s1) (mlen s1) (inbuf s1)) as [[a d]|k]; cbn [bind]; [|discriminate].
  destruct (negb (a =? cka s1) || negb (d =? ckb s1)); [discriminate|]. cbv zeta.
  set (x := w_nmsg s1 (u32 (nmsg s1 + 1))).
  destruct (decode_switch x) as [s2|k] eqn:ED; cbn [bind]; [|discriminate]. intros H.
  assert (EN : notify [mkML i keys] s2 = [mkCall i cls id m]) by congruence.
  assert (ES : version_of s' = version_of s2) by (assert (s' = w_prev (w_flags (w_st s2 START) false true) b) by congruence; subst s'; reflexivity).
  assert (EM : modname s' = modname s2) by (assert (s' = w_prev (w_flags (w_st s2 START) false true) b) by congruence; subst s'; reflexivity).
  rewrite ES, EM. clear H ES EM.
  unfold notify in EN. cbn [filter] in EN. destruct (subscribed (mkML i keys) (mcls s2) (mtyp s2)); [|discriminate]. cbn [map ml_id] in EN.
  assert (E1 : mcls s2 = cls) by congruence. assert (E2 : mtyp s2 = id) by congruence.
  destruct (decode_switch_frame x s2 ED) as [EF _].
  assert (E3 : mcls s2 = mcls s1) by (rewrite EF; reflexivity). assert (E4 : mtyp s2 = mtyp s1) by (rewrite EF; reflexivity).
  rewrite <- E1, <- E2, E3, E4.
  destruct ((mcls s1 =? 10) && (mtyp s1 =? 4)) eqn:EC; [|split; [reflexivity|discriminate]].
  apply andb_prop in EC. destruct EC as [C1 C2]. unfold decode_switch in ED.
  change (mcls x) with (mcls s1) in ED. change (mtyp x) with (mtyp s1) in ED. rewrite C1, C2 in ED.
  replace (mcls s1 =? 5) with false in ED by (apply Z.eqb_eq in C1; lia). rewrite ED. split; [reflexivity|]. intros _.
  unfold version_cb in ED. destruct (version_loop 20 0 x) as [y|k]; cbn [bind] in ED; [|discriminate]. unfold print_name in ED.
  destruct (existsb (Z.eqb 0) (modname y)) eqn:EX; cbn [bind] in ED; [|discriminate].
  assert (EY : modname s2 = modname y) by (assert (s2 = w_ver y true) by congruence; subst s2; reflexivity). rewrite EY.
  apply existsb_exists in EX. destruct EX as (z & Hz & E0). apply Z.eqb_eq in E0. subst z. exact Hz.
Qed.

(* the state does not depend on who listens *)
Lemma read_cb_ls ls ls' s b s' c ok : read_cb ls s b = Ok (s', c, ok) -> exists c', read_cb ls' s b = Ok (s', c', ok).
Proof.
  unfold read_cb. destruct (read_switch s b) as [[early s1]|k]; cbn [bind]; [|discriminate].
  destruct early; [intros H; exists []; congruence|]. destruct (is_ckb (st s1)); [|intros H; exists []; congruence]. unfold decode_message.
  destruct (calculate_checksum (mcls s1) (mtyp s1) (mlen s1) (inbuf s1)) as [[a d]|k]; cbn [bind]; [|discriminate].
  destruct (negb (a =? cka s1) || negb (d =? ckb s1)); [intros H; exists []; cbn [bind] in *; congruence|]. cbv zeta.
  destruct (decode_switch (w_nmsg s1 (u32 (nmsg s1 + 1)))) as [s2|k]; cbn [bind]; [|discriminate].
  intros H. exists (notify ls' s2). congruence.
Qed.

Lemma rtcm_say_spec s p b s' c : RSt s p -> bytes_ok p -> byte_ok b -> rtcm_byte [0] (rw_new s false) b = Ok (s', c) ->
  rtcm_say s b = Ok (match c with [] => if r_new s' then crc_text else "" | _ :: _ => "" end).
Proof.
  intros HS Hp Hb. unfold rtcm_byte, rtcm_say.
  assert (HSW : forall x, rtcm_switch (rw_new s x) b = (let* y := rtcm_switch s b in Ok (rw_new y x))).
  { intros x. unfold rtcm_switch. change (r_st (rw_new s x)) with (r_st s).
    assert (HP : rpush (rw_new s x) b = (let* y := rpush s b in Ok (rw_new y x))).
    { unfold rpush. change (r_buf (rw_new s x)) with (r_buf s). change (r_head (rw_new s x)) with (r_head s). destruct (aset (r_buf s) (r_head s) b); reflexivity. }
    destruct (r_st s) eqn:Est.
    - destruct (b =? R_START_BYTE); [|reflexivity]. unfold rpush. cbv zeta. proj. destruct (aset (r_buf s) 0 b); reflexivity.
    - rewrite HP. destruct (rpush s b); reflexivity.
    - rewrite HP. destruct (rpush s b) as [y|k]; [|reflexivity]. cbn [bind]. cbv zeta. proj. destruct (_ || _); reflexivity.
    - rewrite HP. destruct (rpush s b) as [y|k]; [|reflexivity]. cbn [bind]. cbv zeta. proj.
      destruct (u64 (r_head y - 3) =? r_plen y); cbv iota; proj; destruct (r_plen y <? u64 (r_head y - 3)); reflexivity.
    - rewrite HP. destruct (rpush s b); reflexivity.
    - rewrite HP. destruct (rpush s b); reflexivity.
    - rewrite HP. destruct (rpush s b) as [y|k]; [|reflexivity]. cbn [bind]. proj. destruct (R_BUFFER_SIZE <? r_head y); reflexivity.
    - reflexivity. }
  rewrite HSW. destruct (rtcm_switch s b) as [s1|k] eqn:ESW; cbn [bind]; [|discriminate].
  assert (HT : match r_st s with R_GOT_LENGTH2 => if r_plen s1 <? u64 (r_head s1 - 3) then head_text else "" | _ => "" end = "").
  { destruct (r_st s) eqn:Est; try reflexivity. unfold rtcm_switch in ESW. rewrite Est in ESW.
    destruct HS as [H1 H2 H3 H4|p rest stg E1 E2 E3 E4 E5 E6 E7 E8 E9]; [congruence|].
    rewrite Est in E8. subst stg. remember R_GOT_LENGTH2 as stg eqn:Es. remember (r_plen s) as n eqn:En. destruct E9; try discriminate Es. clear Es.
    assert (Hh2 : byte_ok h2) by (inversion Hp as [|? ? _ Hp1]; inversion Hp1 as [|? ? _ Hp2]; inversion Hp2; assumption).
    pose proof (rtcm_len_range h1 h2 Hh2) as HR.
    assert (HZ : Zlen (0xD3 :: h1 :: h2 :: q) = 3 + Zlen q) by (rewrite !Zlen_cons; lia).
    destruct (rpush_ok s _ rest b E1 E4 E2 E3 Hb) as [HA HB].
    destruct (Z.ltb_spec (Zlen (0xD3 :: h1 :: h2 :: q)) 1024) as [HL|HL]; [|rewrite (HB HL) in ESW; discriminate].
    destruct (HA HL) as (rest' & _ & _ & EP). rewrite EP in ESW. cbn [bind] in ESW. cbv zeta in ESW.
    assert (HZ1 : Zlen ((0xD3 :: h1 :: h2 :: q) ++ [b]) = 4 + Zlen q) by (rewrite Zlen_app, HZ; change (Zlen [b]) with 1; lia).
    rewrite HZ1 in ESW. cbn [rw_buf rw_head rw_st r_plen r_head] in ESW. rewrite <- En in ESW. pose proof (Zlen_nonneg q) as Hq.
    replace (4 + Zlen q - 3) with (Zlen q + 1) in ESW by lia.
    assert (HU : u64 (Zlen q + 1) = Zlen q + 1) by (apply u64_id; split; [lia|]; change (2 ^ 64) with 18446744073709551616; lia).
    rewrite HU in ESW.
    assert (HK : forall y, r_plen y = rtcm_len h1 h2 -> r_head y = 4 + Zlen q -> (r_plen y <? u64 (r_head y - 3)) = false).
    { intros y Y1 Y2. rewrite Y1, Y2. replace (4 + Zlen q - 3) with (Zlen q + 1) by lia. rewrite HU. lia. }
    destruct (Zlen q + 1 =? rtcm_len h1 h2).
    - rewrite HK in ESW; [|cbn; congruence|reflexivity]. assert (EQ : s1 = s1) by reflexivity.
      injection ESW as <-. rewrite HK; [reflexivity|cbn; congruence|reflexivity].
    - rewrite HK in ESW; [|cbn; congruence|reflexivity].
      injection ESW as <-. rewrite HK; [reflexivity|cbn; congruence|reflexivity]. }
  rewrite HT. change (r_st (rw_new s1 false)) with (r_st s1). destruct (is_ckc (r_st s1)).
  - unfold rtcm_decode. cbv zeta.
    match goal with |- context [check_crc ?x] => set (c1 := check_crc x) end.
    match goal with |- _ -> (let* ok := ?c in _) = _ => change c with c1 end.
    destruct c1 as [ok|k]; cbn [bind]; [|discriminate].
    intros H. destruct ok.
    + match type of H with Ok (_, ?l) = _ => assert (EC : l = c) by congruence end. cbn [map] in EC. rewrite <- EC. reflexivity.
    + match type of H with Ok (_, ?l) = _ => assert (EC : l = c) by congruence end. rewrite <- EC. clear EC. assert (HN : r_new s' = true).
      { match type of H with Ok (?a, _) = _ => assert (s' = a) by congruence end. subst s'. reflexivity. }
      rewrite HN. reflexivity.
  - intros H. assert (s' = rw_prev (rw_new s1 false) b) by congruence. assert (c = []) by congruence. subst s' c. reflexivity.
Qed.

(* ---------------------------------------------------------------- proofs: one reader over several bytes *)
(* one entry per byte *)
Fixpoint ubx_says (ls : list mlistener) (s : ubx) (bs : list Z) : outcome string :=
  match bs with
  | [] => Ok ""
  | b :: r =>
      let* t := ubx_say s b in
      let* (s1, _, _) := read_cb ls s b in
      let* t2 := ubx_says ls s1 r in
      Ok (t ++ t2)%string
  end.
Fixpoint rtcm_says (ls : list Z) (s : rtcm) (bs : list Z) : outcome string :=
  match bs with
  | [] => Ok ""
  | b :: r =>
      let* t := rtcm_say s b in
      let* (s1, _) := rtcm_byte ls s b in
      let* t2 := rtcm_says ls s1 r in
      Ok (t ++ t2)%string
  end.

Lemma ubx_says_quiet ls ls' : forall bs s s' n, feed ls' s bs = Ok (s', quiet n) -> ubx_says ls s bs = Ok "".
Proof.
  induction bs as [|b r IH]; intros s s' n E; [reflexivity|]. cbn [feed] in E. cbn [ubx_says].
  destruct (read_cb ls' s b) as [[[s1 c] ok]|k] eqn:E1; cbn [bind] in E; [|discriminate].
  destruct (feed ls' s1 r) as [[s2 o]|k] eqn:E2; cbn [bind] in E; [|discriminate].
  destruct n as [|n]; [discriminate|]. cbn [quiet repeat] in E.
  assert (ok = false) by congruence. assert (EO : o = quiet n) by (unfold quiet; congruence). subst ok o.
  rewrite (ubx_say_quiet ls' s b s1 c E1). cbn [bind].
  destruct (read_cb_ls ls' ls s b s1 c false E1) as (c' & E1'). rewrite E1'. cbn [bind].
  rewrite (IH s1 s2 n E2). reflexivity.
Qed.
Lemma ubx_says_call ls i keys cls id m ok : forall bs s s' n,
  feed [mkML i keys] s bs = Ok (s', quiet n ++ [([mkCall i cls id m], ok)]) ->
  ubx_says ls s bs = Ok (if (cls =? 0x0A) && (id =? 0x04) then version_of s' else "") /\
  ((cls =? 0x0A) && (id =? 0x04) = true -> In 0 (modname s')).
Proof.
  induction bs as [|b r IH]; intros s s' n E; [destruct n; discriminate|]. cbn [feed] in E. cbn [ubx_says].
  destruct (read_cb [mkML i keys] s b) as [[[s1 c] ok1]|k] eqn:E1; cbn [bind] in E; [|discriminate].
  destruct (feed [mkML i keys] s1 r) as [[s2 o]|k] eqn:E2; cbn [bind] in E; [|discriminate].
  destruct n as [|n]; cbn [quiet repeat app] in E.
  - injection E as X1 X2 X3 X4. subst c o s2.
    destruct (ubx_say_call i keys s b s1 cls id m ok1 E1) as [ESC HNM]. rewrite ESC. cbn [bind].
    destruct (read_cb_ls _ ls s b s1 _ ok1 E1) as (c' & E1'). rewrite E1'. cbn [bind].
    destruct r as [|y r].
    + cbn [feed] in E2. assert (s1 = s') by congruence. subst s1. cbn [ubx_says bind]. rewrite sapp_nil_r. split; [reflexivity|exact HNM].
    + cbn [feed] in E2. destruct (read_cb [mkML i keys] s1 y) as [[[s3 c3] ok3]|k]; cbn [bind] in E2; [|discriminate].
      destruct (feed [mkML i keys] s3 r) as [[s4 o4]|k]; cbn [bind] in E2; discriminate.
  - injection E as X1 X2 X3 X4. change (o = quiet n ++ [([mkCall i cls id m], ok)]) in X4. subst ok1 o s2.
    rewrite (ubx_say_quiet _ s b s1 c E1). cbn [bind].
    destruct (read_cb_ls _ ls s b s1 c false E1) as (c' & E1'). rewrite E1'. cbn [bind].
    destruct (IH s1 s' n E2) as [EI HNM]. rewrite EI. split; [reflexivity|exact HNM].
Qed.
(* the text for one item of the UBX reader's segmentation *)
Definition item_text (it : item) (s' : ubx) : string :=
  match it with Good cls id _ => if (cls =? 0x0A) && (id =? 0x04) then version_of s' else "" | _ => "" end.
Definition item_named (it : item) (s' : ubx) : Prop :=
  match it with Good cls id _ => (cls =? 0x0A) && (id =? 0x04) = true -> In 0 (modname s') | _ => True end.
Lemma feed_ls ls ls' : forall bs s s' o, feed ls s bs = Ok (s', o) -> exists o', feed ls' s bs = Ok (s', o').
Proof.
  induction bs as [|b r IH]; intros s s' o E; cbn [feed] in *.
  - eexists. reflexivity || (assert (s = s') by congruence; subst; reflexivity).
  - destruct (read_cb ls s b) as [[[s1 c] ok]|k] eqn:E1; cbn [bind] in E; [|discriminate].
    destruct (feed ls s1 r) as [[s2 o2]|k] eqn:E2; cbn [bind] in E; [|discriminate].
    assert (s2 = s') by congruence. subst s2.
    destruct (read_cb_ls ls ls' s b s1 c ok E1) as (c' & E1'). rewrite E1'. cbn [bind].
    destruct (IH s1 s' o2 E2) as (o3 & E3). rewrite E3. eexists. reflexivity.
Qed.
Lemma ubx_item_says ls s it s' o : Idle s -> item_ok (prev s) it -> item_bytes_ok it ->
  feed ls s (item_bytes it) = Ok (s', o) -> ubx_says ls s (item_bytes it) = Ok (item_text it s') /\ item_named it s'.
Proof.
  intros HI Hok Hby EF.
  set (key := match it with Good cls id _ => [(cls, id)] | _ => [] end).
  assert (Hl : Forall listener_ok [mkListener 0 key]).
  { constructor; [|constructor]. unfold listener_ok. cbn [subs]. destruct it as [b|cls id pl|cls id pl ka kb|cls id n]; cbn; try constructor; [|constructor].
    unfold item_bytes_ok, item_bytes, ubx_body in Hby. cbn [app] in Hby.
    inversion Hby as [|? ? _ H1]; subst. inversion H1 as [|? ? Ha H2]; subst. inversion H2; subst. split; assumption. }
  destruct (feed_ls ls (map build [mkListener 0 key]) _ _ _ _ EF) as (o' & EF').
  destruct (exec_item [mkListener 0 key] s it Hl HI Hok Hby) as [(s1 & E & _)|[_ E]]; [|congruence].
  assert (s1 = s') by congruence. subst s1.
  destruct it as [b|cls id pl|cls id pl ka kb|cls id n]; cbn [item_outs item_text item_named] in *;
    try (split; [|exact I]; eapply ubx_says_quiet; exact E).
  eapply ubx_says_call with (i := 0) (m := item_mem (inbuf s) (Good cls id pl)).
  assert (EC : calls_for [mkListener 0 key] cls id (item_mem (inbuf s) (Good cls id pl)) = [mkCall 0 cls id (item_mem (inbuf s) (Good cls id pl))]).
  { unfold calls_for, wants, key, pair_eqb. cbn [filter subs existsb fst snd]. rewrite !Z.eqb_refl. reflexivity. }
  rewrite EC in E. exact E.
Qed.

Definition ritem_text (it : ritem) : string := match it with RBad _ => crc_text | _ => "" end.
Lemma rsay_step ls s p b it q : RSt s p -> bytes_ok p -> byte_ok b -> ritem_ok it -> ritem_bytes it = p ++ b :: q ->
  rtcm_say s b = Ok (match q with [] => ritem_text it | _ => "" end) /\
  exists s1 c, rtcm_byte ls s b = Ok (s1, c) /\ (q <> [] -> RSt s1 (p ++ [b])).
Proof.
  intros HS Hp Hb Hit EB.
  assert (HS0 : RSt (rw_new s false) p).
  { destruct HS as [H1 H2 H3 H4|p rest stg E1 E2 E3 E4 E5 E6 E7 E8 E9].
    - apply RS_idle; assumption.
    - eapply RS_part with (rest := rest); eassumption. }
  assert (HT : rtail_ok (p ++ b :: q) -> False).
  { intros H. apply (ritem_not_tail it [] Hit). rewrite app_nil_r, EB. exact H. }
  assert (HTM : forall x, RSt x (p ++ [b]) -> q = [] -> False).
  { intros x HX ->. apply HT. exact (rst_tail x _ HX). }
  assert (HU : forall it', ritem_ok it' -> ritem_bytes it' = p ++ [b] -> q = [] /\ it' = it).
  { intros it' Hit' E'. assert (EE : ritem_bytes it' ++ q = ritem_bytes it ++ []) by (rewrite app_nil_r, E', EB, <- app_assoc; reflexivity).
    apply ritem_unique in EE; [|assumption|assumption]. tauto. }
  split.
  - destruct (rstep [0] (rw_new s false) p b HS0 Hb Hp) as [s1 E1 HS1 HN1|s1 it' cs E1 HS1 Hit' EB' EO HN1|E1 HL].
    + rewrite (rtcm_say_spec s p b s1 [] HS Hp Hb E1). rewrite HN1. cbn. destruct q; [exfalso; exact (HTM s1 HS1 eq_refl)|reflexivity].
    + rewrite (rtcm_say_spec s p b s1 cs HS Hp Hb E1). destruct (HU it' Hit' EB') as [-> ->]. rewrite HN1. cbn [r_new rw_new orb].
      destruct it as [x|h|f|f]; cbn [ritem_outs ritem_complete ritem_text] in *; [| |apply (f_equal (fun l => last l [])) in EO; rewrite !last_last in EO; cbn [map] in EO; rewrite <- EO; reflexivity|].
      * assert (cs = []) as -> ; [|reflexivity].
        apply (f_equal (fun l => last l [])) in EO. rewrite last_last in EO. cbn in EO. symmetry. exact EO.
      * assert (cs = []) as -> ; [|reflexivity].
        apply (f_equal (fun l => last l [])) in EO. rewrite last_last in EO. rewrite <- EO. unfold rquiet.
        clear. induction (length (ritem_bytes (REmpty h))) as [|n IH]; [reflexivity|]. cbn [repeat]. destruct n; [reflexivity|exact IH].
      * assert (cs = []) as -> ; [|reflexivity].
        apply (f_equal (fun l => last l [])) in EO. rewrite last_last in EO. rewrite <- EO. unfold rquiet.
        clear. induction (length (ritem_bytes (RBad f))) as [|n IH]; [reflexivity|]. cbn [repeat]. destruct n; [reflexivity|exact IH].
    + exfalso. apply HT. apply (rst_over_tail s p (b :: q) HS Hp HL).
  - destruct (rstep ls s p b HS Hb Hp) as [s1 E1 HS1 HN1|s1 it' cs E1 HS1 Hit' EB' EO HN1|E1 HL].
    + eauto 6.
    + destruct (HU it' Hit' EB') as [-> _]. exists s1, cs. split; [exact E1|]. congruence.
    + exfalso. apply HT. apply (rst_over_tail s p (b :: q) HS Hp HL).
Qed.
Lemma ritem_says ls it : ritem_ok it -> forall q p s, ritem_bytes it = p ++ q -> q <> [] -> bytes_ok (ritem_bytes it) -> RSt s p ->
  rtcm_says ls s q = Ok (ritem_text it).
Proof.
  intros Hit. induction q as [|b q IH]; intros p s EB Hq Hby HS; [congruence|].
  assert (HB : bytes_ok p /\ byte_ok b).
  { rewrite EB in Hby. apply bytes_ok_app in Hby. destruct Hby as [H1 H2]. inversion H2; auto. }
  destruct (rsay_step ls s p b it q HS (proj1 HB) (proj2 HB) Hit EB) as (ES & s1 & c & E1 & HS1).
  cbn [rtcm_says]. rewrite ES. cbn [bind]. rewrite E1. cbn [bind].
  destruct q as [|y q]; [cbn [rtcm_says bind]; rewrite sapp_nil_r; reflexivity|].
  rewrite (IH (p ++ [b]) s1); [reflexivity|rewrite EB, <- app_assoc; reflexivity|discriminate|exact Hby|apply HS1; discriminate].
Qed.

(* ---------------------------------------------------------------- the whole object *)
Lemma ublox_says_app a b : forall s s1 ev, ublox_read s a = Ok (s1, ev) ->
  ublox_says s (a ++ b) = (let* t1 := ublox_says s a in let* t2 := ublox_says s1 b in Ok (t1 ++ t2)%string).
Proof.
  induction a as [|x a IH]; intros s s1 ev E; cbn [app ublox_read bind ublox_says] in *.
  - assert (s = s1) by congruence. subst s1. destruct (ublox_says s b); reflexivity.
  - destruct (ublox_say s x) as [t|k]; cbn [bind]; [|reflexivity].
    destruct (ublox_byte s x) as [[s2 e2]|k]; cbn [bind] in *; [|discriminate].
    destruct (ublox_read s2 a) as [[s3 e3]|k] eqn:E3; cbn [bind] in *; [|discriminate].
    assert (s3 = s1) by congruence. subst s3. rewrite (IH s2 s1 e3 E3).
    destruct (ublox_says s2 a) as [t1|k]; cbn [bind]; [|reflexivity].
    destruct (ublox_says s1 b) as [t2|k]; cbn [bind]; [|reflexivity]. rewrite sapp_assoc. reflexivity.
Qed.
Lemma run_ubx_says : forall bs s,
  (forall a b xa o, bs = a ++ b -> b <> [] -> feed (u_ls s) (u_ubx s) a = Ok (xa, o) -> parsing_message xa = true) ->
  ublox_says s bs = ubx_says (u_ls s) (u_ubx s) bs.
Proof.
  induction bs as [|b r IH]; intros s H; [reflexivity|].
  cbn [ublox_says ubx_says]. unfold ublox_say, ublox_byte.
  rewrite (H [] (b :: r) (u_ubx s) []) by (reflexivity || discriminate). unfold to_ubx.
  destruct (ubx_say (u_ubx s) b) as [t|k]; cbn [bind]; [|reflexivity].
  destruct (read_cb (u_ls s) (u_ubx s) b) as [[[x c] ok]|k] eqn:E; cbn [bind]; [|reflexivity].
  rewrite IH; [reflexivity|].
  cbn [uw_ubx u_ls u_ubx]. intros a b0 xa o Er Hb EF. subst r.
  apply (H (b :: a) b0 xa ((c, ok) :: o)); [reflexivity|exact Hb|].
  cbn [feed]. rewrite E. cbn [bind]. rewrite EF. reflexivity.
Qed.
Lemma run_rtcm_says : forall bs s,
  u_type s = T_BASE -> parsing_message (u_ubx s) = false ->
  (forall a b xa o, bs = a ++ b -> b <> [] -> rtcm_feed (rls s) (u_rtcm s) a = Ok (xa, o) -> rtcm_parsing xa = true) ->
  ublox_says s bs = rtcm_says (rls s) (u_rtcm s) bs.
Proof.
  induction bs as [|b r IH]; intros s HT HP H; [reflexivity|].
  cbn [ublox_says rtcm_says]. unfold ublox_say, ublox_byte. rewrite HP.
  rewrite (H [] (b :: r) (u_rtcm s) []) by (reflexivity || discriminate). rewrite HT, Z.eqb_refl. cbn [andb].
  unfold to_rtcm. fold (rls s).
  destruct (rtcm_say (u_rtcm s) b) as [t|k]; cbn [bind]; [|reflexivity].
  destruct (rtcm_byte (rls s) (u_rtcm s) b) as [[x c]|k] eqn:E; cbn [bind]; [|reflexivity].
  rewrite IH; [reflexivity|exact HT|exact HP|].
  unfold rls. cbn [uw_rtcm u_nreg u_rtcm]. fold (rls s). intros a b0 xa o Er Hb EF. subst r.
  apply (H (b :: a) b0 xa (c :: o)); [reflexivity|exact Hb|].
  cbn [rtcm_feed]. rewrite E. cbn [bind]. rewrite EF. reflexivity.
Qed.
(* a byte that is not D3 is not printed about by the RTCM reader between frames *)
Lemma rnoise_say s b : RSt s [] -> byte_ok b -> b <> 0xD3 -> rtcm_say s b = Ok "".
Proof.
  intros HS Hb Hne. destruct (rsay_step [] s [] b (RNoise b) [] HS (Forall_nil _) Hb Hne eq_refl) as [E _]. exact E.
Qed.
Lemma say_both s b t : parsing_message (u_ubx s) = false -> rtcm_parsing (u_rtcm s) = false ->
  ubx_say (u_ubx s) b = Ok t -> rtcm_say (u_rtcm s) b = Ok "" -> ublox_say s b = Ok t.
Proof. intros H1 H2 E1 E2. unfold ublox_say. rewrite H1, H2, E1, E2. cbn [andb bind]. rewrite sapp_nil_r. reflexivity. Qed.

Lemma noise_says T ls s b : idle_as T ls s -> byte_ok b -> b <> 0xD3 -> ~ (prev (u_ubx s) = 0xB5 /\ b = 0x62) -> ublox_say s b = Ok "".
Proof.
  intros (HT & HL & HI & HR) Hb Hne Hn. apply say_both; [apply idle_parsing; exact HI|apply (rst_parsing _ [] HR); reflexivity| |apply rnoise_say; assumption].
  apply (ubx_say_quiet [] _ _ (w_prev (u_ubx s) b) []). apply read_noise; [apply HI|exact Hn].
Qed.

Lemma ubx_frame_says T ls s it s3 ev :
  Forall listener_ok ls -> idle_as T ls s -> item_ok 0xB5 it -> is_noise it = false -> bytes_ok (0xB5 :: item_bytes it) ->
  ublox_read s (0xB5 :: item_bytes it) = Ok (s3, ev) ->
  ublox_says s (0xB5 :: item_bytes it) = Ok (item_text it (u_ubx s3)) /\ item_named it (u_ubx s3).
Proof.
  intros Hls HB Hok Hn Hby ERD. inversion Hby as [|? ? Hb5 Hit]; subst.
  destruct (read_noise_both T ls s 0xB5 HB Hb5) as (s1 & E1 & HB1 & HC1 & EU1); [lia|lia|].
  assert (ES : ublox_say s 0xB5 = Ok "") by (apply (noise_says T ls s 0xB5 HB Hb5); lia).
  cbn [ublox_says]. rewrite ES. cbn [bind]. rewrite E1. cbn [bind].
  cbn [ublox_read] in ERD. rewrite E1 in ERD. cbn [bind] in ERD.
  destruct (ublox_read s1 (item_bytes it)) as [[s3' ev']|k] eqn:ERD'; cbn [bind] in ERD; [|discriminate].
  assert (s3' = s3) by congruence. subst s3'. clear ERD.
  destruct HB1 as (HT1 & HL1 & HI1 & HR1).
  assert (HP1 : prev (u_ubx s1) = 0xB5) by (rewrite EU1; reflexivity).
  assert (Hok1 : item_ok (prev (u_ubx s1)) it) by (rewrite HP1; exact Hok).
  destruct (item_bytes it) as [|y body] eqn:EB; [destruct it; discriminate|].
  assert (y = 0x62) as -> by (destruct it; cbn [is_noise] in Hn; [discriminate| | |]; cbn [item_bytes] in EB; congruence).
  inversion Hit as [|? ? H62 Hbody]; subst.
  destruct (rnoise_byte (rls s1) (u_rtcm s1) 0x62 HR1 H62) as (r2 & Er2 & HR2); [lia|].
  assert (Hiby : item_bytes_ok it) by (unfold item_bytes_ok; rewrite EB; exact Hit).
  assert (HX : exists x2 o2, read_cb (map build ls) (u_ubx s1) 0x62 = Ok (x2, [], o2)).
  { assert (HT : tail_ok (prev (u_ubx s1)) [0x62]).
    { rewrite HP1. right. split; [reflexivity|]. exists []. split; [reflexivity|]. left. reflexivity. }
    destruct (exec_tail (map build ls) (u_ubx s1) [0x62] HI1 HT) as (x' & EF & _); [constructor; [exact H62|constructor]|].
    cbn [feed] in EF. destruct (read_cb (map build ls) (u_ubx s1) 0x62) as [[[x2 c2] o2]|k]; cbn [bind] in EF; [|discriminate].
    cbn [quiet repeat length] in EF. injection EF as -> -> ->. eauto. }
  destruct HX as (x2 & o2 & Ex2).
  set (s2 := uw_rtcm (uw_ubx s1 x2) r2).
  assert (Eb2 : ublox_byte s1 0x62 = Ok (s2, [])).
  { apply (byte_both s1 0x62 x2 [] o2); [apply idle_parsing; exact HI1|apply (rst_parsing _ [] HR1); reflexivity| |exact Er2].
    rewrite HL1. exact Ex2. }
  assert (Els : u_ls s2 = map build ls) by (unfold s2; cbn [uw_rtcm uw_ubx u_ls]; exact HL1).
  assert (HPR : forall a b xa o, body = a ++ b -> b <> [] -> feed (u_ls s2) (u_ubx s2) a = Ok (xa, o) -> parsing_message xa = true).
  { rewrite Els. change (u_ubx s2) with x2. intros a b xa o Eab Hb EF.
    assert (HT : tail_ok (prev (u_ubx s1)) (0x62 :: a)).
    { rewrite HP1. apply (item_prefix_tail it (0x62 :: a) b Hok Hn); [rewrite EB, Eab; reflexivity|discriminate|exact Hb]. }
    destruct (exec_tail (map build ls) (u_ubx s1) (0x62 :: a) HI1 HT) as (x' & EF' & _ & _ & HPa).
    { constructor; [exact H62|]. rewrite Eab in Hbody. apply bytes_ok_app in Hbody. tauto. }
    cbn [feed] in EF'. rewrite Ex2 in EF'. cbn [bind] in EF'. rewrite EF in EF'. cbn [bind] in EF'. injection EF' as -> _.
    apply HPa. discriminate. }
  cbn [ublox_read] in ERD'. rewrite Eb2 in ERD'. cbn [bind] in ERD'. rewrite (run_ubx body s2 HPR), Els in ERD'. change (u_ubx s2) with x2 in ERD'.
  destruct (feed (map build ls) x2 body) as [[x3 outs]|k] eqn:EFb; cbn [lift_ubx bind] in ERD'; [|discriminate].
  assert (EX3 : u_ubx s3 = x3) by (assert (s3 = uw_ubx s2 x3) by congruence; subst s3; reflexivity).
  assert (EF : feed (map build ls) (u_ubx s1) (item_bytes it) = Ok (x3, ([], o2) :: outs)).
  { rewrite EB. cbn [feed]. rewrite Ex2. cbn [bind]. rewrite EFb. reflexivity. }
  destruct (ubx_item_says (map build ls) (u_ubx s1) it x3 _ HI1 Hok1 Hiby EF) as [HSY HNM].
  rewrite EB in HSY. cbn [ubx_says] in HSY. rewrite Ex2 in HSY. cbn [bind] in HSY.
  destruct (ubx_say (u_ubx s1) 0x62) as [t|k] eqn:ET; cbn [bind] in HSY; [|discriminate].
  cbn [ublox_says]. rewrite (say_both s1 0x62 t); [|apply idle_parsing; exact HI1|apply (rst_parsing _ [] HR1); reflexivity|exact ET|apply rnoise_say; [exact HR1|exact H62|lia]].
  cbn [bind]. rewrite Eb2. cbn [bind]. rewrite (run_ubx_says body s2 HPR), Els. change (u_ubx s2) with x2.
  destruct (ubx_says (map build ls) x2 body) as [t2|k]; cbn [bind] in *; [|discriminate]. rewrite EX3. split; [exact HSY|exact HNM].
Qed.

Lemma rtcm_frame_says ls s it :
  base_idle ls s -> ritem_ok it -> is_rnoise it = false -> bytes_ok (ritem_bytes it) -> ublox_says s (ritem_bytes it) = Ok (ritem_text it).
Proof.
  intros (HT & HL & HI & HR) Hok Hn Hby.
  assert (HD : exists body, ritem_bytes it = 0xD3 :: body /\ body <> []).
  { destruct (ritem_cases it Hok) as [(b & -> & _)|[(h & -> & _)|(h1 & h2 & q & EB & _)]]; [discriminate Hn|eexists; split; [reflexivity|discriminate]|].
    rewrite EB. eexists; split; [reflexivity|discriminate]. }
  destruct HD as (body & EB & HNE).
  assert (HD3 : byte_ok 0xD3) by (unfold byte_ok; lia).
  destruct (rsay_step (rls s) (u_rtcm s) [] 0xD3 it body HR (Forall_nil _) HD3 Hok EB) as (ES & r1 & c1 & Er & HS1).
  assert (EQ : rtcm_say (u_rtcm s) 0xD3 = Ok "") by (destruct body; [congruence|exact ES]). clear ES.
  pose proof (ritem_says (rls s) it Hok (0xD3 :: body) [] (u_rtcm s) EB) as HSY.
  cbn [rtcm_says] in HSY. rewrite EQ, Er in HSY. cbn [bind] in HSY.
  specialize (HSY ltac:(discriminate) Hby HR).
  set (x1 := w_prev (u_ubx s) 0xD3).
  assert (Ex : read_cb (u_ls s) (u_ubx s) 0xD3 = Ok (x1, [], false)) by (apply read_noise; [apply HI|lia]).
  set (s1 := uw_rtcm (uw_ubx s x1) r1).
  assert (Eb : ublox_byte s 0xD3 = Ok (s1, flat_map (fun c => got_rtcm s (snd c)) c1)).
  { unfold ublox_byte. rewrite (idle_parsing _ HI). rewrite (proj2 (rst_parsing _ [] HR) eq_refl). cbn [andb].
    unfold to_ubx. rewrite Ex. cbn [bind]. unfold to_rtcm. cbn [uw_ubx u_nreg u_rtcm]. fold (rls s). rewrite Er. cbn [bind map app]. reflexivity. }
  rewrite EB. cbn [ublox_says].
  rewrite (say_both s 0xD3 ""); [|apply idle_parsing; exact HI|apply (rst_parsing _ [] HR); reflexivity|exact (ubx_say_quiet _ _ _ _ _ Ex)|exact EQ].
  cbn [bind]. rewrite Eb. cbn [bind]. rewrite run_rtcm_says.
  - change (rls s1) with (rls s). change (u_rtcm s1) with r1. exact HSY.
  - exact HT.
  - unfold s1. cbn [uw_rtcm uw_ubx u_ubx]. unfold x1. apply idle_parsing, idle_prev. exact HI.
  - change (rls s1) with (rls s). change (u_rtcm s1) with r1. intros a b xa o Eab Hb EF.
    apply (ritem_prefix_pending (rls s) (u_rtcm s) it (0xD3 :: a) b xa (c1 :: o) HR Hok Hby); [rewrite EB, Eab; reflexivity|discriminate|exact Hb|].
    cbn [rtcm_feed]. rewrite Er. cbn [bind]. rewrite EF. reflexivity.
Qed.

(* every frame of a stream is printed about as the specification says, and nothing else is printed *)
Lemma stream_says T ls ds : forall s s' ev, (T = T_BASE \/ no_rtcm ds) -> Forall listener_ok ls -> idle_as T ls s ->
  ditems_ok (prev (u_ubx s)) ds -> bytes_ok (ditems_bytes ds) -> ublox_read s (ditems_bytes ds) = Ok (s', ev) ->
  exists t, tells s ds t /\ ublox_says s (ditems_bytes ds) = Ok t.
Proof.
  induction ds as [|d ds IH]; intros s s' ev HT Hls HB Hok Hby ERD.
  - exists ""%string. split; [constructor|reflexivity].
  - cbn [ditems_ok] in Hok. destruct Hok as [Hd Hds]. change (ditems_bytes (d :: ds)) with (ditem_bytes d ++ ditems_bytes ds) in *.
    apply bytes_ok_app in Hby. destruct Hby as [Hbd Hbds]. rewrite ublox_read_app in ERD.
    destruct (ublox_read s (ditem_bytes d)) as [[s1 e1]|k] eqn:E1; cbn [bind] in ERD; [|discriminate].
    destruct (ublox_read s1 (ditems_bytes ds)) as [[s2 e2]|k] eqn:E2; cbn [bind] in ERD; [|discriminate].
    assert (HSTEP : idle_as T ls s1 /\ prev (u_ubx s1) = ditem_last d /\ ublox_says s (ditem_bytes d) = Ok (piece d s1) /\ named d s1).
    { destruct d as [b|it|it]; cbn [ditem_ok ditem_bytes ditem_last piece named] in *.
      - destruct Hd as [Hne Hn]. inversion Hbd as [|? ? Hb _]; subst.
        destruct (read_noise_both T ls s b HB Hb Hne Hn) as (x & E & HB1 & HC1 & EU). cbn [ublox_read] in E1. rewrite E in E1. cbn [bind] in E1.
        assert (x = s1) by congruence. subst x. split; [exact HB1|]. split; [rewrite EU; reflexivity|].
        split; [|exact I]. cbn [ublox_says]. rewrite (noise_says T ls s b HB Hb Hne Hn). cbn [bind]. rewrite E. reflexivity.
      - destruct Hd as [Hi Hn]. destruct (ubx_item_idle T ls s it Hls HB Hi Hn Hbd) as [(x & E & HB1 & HC1 & HP1 & HM1)|[_ E]]; [|congruence].
        assert (x = s1) by congruence. subst x. split; [exact HB1|]. split; [exact HP1|].
        destruct (ubx_frame_says T ls s it s1 e1 Hls HB Hi Hn Hbd E1) as [EFS HNM]. rewrite EFS. split; [destruct it; reflexivity|exact HNM].
      - destruct HT as [->|HT]; [|exfalso; apply (HT it); left; reflexivity].
        destruct Hd as [Hi Hn]. destruct (rtcm_item_base ls s it HB Hi Hn Hbd) as (x & E & HB1 & HC1 & HP1 & HM1).
        assert (x = s1) by congruence. subst x. split; [exact HB1|]. split; [exact HP1|].
        rewrite (rtcm_frame_says ls s it HB Hi Hn Hbd). split; [destruct it; reflexivity|exact I]. }
    destruct HSTEP as (HB1 & HP1 & HS1 & HNM).
    assert (HT' : T = T_BASE \/ no_rtcm ds) by (destruct HT as [HT|HT]; [left; exact HT|right; intros it Hin; apply (HT it); right; exact Hin]).
    rewrite <- HP1 in Hds. destruct (IH s1 s2 e2 HT' Hls HB1 Hds Hbds E2) as (t & HPt & HSt).
    exists (piece d s1 ++ t)%string. split; [econstructor; [exact E1|apply piece_said; exact HNM|exact HPt]|].
    rewrite (ublox_says_app _ _ s s1 e1 E1), HS1, HSt. reflexivity.
Qed.
(* the specification determines the text *)
Lemma tells_fun ds : forall s t t', tells s ds t -> tells s ds t' -> t = t'.
Proof.
  induction ds as [|d ds IH]; intros s t t' H H'; inversion H as [|s0 d0 ds0 s1 ev x y E1 E2 E3]; inversion H' as [|s0' d0' ds0' s1' ev' x' y' E1' E2' E3']; subst; [reflexivity|].
  assert (s1 = s1') by congruence. subst s1'. rewrite (said_fun d s1 x x' E2 E2'). f_equal. eapply IH; eassumption.
Qed.

(* ---------------------------------------------------------------- consequences *)
Definition is_damaged (d : ditem) : bool := match d with DRtcm (RBad _) => true | _ => false end.
Lemma tells_no_version ds : forall s t, existsb is_ver ds = false -> tells s ds t ->
  t = joined (repeat bad_crc_line (length (filter is_damaged ds))).
Proof.
  induction ds as [|d ds IH]; intros s t HV H; inversion H as [|s0 d0 ds0 s1 ev x y E1 E2 E3]; subst; [reflexivity|].
  cbn [existsb] in HV. apply orb_false_elim in HV. destruct HV as [HV HVs]. rewrite (IH _ _ HVs E3).
  destruct d as [b|[b|c i pl|c i pl ka kb|c i n]|[b|h|f|f]]; cbn [said] in E2; try (subst x; reflexivity).
  cbn [filter is_damaged]. cbn [is_ver is_good_of] in HV.
  replace ((c =? 10) && (i =? 4)) with false in E2 by (symmetry; exact HV). subst x. reflexivity.
Qed.
Lemma banners_cons n ma mi nm x t : banner ma mi nm x -> banners n t -> banners (S n) (x ++ t).
Proof.
  intros HB (ts & EL & HF & ->). exists (x :: ts). split; [cbn; congruence|]. split; [constructor; [exists ma, mi, nm; exact HB|exact HF]|reflexivity].
Qed.
Lemma tells_plain ds : forall s t, no_rtcm ds -> tells s ds t -> banners (length (filter is_ver ds)) t.
Proof.
  induction ds as [|d ds IH]; intros s t HN H; inversion H as [|s0 d0 ds0 s1 ev x y E1 E2 E3]; subst; [exists []; repeat split; constructor|].
  assert (HN' : no_rtcm ds) by (intros it Hin; apply (HN it); right; exact Hin). pose proof (IH _ _ HN' E3) as HB.
  destruct d as [b|it|it]; [cbn [said] in E2; subst x; exact HB| |exfalso; apply (HN it); left; reflexivity].
  destruct it as [b|c i pl|c i pl ka kb|c i n]; try (cbn [said] in E2; subst x; exact HB).
  cbn [filter is_ver is_good_of said] in *. destruct ((c =? 10) && (i =? 4)); [|subst x; exact HB].
  exact (banners_cons _ _ _ _ _ _ E2 HB).
Qed.

(* a stream without RTCM frames, as the UBX reader alone sees it *)
Definition ubx_view (ds : list ditem) : list item :=
  flat_map (fun d => match d with DNoise b => [Noise b] | DUbx it => [Noise 0xB5; it] | DRtcm _ => [] end) ds.
Lemma view_ok ds : forall p, no_rtcm ds -> ditems_ok p ds -> items_ok p (ubx_view ds) /\ items_bytes (ubx_view ds) = ditems_bytes ds /\
  count (is_good_of 10 4) (ubx_view ds) = Z.of_nat (length (filter is_ver ds)).
Proof.
  induction ds as [|d ds IH]; intros p HN HK; [repeat split|].
  assert (HN' : no_rtcm ds) by (intros it Hin; apply (HN it); right; exact Hin).
  cbn [ditems_ok] in HK. destruct HK as [Hd Hds]. destruct (IH _ HN' Hds) as (A & B & C).
  change (ditems_bytes (d :: ds)) with (ditem_bytes d ++ ditems_bytes ds).
  destruct d as [b|it|it]; cbn [ditem_ok ditem_last ditem_bytes] in *.
  - change (ubx_view (DNoise b :: ds)) with (Noise b :: ubx_view ds). destruct Hd as [_ Hn]. split; [split; [exact Hn|exact A]|].
    split; [change (items_bytes (Noise b :: ubx_view ds)) with (b :: items_bytes (ubx_view ds)); rewrite B; reflexivity|].
    cbn [filter is_ver]. rewrite <- C. reflexivity.
  - change (ubx_view (DUbx it :: ds)) with (Noise 0xB5 :: it :: ubx_view ds). destruct Hd as [Hi Hn].
    split; [split; [intros [_ H]; discriminate H|]; split; [exact Hi|exact A]|].
    split; [change (items_bytes (Noise 0xB5 :: it :: ubx_view ds)) with (0xB5 :: item_bytes it ++ items_bytes (ubx_view ds)); rewrite B; reflexivity|].
    rewrite !count_cons, C. cbn [filter is_ver]. change (is_good_of 10 4 (Noise 181)) with false. destruct (is_good_of 10 4 it); cbn [length]; lia.
  - exfalso. apply (HN it). left. reflexivity.
Qed.
Lemma ditems_ok_split ds2 ds1 : forall p, no_rtcm ds1 -> ditems_ok p (ds1 ++ ds2) -> ditems_ok p ds1 /\ ditems_ok (items_last p (ubx_view ds1)) ds2.
Proof.
  induction ds1 as [|d ds IH]; intros p HN HK; [split; [exact I|exact HK]|].
  assert (HN' : no_rtcm ds) by (intros it Hin; apply (HN it); right; exact Hin).
  cbn [app ditems_ok] in HK. destruct HK as [Hd Hds]. destruct (IH _ HN' Hds) as (A & B).
  split; [split; assumption|]. destruct d as [b|it|it]; [exact B|exact B|exfalso; apply (HN it); left; reflexivity].
Qed.

(* one wait of get_version, as text *)
Lemma wait_says ls s ds s' ev ok : Forall listener_ok ls -> UInv s -> idle_as T_NONE ls s -> small_counters (u_ubx s) ->
  no_rtcm ds -> ditems_ok (prev (u_ubx s)) ds -> bytes_ok (ditems_bytes ds) -> get_version s (ditems_bytes ds) = Ok (s', ev, ok) ->
  (exists t, version_says s (ditems_bytes ds) = Ok t /\ banners (length (filter is_ver ds)) t) /\
  ok = existsb is_ver ds /\ UInv s' /\ idle_as T_NONE ls s' /\ small_counters (u_ubx s') /\ prev (u_ubx s') = items_last (prev (u_ubx s)) (ubx_view ds).
Proof.
  intros Hls HU HI HS HN Hok Hb E.
  destruct (get_version_spec s (ditems_bytes ds) HU Hb (proj1 HI)) as [(sx & ex & outs & o & EG & HU' & _ & HFD & _)|[[EG _]|EG]]; [|congruence..].
  assert (sx = s') by congruence. subst sx. clear EG.
  assert (HO : Zlen (u_out s) = 2048) by apply HU.
  unfold get_version, version_says in *.
  unfold usend in *. change (u_out (uw_ubx s (w_ver (u_ubx s) false))) with (u_out s) in *.
  assert (EP : send_ver_poll (u_out s) = Ok (u_out s, frame_writes 0x0A 0x04 [])).
  { unfold send_ver_poll, send_out, send_message. reflexivity. }
  rewrite EP in *. cbn [bind] in *. set (s1 := uw_out (uw_ubx s (w_ver (u_ubx s) false)) (u_out s)) in *.
  assert (HI1 : idle_as T_NONE ls s1).
  { destruct HI as (A & B & (C1 & C2 & C3 & C4) & D). split; [exact A|]. split; [exact B|]. split; [repeat split; assumption|exact D]. }
  destruct (ublox_read s1 (ditems_bytes ds)) as [[s2 e2]|k] eqn:ER; cbn [bind] in E; [|discriminate].
  assert (s2 = s') by congruence. assert (EOK : ok = got_ver (u_ubx s2)) by congruence. subst s2. clear E.
  destruct (stream_says T_NONE ls ds s1 s' e2 (or_intror HN) Hls HI1 Hok Hb ER) as (t & HP & HSY).
  pose proof (tells_plain ds s1 t HN HP) as HBN.
  destruct (plain_demux T_NONE ls ds s1 HN Hls HI1 Hok Hb) as [(x & E & HI2 & HC)|[_ E]]; [|congruence].
  assert (x = s') by congruence. subst x.
  destruct (view_ok ds (prev (u_ubx s)) HN Hok) as (V1 & V2 & V3).
  rewrite (proj1 (proj2 HI)) in HFD. change (w_ver (u_ubx s) false) with (u_ubx s1) in HFD. rewrite <- V2 in HFD.
  destruct (exec_items ls (ubx_view ds) (u_ubx s1) Hls (proj1 (proj2 (proj2 HI1))) HS V1) as [(x & E3 & _ & HS3 & HP3)|[_ E3]]; [rewrite V2; exact Hb| |congruence].
  assert (x = u_ubx s') by congruence. subst x. destruct HP3 as (P1 & _ & _ & _ & _ & _ & P7 & _).
  split; [exists t; split; [exact HSY|exact HBN]|]. split; [|split; [exact HU'|split; [exact HI2|split; [exact HS3|exact P1]]]].
  rewrite EOK, P7. change (got_ver (u_ubx s1)) with false. cbn [orb]. rewrite V3.
  clear. induction ds as [|d ds IH]; [reflexivity|]. cbn [filter existsb]. destruct (is_ver d); cbn [length orb]; [lia|exact IH].
Qed.

Lemma texts_none ds t : existsb is_ver ds = false -> banners (length (filter is_ver ds)) t -> t = "".
Proof.
  intros H (ts & EL & _ & ->). replace (filter is_ver ds) with (@nil ditem) in EL.
  - destruct ts; [reflexivity|discriminate].
  - clear EL. induction ds as [|d ds IH]; [reflexivity|]. cbn [existsb filter] in *. destruct (is_ver d); [discriminate|]. apply IH. exact H.
Qed.
(* construction *)
Lemma ctor_text u ru out0 nav ds1 ds2 r ev : uninit_ok u -> runinit_ok ru -> Zlen out0 = 2048 -> no_rtcm (ds1 ++ ds2) -> ditems_ok 0 (ds1 ++ ds2) ->
  bytes_ok (ditems_bytes (ds1 ++ ds2)) -> ctor u ru out0 nav (ditems_bytes ds1) (ditems_bytes ds2) = Ok (r, ev) ->
  exists t, ctor_says u ru out0 nav (ditems_bytes ds1) (ditems_bytes ds2) = Ok
    (if existsb is_ver ds1 then t else second_try_line ++ t ++ (if existsb is_ver ds2 then "" else third_try_line))%string /\
    banners (length (filter is_ver (if existsb is_ver ds1 then ds1 else ds2))) t /\
    (r = None <-> existsb is_ver (ds1 ++ ds2) = false).
Proof.
  intros Hu Hru Hz HN Hok Hb EC.
  assert (HN1 : no_rtcm ds1) by (intros it Hin; apply (HN it), in_or_app; left; exact Hin).
  assert (HN2 : no_rtcm ds2) by (intros it Hin; apply (HN it), in_or_app; right; exact Hin).
  unfold ditems_bytes in Hb. rewrite flat_map_app in Hb. apply bytes_ok_app in Hb. destruct Hb as [Hb1 Hb2]. fold (ditems_bytes ds1) in Hb1. fold (ditems_bytes ds2) in Hb2.
  destruct (ditems_ok_split ds2 ds1 0 HN1 Hok) as [Hok1 Hok2].
  set (l0 := mkListener nav [(0x02, 0x13)]).
  assert (Hl0 : Forall listener_ok [l0]) by (repeat constructor; cbn; lia).
  assert (HI0 : idle_as T_NONE [l0] (ublox_blank u ru out0 nav)).
  { split; [reflexivity|]. split; [reflexivity|]. split; [apply init_idle; exact Hu|]. destruct Hru. apply RS_idle; try assumption; reflexivity. }
  assert (HS0 : small_counters (ubx_init u)) by (apply (reach_small u _ Hu); constructor).
  pose proof (blank_inv u ru out0 nav Hu Hru Hz) as HU0. unfold ctor in EC. unfold ctor_says. cbv zeta.
  destruct (get_version (ublox_blank u ru out0 nav) (ditems_bytes ds1)) as [[[s1 e1] ok1]|k] eqn:E1; cbn [bind] in EC; [|discriminate].
  destruct (wait_says [l0] _ ds1 s1 e1 ok1 Hl0 HU0 HI0 HS0 HN1 Hok1 Hb1 E1) as ((t1 & T1 & L1) & -> & HU1 & HI1 & HS1 & HP1).
  rewrite T1. cbn [bind]. rewrite existsb_app. destruct (existsb is_ver ds1) eqn:EV1; cbn [bind] in *.
  - exists t1. split; [reflexivity|]. split; [exact L1|]. split; [|discriminate]. intros ->. exfalso.
    match type of EC with (let* (_, _) := ?x in _) = _ => destruct x as [[a b]|k] end; discriminate.
  - change (prev (u_ubx (ublox_blank u ru out0 nav))) with 0 in HP1. rewrite <- HP1 in Hok2.
    destruct (get_version s1 (ditems_bytes ds2)) as [[[s2 e2] ok2]|k] eqn:E2; cbn [bind] in EC; [|discriminate].
    destruct (wait_says [l0] _ ds2 s2 e2 ok2 Hl0 HU1 HI1 HS1 HN2 Hok2 Hb2 E2) as ((t2 & T2 & L2) & -> & _).
    rewrite T2. cbn [bind]. exists t2. rewrite (texts_none ds1 t1 EV1 L1). split; [destruct (existsb is_ver ds2); reflexivity|]. split; [exact L2|].
    destruct (existsb is_ver ds2); [|split; [reflexivity|intros _; congruence]]. split; [|discriminate]. intros ->. exfalso.
    match type of EC with (let* (_, _) := ?x in _) = _ => destruct x as [[a b]|k] end; discriminate.
Qed.
(* the object config_rover feeds with every correction chunk (ublox.cpp:107-111) *)
Lemma debug_says ls its : forall s, RSt s [] -> Forall ritem_ok its -> bytes_ok (ritems_bytes its) ->
  rtcm_says ls s (ritems_bytes its) = Ok (joined (map correction_text its)).
Proof.
  induction its as [|it its IH]; intros s HS Hits Hb; [reflexivity|].
  inversion Hits as [|? ? Hit Hits']; subst. change (ritems_bytes (it :: its)) with (ritem_bytes it ++ ritems_bytes its) in *.
  apply bytes_ok_app in Hb. destruct Hb as [Hb1 Hb2].
  destruct (items_feed ls s [it] HS) as (s1 & EF & HS1 & _); [constructor; [exact Hit|constructor]|cbn; rewrite app_nil_r; exact Hb1|].
  change (ritems_bytes [it]) with (ritem_bytes it ++ []) in EF. rewrite app_nil_r in EF.
  assert (HA : forall a b x y o t, rtcm_feed ls x a = Ok (y, o) -> rtcm_says ls x a = Ok t -> rtcm_says ls x (a ++ b) = (let* t2 := rtcm_says ls y b in Ok (t ++ t2)%string)).
  { clear. induction a as [|c a IH]; intros b x y o t E ET; cbn [rtcm_feed rtcm_says app] in *.
    - assert (x = y) by congruence. assert (t = "") by congruence. subst. destruct (rtcm_says ls y b); reflexivity.
    - destruct (rtcm_say x c) as [t1|k]; cbn [bind] in *; [|discriminate]. destruct (rtcm_byte ls x c) as [[x1 c1]|k]; cbn [bind] in *; [|discriminate].
      destruct (rtcm_feed ls x1 a) as [[x2 o2]|k] eqn:E2; cbn [bind] in *; [|discriminate].
      destruct (rtcm_says ls x1 a) as [t2|k] eqn:E3; cbn [bind] in *; [|discriminate].
      assert (x2 = y) by congruence. assert (t = (t1 ++ t2)%string) by congruence. subst.
      rewrite (IH b x1 y o2 t2 E2 E3). destruct (rtcm_says ls y b); cbn [bind]; [rewrite sapp_assoc|]; reflexivity. }
  assert (HNE : ritem_bytes it <> []).
  { destruct (ritem_cases it Hit) as [(b & -> & _)|[(h & -> & _)|(h1 & h2 & q & EB & _)]]; [discriminate|discriminate|rewrite EB; discriminate]. }
  rewrite (HA _ _ _ _ _ _ EF (ritem_says ls it Hit (ritem_bytes it) [] s eq_refl HNE Hb1 HS)), (IH s1 HS1 Hits' Hb2). reflexivity.
Qed.
(* the message of rtcm.cpp:107 is never printed *)
Lemma rtcm_say_two u ls s b s' c : runinit_ok u -> RReach u s -> byte_ok b -> rtcm_byte ls s b = Ok (s', c) ->
  rtcm_say s b = Ok "" \/ rtcm_say s b = Ok bad_crc_line.
Proof.
  intros Hu HR Hb E. destruct (rreach_inv u s Hu HR) as (p & HS). pose proof (rst_pending_bytes s p HS) as Hp.
  assert (HS0 : RSt (rw_new s false) p).
  { destruct HS as [H1 H2 H3 H4|p rest stg E1 E2 E3 E4 E5 E6 E7 E8 E9]; [apply RS_idle; assumption|eapply RS_part with (rest := rest); eassumption]. }
  assert (HF : forall s1 c1, rtcm_byte [0] (rw_new s false) b = Ok (s1, c1) -> rtcm_say s b = Ok "" \/ rtcm_say s b = Ok crc_text).
  { intros s1 c1 E1. rewrite (rtcm_say_spec s p b s1 c1 HS Hp Hb E1). destruct c1; [destruct (r_new s1)|]; auto. }
  destruct (rstep [0] (rw_new s false) p b HS0 Hb Hp) as [s1 E1 HS1 HN1|s1 it cs E1 HS1 Hit EB EO HN1|E1 HL]; [eauto|eauto|].
  exfalso. destruct (rstep ls s p b HS Hb Hp) as [s1 E2 HS1 _|s1 it cs E2 HS1 Hit EB _ _|E2 _]; [| |congruence].
  - inversion HS1 as [_ _ _ _ X|p0 rest stg X1 X2 _ _ _ _ _ _ _ X]; [destruct p; discriminate|]. pose proof (Zlen_nonneg rest).
    rewrite Zlen_app in X2. change (Zlen [b]) with 1 in X2. lia.
  - apply (ritem_not_tail it [] Hit). rewrite app_nil_r, EB. apply (rst_over_tail s p [b] HS Hp HL).
Qed.
