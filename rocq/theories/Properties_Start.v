(* C87: constructing a driver object while bytes arrive at any time.  Model: ctor_any (UbloxModel.v); vocabulary: StartSpec.v. *)
From Verif Require Import Base UbxSpec UbxModel UbxProofs UbxStream UbxMain UbxEx UbxTx UbxTxSpec RtcmModel RtcmSpec RtcmProofs RtcmApi Properties_Rtcm
  UbloxModel UbloxSpec UbloxProofs UbloxApi UbloxThm Properties_Ublox UbloxConc StartSpec UbloxStart.
Local Open Scope list_scope.
Local Open Scope Z_scope.

(* one construction, with any contents of uninitialised memory, any timing c of the received bytes and bs those that arrive while the
   receiver is set up; r = None: it throws.  type_ is read before it is set (ublox.h:80): the memory must not happen to say "base", or
   nothing may arrive so early. *)
Definition built (u : uninit) (ru : runinit) (out0 : list Z) (nav : Z) (c : csched) (bs : list Z) (r : option ublox) (ev : list event) : Prop :=
  uninit_ok u /\ runinit_ok ru /\ Zlen out0 = 2048 /\ csched_ok c /\ bytes_ok bs /\ shuffle setup_acts (map ARx bs) (c_setup c) /\
  (c_type0 c <> T_BASE \/ c_a c = [] /\ c_b c = []) /\ ctor_any u ru out0 nav c = Ok (r, ev).
(* all that arrived before the first poll; ... before the second *)
Definition pre1 (c : csched) : list Z := c_a c ++ c_b c ++ c_0 c.
Definition pre2 (c : csched) : list Z := pre1 c ++ c_1 c ++ c_g c.

(* whether construction succeeds, and what is sent: a reply counts exactly if its last byte arrives during a wait *)
Theorem C87_reply_decides u ru out0 nav c bs r ev : built u ru out0 nav c bs r ev ->
  (reply_ends (pre1 c) (c_1 c) -> exists s w, r = Some s /\ ser_of ev = ver_poll ++ w /\ set_up u (pre1 c ++ c_1 c) bs w) /\
  (~ reply_ends (pre1 c) (c_1 c) -> reply_ends (pre2 c) (c_2 c) ->
     exists s w, r = Some s /\ ser_of ev = ver_poll ++ ver_poll ++ w /\ set_up u (pre2 c ++ c_2 c) bs w) /\
  (~ reply_ends (pre1 c) (c_1 c) -> ~ reply_ends (pre2 c) (c_2 c) -> r = None /\ ser_of ev = ver_poll ++ ver_poll).
Proof.
  intros (H1 & H2 & H3 & H4 & H5 & H6 & H7 & H8).
  destruct (ctor_any_spec u ru out0 nav c bs r ev H1 H2 H3 H4 H5 H6 H7 H8) as (_ & [(R & s & w & E1 & E2 & E3 & _)|[(R & R2 & s & w & E1 & E2 & E3 & _)|(R & R2 & E1 & E2 & _)]]).
  - split; [intros _; exists s, w; auto|]. split; intros X; contradiction.
  - split; [intros X; contradiction|]. split; [intros _ _; exists s, w; auto|intros _ X; contradiction].
  - split; [intros X; contradiction|]. split; [intros _ X; contradiction|auto].
Qed.
Print Assumptions C87_reply_decides.
(* no reply at all in the bytes received: it throws *)
Theorem C87_success_needs_reply u ru out0 nav c bs s ev : built u ru out0 nav c bs (Some s) ev ->
  reply_ends (pre1 c) (c_1 c) \/ reply_ends (pre2 c) (c_2 c).
Proof.
  intros (H1 & H2 & H3 & H4 & H5 & H6 & H7 & H8).
  destruct (ctor_any_spec u ru out0 nav c bs (Some s) ev H1 H2 H3 H4 H5 H6 H7 H8) as (_ & [(R & _)|[(R & R2 & _)|(R & R2 & E1 & _)]]); [auto|auto|discriminate].
Qed.
Print Assumptions C87_success_needs_reply.
(* nothing that arrives after the parser is registered is lost, and the object ends up knowing the version a plain reader of all the bytes
   knows; nothing is forwarded *)
Theorem C87_nothing_lost u ru out0 nav c bs r ev : built u ru out0 nav c bs r ev ->
  rtk_of ev = [] /\
  (reply_ends (pre1 c) (c_1 c) ->
     hears u nav (c_a c) (c_b c ++ c_0 c ++ c_1 c ++ bs) (ubx_of ev) /\ forall s, r = Some s -> knows u (pre1 c ++ c_1 c ++ bs) (major (u_ubx s))) /\
  (~ reply_ends (pre1 c) (c_1 c) -> reply_ends (pre2 c) (c_2 c) ->
     hears u nav (c_a c) (c_b c ++ c_0 c ++ c_1 c ++ c_g c ++ c_2 c ++ bs) (ubx_of ev) /\ forall s, r = Some s -> knows u (pre2 c ++ c_2 c ++ bs) (major (u_ubx s))) /\
  (~ reply_ends (pre1 c) (c_1 c) -> ~ reply_ends (pre2 c) (c_2 c) -> hears u nav (c_a c) (c_b c ++ c_0 c ++ c_1 c ++ c_g c ++ c_2 c) (ubx_of ev)).
Proof.
  intros (H1 & H2 & H3 & H4 & H5 & H6 & H7 & H8).
  destruct (ctor_any_spec u ru out0 nav c bs r ev H1 H2 H3 H4 H5 H6 H7 H8) as (HK & [(R & s & w & E1 & _ & _ & E2 & E3)|[(R & R2 & s & w & E1 & _ & _ & E2 & E3)|(R & R2 & _ & _ & E2)]]);
    (split; [exact HK|]).
  - split; [intros _; split; [exact E2|]; intros s' ES; assert (s' = s) as -> by congruence; exact E3|]. split; intros X; contradiction.
  - split; [intros X; contradiction|]. split; [|intros _ X; contradiction]. intros _ _. split; [exact E2|]. intros s' ES. assert (s' = s) as -> by congruence. exact E3.
  - split; [intros X; contradiction|]. split; [intros _ X; contradiction|]. intros _ _. exact E2.
Qed.
Print Assumptions C87_nothing_lost.
(* the faults are those of plain reception (C07, C12), whatever type_ holds *)
Theorem C87_no_new_faults u ru out0 nav c bs k : uninit_ok u -> runinit_ok ru -> Zlen out0 = 2048 -> csched_ok c -> bytes_ok bs ->
  shuffle setup_acts (map ARx bs) (c_setup c) -> ctor_any u ru out0 nav c = UB k -> k = UB_cstring \/ k = UB_oob_write.
Proof. exact (ctor_any_faults u ru out0 nav c bs k). Qed.
Print Assumptions C87_no_new_faults.
(* "a reply to the poll makes construction succeed" is false: one that is complete only between the two waits is forgotten when the second
   begins, and if no other comes construction fails although the object has read the version *)
Definition halves (a b0 b1 g w : list Z) : csched := mkCS 7 a [] b0 b1 g w setup_acts.
Theorem C87_any_reply_counts_refuted : exists c ev s x,
  built u0 ru0 out00 77 c [] None ev /\ c_g c = mv_frame /\
  feed [] (ubx_init u0) (pre2 c) = Ok (s, x) /\ got_ver s = true /\ major s = 27.
Proof.
  set (c := halves [1; 2] [] [3] mv_frame [4; 5]).
  assert (X : summary (ctor_any u0 ru0 out00 77 c) = Ok (None, ver_poll ++ ver_poll)) by (vm_compute; reflexivity).
  assert (Y : match feed [] (ubx_init u0) (pre2 c) with Ok (s, x) => Some (got_ver s, major s) | UB _ => None end = Some (true, 27)) by (vm_compute; reflexivity).
  destruct (ctor_any u0 ru0 out00 77 c) as [[r ev]|k] eqn:E; [|discriminate X]. destruct (feed [] (ubx_init u0) (pre2 c)) as [[s x]|k] eqn:EF; [|discriminate Y].
  exists c, ev, s, x. assert (r = None) as -> by (destruct r as [s'|]; [discriminate X|reflexivity]). clear X.
  split; [|split; [reflexivity|split; [exact EF|]; split; congruence]].
  split; [exact u0_ok|]. split; [exact ru0_ok|]. split; [vm_compute; reflexivity|].
  split; [repeat split; try (apply bytes_ok_dec; vm_compute; reflexivity); exact ver_bytes|]. split; [constructor|].
  split; [repeat constructor|]. split; [left; discriminate|exact E].
Qed.
Print Assumptions C87_any_reply_counts_refuted.
(* a reply that began before the poll was sent and ends in the first wait counts *)
Example C87_case :
  let c := halves [1; 2] (firstn 9 mv_frame) (skipn 9 mv_frame) [] [] in
  shuffle setup_acts (map ARx []) (c_setup c) /\ csched_ok c /\ c_type0 c <> T_BASE /\
  summary (ctor_any u0 ru0 out00 77 c) = Ok (Some 27, ver_poll ++ setup_writes 27).
Proof.
  cbv zeta. split; [repeat constructor|]. split; [repeat split; apply bytes_ok_dec; vm_compute; reflexivity|]. split; [discriminate|vm_compute; reflexivity].
Qed.
