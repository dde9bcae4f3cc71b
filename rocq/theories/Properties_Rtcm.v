(* C19-C23: the RTCM reader.  ls: registered listeners; a delivery is a pair (listener, bytes handed over);
   rtcm_feed returns, per byte fed, the deliveries made on that byte.  RReach u s: s is a state of a reader built with
   uninitialised memory u after any read_cb / restart() / new_data() calls. *)
From Verif Require Import Base CrcSpec CrcErr RtcmModel RtcmSpec RtcmProofs RtcmApi RtcmNews UbxEx.

(* ---- C19 *)
Theorem C19_frame_delivered_once u s ls n f :
  runinit_ok u -> RReach u s -> rtcm_parsing s = false -> 1 <= n <= 1018 -> bytes_ok f -> rtcm_frame n f ->
  exists s', rtcm_feed ls s f = Ok (s', repeat [] (length f - 1) ++ [map (fun l => (l, f)) ls]) /\ rtcm_parsing s' = false.
Proof. exact (frame_feed u s ls n f). Qed.
Print Assumptions C19_frame_delivered_once.

(* any sequence of noise, empty headers, valid and corrupt frames *)
Theorem C19_stream u s ls its :
  runinit_ok u -> RReach u s -> rtcm_parsing s = false -> Forall ritem_ok its -> bytes_ok (ritems_bytes its) ->
  exists s', rtcm_feed ls s (ritems_bytes its) = Ok (s', ritems_outs ls its) /\ rtcm_parsing s' = false.
Proof. exact (stream_feed u s ls its). Qed.
Print Assumptions C19_stream.

Definition ru0 : runinit := mkRUninit (repeat 0xAA 1024) 7 7 7.
Lemma ru0_ok : runinit_ok ru0.
Proof. split; [apply repeat_length|]. apply Forall_forall. intros x Hx. apply repeat_spec in Hx. subst x. unfold byte_ok. lia. Qed.
(* payload B5 62, reserved bits 101011 *)
Definition rf0 : list Z := [0xD3; 0xAC; 2; 0xB5; 0x62; 159; 248; 248].
Lemma rf0_frame : rtcm_frame 2 rf0 /\ bytes_ok rf0.
Proof.
  assert (Hb : bytes_ok rf0) by (repeat constructor; unfold byte_ok; lia). split; [|exact Hb]. split.
  - exists 0xAC, 2, [0xB5; 0x62], [159; 248; 248]. repeat split.
  - apply block_check_iff; [exact Hb|cbn; lia|]. eexists. split; [vm_compute; reflexivity|vm_compute; reflexivity].
Qed.
Example C19_case : RReach ru0 (rtcm_init ru0) /\ rtcm_parsing (rtcm_init ru0) = false /\
  match rtcm_feed [4; 9] (rtcm_init ru0) (0x44 :: rf0) with
  | Ok (_, outs) => outs = repeat [] 8 ++ [[(4, rf0); (9, rf0)]] | UB _ => False end.
Proof. split; [constructor|]. split; [reflexivity|]. vm_compute. reflexivity. Qed.

(* ---- C20: the only undefined behaviour, and exactly when *)
Theorem C20_overflow_iff_long_frame u s ls bs :
  runinit_ok u -> RReach u s -> rtcm_parsing s = false -> bytes_ok bs ->
  ((exists k, rtcm_feed ls s bs = UB k) <->
   exists its h1 h2 q, bs = ritems_bytes its ++ [0xD3; h1; h2] ++ q /\ Forall ritem_ok its /\
     1019 <= rtcm_len h1 h2 <= 1023 /\ 1022 <= Zlen q) /\
  (forall k, rtcm_feed ls s bs = UB k -> k = UB_oob_write).
Proof. exact (overflow_iff u s ls bs). Qed.
Print Assumptions C20_overflow_iff_long_frame.
Example C20_case : rtcm_feed [] (rtcm_init ru0) ([0xD3; 3; 0xFF] ++ repeat 0 1022) = UB UB_oob_write /\ rtcm_len 3 0xFF = 1023.
Proof. split; [vm_compute; reflexivity|reflexivity]. Qed.

(* ---- C21 *)
Theorem C21_deliveries_are_frames u s ls bs s' outs k :
  runinit_ok u -> RReach u s -> rtcm_parsing s = false -> bytes_ok bs ->
  rtcm_feed ls s bs = Ok (s', outs) -> nth k outs [] <> [] ->
  exists pre f n, firstn (S k) bs = pre ++ f /\ rtcm_frame n f /\ 1 <= n <= 1018 /\ nth k outs [] = map (fun l => (l, f)) ls.
Proof. exact (soundness u s ls bs s' outs k). Qed.
Print Assumptions C21_deliveries_are_frames.
(* whole-stream form: the stream splits uniquely (C21_unique) into items, and the deliveries are those of the items,
   so delivered frames do not overlap *)
Theorem C21_segmentation u s ls bs s' outs :
  runinit_ok u -> RReach u s -> rtcm_parsing s = false -> bytes_ok bs -> rtcm_feed ls s bs = Ok (s', outs) ->
  exists its t, bs = ritems_bytes its ++ t /\ Forall ritem_ok its /\ rtail_ok t /\ Zlen t <= 1024 /\
    outs = ritems_outs ls its ++ repeat [] (length t) /\ (rtcm_parsing s' = false <-> t = []) /\
    fst (rtcm_new_data s') = fst (rtcm_new_data s) || existsb ritem_complete its.
Proof. exact (segmentation u s ls bs s' outs). Qed.
Print Assumptions C21_segmentation.
Theorem C21_unique its its' t t' : Forall ritem_ok its -> Forall ritem_ok its' -> rtail_ok t -> rtail_ok t' ->
  ritems_bytes its ++ t = ritems_bytes its' ++ t' -> its = its' /\ t = t'.
Proof. exact (ritems_unique its its' t t'). Qed.
Print Assumptions C21_unique.
Example C21_case : match rtcm_feed [4] (rtcm_init ru0) (0xD3 :: rf0) with Ok (_, outs) => concat outs = [] | UB _ => False end.
Proof. vm_compute. reflexivity. Qed.

(* ---- C22 *)
Theorem C22_idle_within_1024_bytes u s ls bs :
  runinit_ok u -> RReach u s -> bytes_ok bs -> 1024 <= Zlen bs ->
  (exists a b s1 o, bs = a ++ b /\ Zlen a <= 1024 /\ rtcm_feed ls s a = Ok (s1, o) /\ rtcm_parsing s1 = false) \/
  rtcm_feed ls s bs = UB UB_oob_write.
Proof. exact (idle_within u s ls bs). Qed.
Print Assumptions C22_idle_within_1024_bytes.
Theorem C22_restart_makes_idle u s : RReach u s -> RReach u (rtcm_restart s) /\ rtcm_parsing (rtcm_restart s) = false.
Proof. exact (restart_idle u s). Qed.
Print Assumptions C22_restart_makes_idle.
Example C22_case : match rtcm_feed [] (rtcm_init ru0) [0xD3; 0; 9; 1; 2] with Ok (s, _) => rtcm_parsing s = true | UB _ => False end.
Proof. vm_compute. reflexivity. Qed.

(* ---- C23 *)
Theorem C23_new_data_for_any_complete_frame u s ls n f :
  runinit_ok u -> RReach u s -> rtcm_parsing s = false -> 1 <= n <= 1018 -> bytes_ok f -> rtcm_shape n f ->
  exists s' outs, rtcm_feed ls s f = Ok (s', outs) /\ rtcm_parsing s' = false /\ fst (rtcm_new_data s') = true /\
    fst (rtcm_new_data (snd (rtcm_new_data s'))) = false /\
    (concat outs <> [] -> block_ok f).
Proof. exact (shape_feed u s ls n f). Qed.
Print Assumptions C23_new_data_for_any_complete_frame.
Example C23_case :
  match rtcm_feed [4] (rtcm_init ru0) [0xD3; 0xAC; 2; 0xB5; 0x62; 159; 248; 249] with
  | Ok (s, outs) => concat outs = [] /\ fst (rtcm_new_data s) = true | UB _ => False end.
Proof. vm_compute. auto. Qed.

(* the whole life of a reader: the results of new_data(), among any calls (restarts in the middle of frames included), are those of
   the specification `answers` (RtcmNews.v): false until a frame has been completed, then true once for all frames completed since
   the previous call; and the specification allows no other results *)
Theorem C23_new_data_history u cs s' o : runinit_ok u -> Forall (fun c => bytes_ok (call_bytes c)) cs -> rtcm_calls (rtcm_init u) cs = Ok (s', o) ->
  answers false [] cs o /\ forall o', answers false [] cs o' -> o' = o.
Proof. exact (news u cs s' o). Qed.
Print Assumptions C23_new_data_history.
(* no frame begun: a fresh reader reports nothing *)
Example C23_history_case : exists s, rtcm_calls (rtcm_init ru0)
  [CNew; CFeed [4] (1 :: firstn 4 rf0); CNew; CFeed [4] (skipn 4 rf0); CNew; CNew; CFeed [] (firstn 4 rf0); CRestart; CFeed [] (skipn 4 rf0); CNew; CFeed [] rf0; CFeed [] rf0; CNew; CNew]
  = Ok (s, [false; false; true; false; false; true; false]).
Proof. eexists. vm_compute. reflexivity. Qed.
