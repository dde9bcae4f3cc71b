(* C73: several rovers in one process share one RTCM parser.  Model: RoverShared.v. *)
From Verif Require Import Base UbxModel CrcSpec RtcmModel RtcmSpec RtcmProofs RtcmApi CrcModel CrcErr Properties_Rtcm UbloxModel UbloxSpec UbloxApi UbloxThm RoverShared.

(* ---- C73 *)
(* h: the chunks received on all correction links, in the order handled; (p, c): chunk c on a link of the object with port p.
   Every chunk is written, unmodified, to its own port only, in order - unless the bytes of all links, taken together, reach the
   end of the shared parser's buffer. *)
Theorem C73_all_links ru d h :
  runinit_ok ru -> RReach ru d -> rtcm_parsing d = false -> bytes_ok (concat (map snd h)) ->
  (~ long_header (concat (map snd h)) -> exists d', rover_links d h = Ok (d', h)) /\
  (long_header (concat (map snd h)) -> rover_links d h = UB UB_oob_write).
Proof. intros Hru HR HP Hb. destruct (links_verbatim ru d h Hru HR HP Hb) as [H1 H2]. split; assumption. Qed.
Print Assumptions C73_all_links.
(* short chunks are safe in any order and number as long as fewer than 1025 bytes arrive in all *)
Theorem C73_short_safe ru d h :
  runinit_ok ru -> RReach ru d -> rtcm_parsing d = false -> bytes_ok (concat (map snd h)) -> Zlen (concat (map snd h)) < 1025 ->
  exists d', rover_links d h = Ok (d', h).
Proof.
  intros Hru HR HP Hb HL. apply (C73_all_links ru d h Hru HR HP Hb). intros (its & h1 & h2 & q & E & _ & _ & Hq). rewrite E in HL.
  rewrite !Zlen_app in HL. unfold Zlen in *. cbn [length] in HL. lia.
Qed.
Print Assumptions C73_short_safe.

(* "links that are harmless one by one are harmless together" is false, although both carry nothing but well-formed frames *)
Definition fa : list Z := [211; 0; 10; 1; 2; 3; 4; 5; 6; 211; 3; 255; 0; 107; 81; 224].
Definition fb : list Z := [211; 0; 1; 7; 149; 103; 154].
Lemma fa_good : good_rtcm fa /\ bytes_ok fa.
Proof.
  assert (Hb : bytes_ok fa) by (repeat constructor; unfold byte_ok; lia). split; [|exact Hb]. exists 10. split; [lia|]. split.
  - exists 0, 10, [1; 2; 3; 4; 5; 6; 211; 3; 255; 0], [107; 81; 224]. repeat split.
  - apply block_check_iff; [exact Hb|cbn; lia|]. eexists. split; [vm_compute; reflexivity|vm_compute; reflexivity].
Qed.
Lemma fb_good : good_rtcm fb /\ bytes_ok fb.
Proof.
  assert (Hb : bytes_ok fb) by (repeat constructor; unfold byte_ok; lia). split; [|exact Hb]. exists 1. split; [lia|]. split.
  - exists 0, 1, [7], [149; 103; 154]. repeat split.
  - apply block_check_iff; [exact Hb|cbn; lia|]. eexists. split; [vm_compute; reflexivity|vm_compute; reflexivity].
Qed.
Theorem C73_separately_harmless_refuted :
  exists a b h, RReach ru0 (rtcm_init ru0) /\ rtcm_parsing (rtcm_init ru0) = false /\
    (exists fs, Forall good_rtcm fs /\ concat a = concat fs) /\ (exists fs, Forall good_rtcm fs /\ concat b = concat fs) /\
    (exists d, rover_links (rtcm_init ru0) (map (pair 1) a) = Ok (d, map (pair 1) a)) /\
    (exists d, rover_links (rtcm_init ru0) (map (pair 2) b) = Ok (d, map (pair 2) b)) /\
    shuffle (map (pair 1) a) (map (pair 2) b) h /\ rover_links (rtcm_init ru0) h = UB UB_oob_write.
Proof.
  exists [firstn 3 fa; skipn 3 fa], (repeat fb 150), ([(1, firstn 3 fa); (2, fb); (1, skipn 3 fa)] ++ repeat (2, fb) 149).
  split; [constructor|]. split; [reflexivity|].
  split; [exists [fa]; split; [constructor; [exact (proj1 fa_good)|constructor]|reflexivity]|].
  split; [exists (repeat fb 150); split; [apply Forall_forall; intros x Hx; apply repeat_spec in Hx; subst x; exact (proj1 fb_good)|reflexivity]|].
  split; [eexists; vm_compute; reflexivity|]. split; [eexists; vm_compute; reflexivity|].
  split; [|vm_compute; reflexivity].
  cbn [map app]. apply sh_l. change (map (pair 2) (repeat fb 150)) with ((2, fb) :: map (pair 2) (repeat fb 149)). apply sh_r. apply sh_l.
  replace (map (pair 2) (repeat fb 149)) with (repeat (2, fb) 149) by reflexivity. apply shuffle_r.
Qed.
Print Assumptions C73_separately_harmless_refuted.
Example C73_case : exists d, rover_links (rtcm_init ru0) [(1, firstn 3 fa); (2, fb); (1, skipn 3 fa)] = Ok (d, [(1, firstn 3 fa); (2, fb); (1, skipn 3 fa)]) /\
  Zlen (concat (map snd [(1, firstn 3 fa); (2, fb); (1, skipn 3 fa)])) = 23.
Proof. eexists. split; [vm_compute; reflexivity|reflexivity]. Qed.
