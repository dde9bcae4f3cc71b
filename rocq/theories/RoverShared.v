(* Several rovers in one process.  UBLOX::config_rover (src/ublox.cpp:103-111) declares `static RTCM debug`: one parser for all UBLOX objects and all
   correction links of the process.  Each link's callback writes the received chunk to its object's port and then feeds it to that parser. *)
From Verif Require Import Base UbxModel RtcmModel RtcmSpec RtcmProofs RtcmApi UbloxModel UbloxSpec UbloxApi UbloxThm.

(* one chunk received on the link whose callback was installed by the object with port p (ublox.cpp:107-111);
   result: what is written to which port *)
Definition link_cb (debug : rtcm) (p : Z) (buf : list Z) : outcome (rtcm * list (Z * list Z)) :=
  let* (d, _) := rtcm_feed [] debug buf in Ok (d, [(p, buf)]).
(* chunks in the order in which they are handled (each handled before the next) *)
Fixpoint rover_links (d : rtcm) (h : list (Z * list Z)) : outcome (rtcm * list (Z * list Z)) :=
  match h with
  | [] => Ok (d, [])
  | (p, c) :: r => let* (d1, w1) := link_cb d p c in let* (d2, w2) := rover_links d1 r in Ok (d2, w1 ++ w2)
  end.

Lemma links_feed h : forall d,
  rover_links d h = (let* (d', _) := rtcm_feed [] d (concat (map snd h)) in Ok (d', h)).
Proof.
  induction h as [|[p c] h IH]; intros d; [reflexivity|]. cbn [rover_links concat map snd]. rewrite rtcm_feed_app. unfold link_cb.
  destruct (rtcm_feed [] d c) as [[d1 o1]|k]; cbn [bind]; [|reflexivity]. rewrite IH.
  destruct (rtcm_feed [] d1 (concat (map snd h))) as [[d2 o2]|k]; cbn [bind]; reflexivity.
Qed.
(* one link alone is the rover callback of UbloxModel *)
Lemma links_one d p cs : match rover_chunks d cs with
  | Ok (d', ev) => rover_links d (map (pair p) cs) = Ok (d', map (pair p) cs) /\ ev = map EvSer cs
  | UB k => rover_links d (map (pair p) cs) = UB k end.
Proof.
  rewrite rover_feed, links_feed, map_map. cbn [snd]. rewrite map_id.
  destruct (rtcm_feed [] d (concat cs)) as [[d' o]|k]; cbn [bind]; [split; reflexivity|reflexivity].
Qed.
Definition long_header (bs : list Z) : Prop :=
  exists its h1 h2 q, bs = ritems_bytes its ++ [0xD3; h1; h2] ++ q /\ Forall ritem_ok its /\ 1019 <= rtcm_len h1 h2 <= 1023 /\ 1022 <= Zlen q.
Lemma links_verbatim ru d h : runinit_ok ru -> RReach ru d -> rtcm_parsing d = false -> bytes_ok (concat (map snd h)) ->
  (long_header (concat (map snd h)) -> rover_links d h = UB UB_oob_write) /\
  (~ long_header (concat (map snd h)) -> exists d', rover_links d h = Ok (d', h)).
Proof.
  intros Hru HR HP Hb. rewrite links_feed. destruct (overflow_iff ru d [] _ Hru HR HP Hb) as [H1 H2]. fold (long_header (concat (map snd h))) in H1.
  destruct (rtcm_feed [] d (concat (map snd h))) as [[d' o]|k] eqn:E; cbn [bind].
  - split; [|eauto]. intros H. apply H1 in H. destruct H as [k H]. discriminate.
  - split; [intros _; f_equal; apply H2; reflexivity|]. intros H. exfalso. apply H, H1. eauto.
Qed.
