(* GPS release rule and content of a released record, over histories of calls; independent of the decoder's code. *)
From Coq Require Import QArith.
From Verif Require Import Base UtcModel UtcSpec Dbl NavModel NavSpec.
Local Open Scope Z_scope.

(* the messages and calls a history may contain *)
Definition dw_ok (dw : list Z) : Prop := bytes_ok dw /\ length dw = 40%nat.
Definition msg_ok (m : sfrbx) : Prop := dw_ok (sf_dw m) /\ byte_ok (sf_gnss m) /\ byte_ok (sf_sv m) /\ byte_ok (sf_freq m).
Definition msgs_ok (h : list nop) : Prop := forall m, In (NMsg m) h -> msg_ok m.
Definition no_galileo (sv : Z) (h : list nop) : Prop := forall m, In (NMsg m) h -> sf_sv m = sv -> sf_gnss m <> 2.
Definition is_gps (sv : Z) (m : sfrbx) : bool := (sf_gnss m =? 0) && (sf_sv m =? sv).

(* What has been received for one satellite since the last release: the issue numbers of its last subframe 1 and
   subframe 2, and, for a subframe 3, the issue number that was current when it came (the issue of the latest subframe 1
   or 2 before it, 0 if there was none) -- not the issue number subframe 3 itself carries. *)
Record track := mkT { tk1 : option Z; tk2 : option Z; tk3 : option Z; cur : Z }.
Definition t_init : track := mkT None None None 0.
Definition t_recv (t : track) (dw : list Z) : track :=
  if gps_id dw =? 1 then mkT (Some (gps_issue dw)) (tk2 t) (tk3 t) (gps_issue dw)
  else if gps_id dw =? 2 then mkT (tk1 t) (Some (gps_issue dw)) (tk3 t) (gps_issue dw)
  else if gps_id dw =? 3 then mkT (tk1 t) (tk2 t) (Some (cur t)) (cur t)
  else t.
Definition t_full (t : track) : bool :=
  match tk1 t, tk2 t, tk3 t with Some a, Some b, Some c => (a =? b) && (b =? c) | _, _, _ => false end.
Definition t_step (t : track) (dw : list Z) : track :=
  let t' := t_recv t dw in if t_full t' then mkT None None None (cur t') else t'.
Definition t_op (sv : Z) (t : track) (o : nop) : track :=
  match o with NMsg m => if is_gps sv m then t_step t (sf_dw m) else t | _ => t end.
Definition t_hist (sv : Z) (h : list nop) : track := fold_left (t_op sv) h t_init.
(* the callbacks registered so far *)
Definition ecbs (h : list nop) : list Z := flat_map (fun o => match o with NEcb c => [c] | _ => [] end) h.
Definition gcbs (h : list nop) : list Z := flat_map (fun o => match o with NGcb c => [c] | _ => [] end) h.
(* the satellite's most recent subframe k *)
Definition l_op (sv k : Z) (acc : option (list Z)) (o : nop) : option (list Z) :=
  match o with NMsg m => if is_gps sv m && (gps_id (sf_dw m) =? k) then Some (sf_dw m) else acc | _ => acc end.
Definition last_sf (sv k : Z) (h : list nop) : option (list Z) := fold_left (l_op sv k) h None.

(* the released record carries the values transmitted in subframes m1, m2, m3 (positions and scale factors of
   IS-GPS-200 20.3.3.3 and 20.3.3.4); the week number is completed by 2048 *)
Definition gps_content (sv : Z) (m1 m2 m3 : list Z) (d : eph) : Prop :=
  ei d Fsat = sv /\ ei d FgnssID = 0 /\
  (* subframe 1 *)
  ei d Fweek = dfield m1 48 10 + 2048 /\ ei d FcodeL2 = dfield m1 58 2 /\ ei d Fura = dfield m1 60 4 /\
  ei d Fhealth = dfield m1 64 6 /\ ei d FL2P = dfield m1 72 1 /\
  ei d Fiodc = 256 * dfield m1 70 2 + dfield m1 168 8 /\ ei d Ftocs = 16 * dfield m1 176 16 /\
  (if dfieldS m1 160 8 =? -128 then exactly (ed d Ftgd0) (0 # 1) else exactly (ed d Ftgd0) (times2 (dfieldS m1 160 8) 31)) /\
  nearly (ed d Faf2) (times2 (dfieldS m1 192 8) 55) /\ nearly (ed d Faf1) (times2 (dfieldS m1 200 16) 43) /\
  exactly (ed d Faf0) (times2 (dfieldS m1 216 22) 31) /\
  nanos (e_toc d) = (315964818 + (dfield m1 48 10 + 2048) * 604800 + 16 * dfield m1 176 16) * 1000000000 /\
  (* subframe 2 *)
  exactly (ed d Fcrs) (times2 (dfieldS m2 56 16) 5) /\ nearly (ed d Fdeltan) (semi (dfieldS m2 72 16) 43) /\
  nearly (ed d Fm0) (semi (dfieldS m2 88 32) 31) /\ exactly (ed d Fcuc) (times2 (dfieldS m2 120 16) 29) /\
  nearly (ed d Fecc) (times2 (dfield m2 136 32) 33) /\ exactly (ed d Fcus) (times2 (dfieldS m2 168 16) 29) /\
  exactly (ed d Fsqrta) (times2 (dfield m2 184 32) 19) /\ ei d Ftoes = 16 * dfield m2 216 16 /\
  ei d Ffit = (if dfield m2 232 1 =? 0 then 4 else 0) /\
  nanos (e_toe d) = (315964818 + (dfield m1 48 10 + 2048) * 604800 + 16 * dfield m2 216 16) * 1000000000 /\
  (* subframe 3 *)
  exactly (ed d Fcic) (times2 (dfieldS m3 48 16) 29) /\ nearly (ed d Fomega0) (semi (dfieldS m3 64 32) 31) /\
  exactly (ed d Fcis) (times2 (dfieldS m3 96 16) 29) /\ nearly (ed d Fi0) (semi (dfieldS m3 112 32) 31) /\
  exactly (ed d Fcrc) (times2 (dfieldS m3 144 16) 5) /\ nearly (ed d Fw) (semi (dfieldS m3 160 32) 31) /\
  nearly (ed d Fomegadot) (semi (dfieldS m3 192 24) 43) /\ nearly (ed d Fidot) (semi (dfieldS m3 224 14) 43).
