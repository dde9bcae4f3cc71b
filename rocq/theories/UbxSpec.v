(* Specification of the UBX wire format, independent of the code (u-blox protocol description):
   B5 62 class id length(little endian, 2 bytes) payload ck_a ck_b.
   ck_a is the sum of the body bytes modulo 256; ck_b is the sum of the running sums,
   i.e. the first of n body bytes counts n times, the last once, modulo 256. *)
From Verif Require Import Base.

Definition sum (l : list Z) : Z := fold_right Z.add 0 l.
Fixpoint wsum (l : list Z) : Z :=
  match l with
  | [] => 0
  | b :: r => Z.of_nat (length l) * b + wsum r
  end.

Definition ck_a_of (body : list Z) : Z := sum body mod 256.
Definition ck_b_of (body : list Z) : Z := wsum body mod 256.

Definition ubx_body (cls id : Z) (payload : list Z) : list Z :=
  [cls; id; Zlen payload mod 256; Zlen payload / 256] ++ payload.

Definition ubx_frame (cls id : Z) (payload : list Z) : list Z :=
  [0xB5; 0x62] ++ ubx_body cls id payload
    ++ [ck_a_of (ubx_body cls id payload); ck_b_of (ubx_body cls id payload)].

(* Frames the reader is meant to deliver. *)
Definition ubx_payload_ok (payload : list Z) : Prop :=
  1 <= Zlen payload <= 2048 /\ bytes_ok payload.

(* A listener: an identity and the set of (class,id) pairs it has subscribed to. *)
Record listener := mkListener { lid : Z; subs : list (Z * Z) }.

Definition pair_eqb (p q : Z * Z) : bool := (fst p =? fst q) && (snd p =? snd q).
Definition wants (l : listener) (cls id : Z) : bool := existsb (pair_eqb (cls, id)) (subs l).

Definition calls_for (ls : list listener) (cls id : Z) (msg : list Z) : list call :=
  map (fun l => mkCall (lid l) cls id msg) (filter (fun l => wants l cls id) ls).

(* ---------------------------------------------------------------- segmentation of a byte stream *)
(* The grammar the reader is meant to follow.  p is the byte received just before.  A frame starts at a
   0x62 received right after a 0xB5 (that 0xB5 may be noise, or the last byte of the previous item). *)
Inductive item :=
| Noise (b : Z)                                   (* byte outside any frame *)
| Good (cls id : Z) (pl : list Z)                 (* complete frame, right checksum *)
| Bad (cls id : Z) (pl : list Z) (ka kb : Z)      (* complete frame, wrong checksum *)
| Oversize (cls id n : Z).                        (* header announcing n > 2048 bytes *)

Definition item_bytes (it : item) : list Z :=
  match it with
  | Noise b => [b]
  | Good cls id pl => 0x62 :: ubx_body cls id pl ++ [ck_a_of (ubx_body cls id pl); ck_b_of (ubx_body cls id pl)]
  | Bad cls id pl ka kb => 0x62 :: ubx_body cls id pl ++ [ka; kb]
  | Oversize cls id n => [0x62; cls; id; n mod 256; n / 256]
  end.

Definition item_ok (p : Z) (it : item) : Prop :=
  match it with
  | Noise b => ~ (p = 0xB5 /\ b = 0x62)
  | Good cls id pl => p = 0xB5 /\ 1 <= Zlen pl <= 2048
  | Bad cls id pl ka kb =>
      p = 0xB5 /\ 1 <= Zlen pl <= 2048 /\
      (ka, kb) <> (ck_a_of (ubx_body cls id pl), ck_b_of (ubx_body cls id pl))
  | Oversize cls id n => p = 0xB5 /\ 2048 < n < 65536
  end.

Definition item_last (it : item) : Z := last (item_bytes it) 0.

Fixpoint items_ok (p : Z) (its : list item) : Prop :=
  match its with
  | [] => True
  | it :: r => item_ok p it /\ items_ok (item_last it) r
  end.
Definition items_bytes (its : list item) : list Z := flat_map item_bytes its.
Definition items_last (p : Z) (its : list item) : Z := fold_left (fun _ it => item_last it) its p.

(* What may be left at the end: nothing, or an unfinished frame; a frame announcing 0 bytes never ends. *)
Definition tail_ok (p : Z) (t : list Z) : Prop :=
  t = [] \/
  (p = 0xB5 /\ exists r, t = 0x62 :: r /\
    (Zlen r < 4 \/
     exists cls id n rest, r = [cls; id; n mod 256; n / 256] ++ rest /\ 0 <= n <= 2048 /\
       (n = 0 \/ Zlen rest < n + 2))).

(* Observable effect of an item: mem is the 2048-byte message buffer before it. *)
Definition quiet (n : nat) : list byte_out := repeat ([], false) n.
Definition item_mem (mem : list Z) (it : item) : list Z :=
  match it with
  | Good _ _ pl | Bad _ _ pl _ _ => pl ++ skipn (length pl) mem
  | _ => mem
  end.
Definition item_outs (ls : list listener) (mem : list Z) (it : item) : list byte_out :=
  match it with
  | Good cls id pl =>
      quiet (length (item_bytes it) - 1) ++ [(calls_for ls cls id (item_mem mem it), true)]
  | _ => quiet (length (item_bytes it))
  end.
Fixpoint items_outs (ls : list listener) (mem : list Z) (its : list item) : list byte_out :=
  match its with
  | [] => []
  | it :: r => item_outs ls mem it ++ items_outs ls (item_mem mem it) r
  end.
Definition items_mem (mem : list Z) (its : list item) : list Z := fold_left item_mem its mem.

Definition is_good (it : item) : bool := match it with Good _ _ _ => true | _ => false end.
Definition is_error (it : item) : bool :=
  match it with Bad _ _ _ _ _ | Oversize _ _ _ => true | _ => false end.
Definition is_good_of (c i : Z) (it : item) : bool :=
  match it with Good cls id _ => (cls =? c) && (id =? i) | _ => false end.
Definition count (f : item -> bool) (its : list item) : Z := Zlen (filter f its).
