(* Common vocabulary of the model: bytes, C arrays, machine integers, undefined behaviour. *)
From Coq Require Export ZArith List Bool Lia ZifyBool.
Export ListNotations.
Global Open Scope Z_scope.
Ltac Zify.zify_post_hook ::= Z.div_mod_to_equations.

(* A uint8_t is a Z in this range. *)
Definition byte_ok (b : Z) : Prop := 0 <= b < 256.
Definition bytes_ok (l : list Z) : Prop := Forall byte_ok l.

(* Reduction modulo 2^n: what storing into an unsigned n-bit C++ variable does. *)
Definition u8  (x : Z) : Z := x mod 2 ^ 8.
Definition u16 (x : Z) : Z := x mod 2 ^ 16.
Definition u32 (x : Z) : Z := x mod 2 ^ 32.
Definition u64 (x : Z) : Z := x mod 2 ^ 64.

(* Conversion to a signed n-bit type (two's complement, as every target compiler of this code does). *)
Definition sgn (n : Z) (x : Z) : Z :=
  let m := x mod 2 ^ n in if m <? 2 ^ (n - 1) then m else m - 2 ^ n.
Definition i8  := sgn 8.
Definition i16 := sgn 16.
Definition i32 := sgn 32.
Definition i64 := sgn 64.

(* Kinds of undefined behaviour the model distinguishes. *)
Inductive ubkind : Type :=
| UB_oob_write      (* store outside an array *)
| UB_oob_read       (* load outside an array *)
| UB_overflow       (* signed integer overflow *)
| UB_convert        (* floating value not representable in the integer type *)
| UB_cstring        (* C string function running off an unterminated array *)
| UB_noreturn.      (* value-returning function left without a return value that is then used *)

Inductive outcome (A : Type) : Type :=
| Ok (a : A)
| UB (k : ubkind).
Arguments Ok {A} a.
Arguments UB {A} k.

Definition bind {A B} (x : outcome A) (f : A -> outcome B) : outcome B :=
  match x with Ok a => f a | UB k => UB k end.
Notation "'let*' x ':=' e 'in' f" := (bind e (fun x => f))
  (at level 200, x pattern, e at level 100, f at level 200, right associativity).

(* C array access by a possibly out-of-range integer index. *)
Definition Zlen {A} (l : list A) : Z := Z.of_nat (length l).

Definition aget (l : list Z) (i : Z) : outcome Z :=
  if (0 <=? i) && (i <? Zlen l) then Ok (nth (Z.to_nat i) l 0) else UB UB_oob_read.

Definition aset (l : list Z) (i : Z) (v : Z) : outcome (list Z) :=
  if (0 <=? i) && (i <? Zlen l)
  then Ok (firstn (Z.to_nat i) l ++ v :: skipn (S (Z.to_nat i)) l)
  else UB UB_oob_write.

(* Little-endian encodings used by packed structures. *)
Definition le16 (x : Z) : list Z := [x mod 256; (x / 256) mod 256].
Definition le32 (x : Z) : list Z :=
  [x mod 256; (x / 256) mod 256; (x / 65536) mod 256; (x / 16777216) mod 256].
Definition of_le (l : list Z) : Z := fold_right (fun b acc => b + 256 * acc) 0 l.

(* A got_ubx call as seen from outside: which listener, class, id, message structure (2048 bytes). *)
Record call := mkCall { c_lid : Z; c_cls : Z; c_id : Z; c_msg : list Z }.
(* What one read_cb call does: the got_ubx calls it makes and its boolean result. *)
Definition byte_out : Type := (list call * bool)%type.

(* ------------------------------------------------------------------ lemmas *)
Lemma Zlen_app {A} (a b : list A) : Zlen (a ++ b) = Zlen a + Zlen b.
Proof. unfold Zlen; rewrite app_length; lia. Qed.
Lemma Zlen_cons {A} (a : A) l : Zlen (a :: l) = 1 + Zlen l.
Proof. unfold Zlen; cbn [length]; lia. Qed.
Lemma Zlen_nil {A} : Zlen (@nil A) = 0.
Proof. reflexivity. Qed.
Lemma Zlen_nonneg {A} (l : list A) : 0 <= Zlen l.
Proof. unfold Zlen; lia. Qed.

Lemma aset_app (a b : list Z) x v :
  aset (a ++ x :: b) (Zlen a) v = Ok (a ++ v :: b).
Proof.
  unfold aset. rewrite Zlen_app, Zlen_cons.
  pose proof (Zlen_nonneg a); pose proof (Zlen_nonneg b).
  replace ((0 <=? Zlen a) && (Zlen a <? Zlen a + (1 + Zlen b))) with true by lia.
  unfold Zlen; rewrite Nat2Z.id. do 2 f_equal.
  - rewrite firstn_app, firstn_all, Nat.sub_diag; cbn [firstn]. apply app_nil_r.
  - f_equal. rewrite skipn_app.
    rewrite (skipn_all2 a) by lia.
    replace (S (length a) - length a)%nat with 1%nat by lia. reflexivity.
Qed.

Lemma aset_ok_length l i v l' : aset l i v = Ok l' -> length l' = length l.
Proof.
  unfold aset; destruct ((0 <=? i) && (i <? Zlen l)) eqn:E; intros H; [|discriminate].
  apply (f_equal (fun o => match o with Ok x => x | UB _ => l' end)) in H; cbv beta iota in H.
  rewrite <- H, app_length, firstn_length.
  change (length (v :: skipn (S (Z.to_nat i)) l)) with (S (length (skipn (S (Z.to_nat i)) l))).
  rewrite skipn_length. unfold Zlen in E. lia.
Qed.

Lemma bytes_ok_app a b : bytes_ok (a ++ b) <-> bytes_ok a /\ bytes_ok b.
Proof. apply Forall_app. Qed.

Lemma bytes_ok_firstn n l : bytes_ok l -> bytes_ok (firstn n l).
Proof.
  unfold bytes_ok; rewrite !Forall_forall; intros H x Hx. apply H.
  rewrite <- (firstn_skipn n l); apply in_or_app; auto.
Qed.
Lemma bytes_ok_skipn n l : bytes_ok l -> bytes_ok (skipn n l).
Proof.
  unfold bytes_ok; rewrite !Forall_forall; intros H x Hx. apply H.
  rewrite <- (firstn_skipn n l); apply in_or_app; auto.
Qed.

Lemma u8_id x : byte_ok x -> u8 x = x.
Proof. unfold byte_ok, u8; intros; change (2 ^ 8) with 256; apply Z.mod_small; lia. Qed.
Lemma u8_range x : byte_ok (u8 x).
Proof. unfold u8, byte_ok; apply Z.mod_pos_bound; lia. Qed.

Lemma le16_inv x : 0 <= x < 65536 -> of_le (le16 x) = x.
Proof. unfold le16, of_le; cbn [fold_right]; lia. Qed.
Lemma le32_inv x : 0 <= x < 2 ^ 32 -> of_le (le32 x) = x.
Proof. change (2 ^ 32) with 4294967296; unfold le32, of_le; cbn [fold_right]; lia. Qed.
Lemma le32_ok x : bytes_ok (le32 x).
Proof. unfold le32, bytes_ok, byte_ok; repeat constructor; lia. Qed.
Lemma le16_ok x : bytes_ok (le16 x).
Proof. unfold le16, bytes_ok, byte_ok; repeat constructor; lia. Qed.

Lemma skipn_add {A} (y : nat) : forall (x : nat) (l : list A), skipn x (skipn y l) = skipn (x + y) l.
Proof.
  induction y as [|y IH]; intros x l; [rewrite Nat.add_0_r; reflexivity|].
  rewrite Nat.add_succ_r. destruct l as [|a l]; [rewrite !skipn_nil; reflexivity|]. cbn [skipn]. apply IH.
Qed.
