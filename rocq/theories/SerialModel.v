(* Model of include/UBLOX/serial_interface.h, include/UBLOX/async_comm_adapter.h and src/examples/logger.h. *)
From Verif Require Import Base.

(* a receiver of bytes: the std::function callback or a SerialListener, named by numbers *)
Inductive sink := SCb (n : Z) | SLis (n : Z).
Definition delivery : Type := (sink * list Z)%type.

(* SerialInterface serial_interface.h:13-24 *)
Record siface := mkSi { si_ls : list Z; si_cb : option Z }.
Definition si_init : siface := mkSi [] None.
(* serial_interface.h:19 *)
Definition add_listener (s : siface) (l : Z) : siface := mkSi (si_ls s ++ [l]) (si_cb s).
(* serial_interface.h:20 *)
Definition add_callback (s : siface) (c : Z) : siface := mkSi (si_ls s) (Some c).
(* ac_adapter::UDP::receive_callback async_comm_adapter.h:27-35 and ac_adapter::Serial::receive_callback 53-61
   (the same text): what is called, in order *)
Definition receive_callback (s : siface) (buf : list Z) : list delivery :=
  match si_cb s with Some c => [(SCb c, buf)] | None => [] end ++ map (fun l => (SLis l, buf)) (si_ls s).

(* use of an interface: registrations and received buffers *)
Inductive sev := SAddL (l : Z) | SAddC (c : Z) | SRecv (buf : list Z).
Definition si_step (s : siface) (e : sev) : siface * list delivery :=
  match e with
  | SAddL l => (add_listener s l, [])
  | SAddC c => (add_callback s c, [])
  | SRecv b => (s, receive_callback s b)
  end.
Fixpoint si_run (s : siface) (h : list sev) : siface * list delivery :=
  match h with
  | [] => (s, [])
  | e :: r => let (s1, d1) := si_step s e in let (s2, d2) := si_run s1 r in (s2, d1 ++ d2)
  end.

(* Logger in WRITE mode, logger.h:17-35 and 61-73.  std::ofstream keeps some bytes in memory: `disk` is what the file
   holds, `pend` what is still buffered.  Opening truncates.  (Opened without std::ios::binary: on POSIX that is the
   same; not modelled for other systems.)  Write errors (full disk) are not modelled: the code does not look at them. *)
Record wlog := mkWl { disk : list Z; pend : list Z }.
Definition wlog_open : wlog := mkWl [] [].
(* Logger::read_cb logger.h:61-73 *)
Definition wlog_read_cb (w : wlog) (buf : list Z) : wlog := mkWl (disk w) (pend w ++ buf).
(* the library or the system moves the first n buffered bytes to the file, at any time *)
Definition wlog_drain (w : wlog) (n : nat) : wlog := mkWl (disk w ++ firstn n (pend w)) (skipn n (pend w)).
(* the destructor flushes and closes *)
Definition wlog_close (w : wlog) : wlog := mkWl (disk w ++ pend w) [].
Inductive lev := LRead (buf : list Z) | LDrain (n : nat).
Definition lev_step (w : wlog) (e : lev) : wlog := match e with LRead b => wlog_read_cb w b | LDrain n => wlog_drain w n end.
Definition wlog_run (h : list lev) : wlog := fold_left lev_step h wlog_open.

(* Logger mode checks: read_cb throws in READ mode (logger.h:63-66), play throws in WRITE mode (39-42) *)
Inductive lmode := MREAD | MWRITE.
Inductive thrown (A : Type) := Done (a : A) | Threw.
Arguments Done {A} a.
Arguments Threw {A}.
Definition logger_read_cb (m : lmode) (w : wlog) (buf : list Z) : thrown wlog :=
  match m with MREAD => Threw | MWRITE => Done (wlog_read_cb w buf) end.

(* the loop of Logger::play logger.h:48-58.  len is uint32_t and idx is int, so idx is converted to unsigned in the
   comparison and the subtraction; idx + chunk_size is an int addition.  fuel bounds the number of iterations; the
   caller passes more than the loop can use (proved: C50 gives the whole delivery sequence). *)
Fixpoint play_loop (fuel : nat) (ls : list Z) (buf : list Z) (len idx : Z) : outcome (list delivery) :=
  match fuel with
  | O => Ok []
  | S f =>
      if u32 idx <? len then
        let chunk := if 14 <=? u32 (len - idx) then 14 else i32 (u32 (len - idx)) in
        let ds := map (fun l => (SLis l, firstn (Z.to_nat chunk) (skipn (Z.to_nat idx) buf))) ls in
        if 2 ^ 31 <=? idx + chunk then UB UB_overflow
        else let* r := play_loop f ls buf len (idx + chunk) in Ok (ds ++ r)
      else Ok []
  end.
(* Logger::play logger.h:37-59: len = (uint32_t) file size; the first len bytes are read *)
Definition logger_play (m : lmode) (ls : list Z) (file : list Z) : thrown (outcome (list delivery)) :=
  match m with
  | MWRITE => Threw
  | MREAD => let len := u32 (Zlen file) in Done (play_loop (S (length file)) ls (firstn (Z.to_nat len) file) len 0)
  end.
(* Logger::write logger.h:76-84 sends nothing *)
Definition logger_write (buf : list Z) : list delivery := [].
