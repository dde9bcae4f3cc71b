(* C92: src/examples/read_log.cpp:95-126 as a whole, over the Logger of src/examples/logger.h. *)
From Coq Require Import String.
From Verif Require Import Base UbxSpec UbxModel UbxTx RtcmModel UbloxModel UtcModel Dbl NavModel NavDev NavShow ExShow ExLog Console SerialModel SerialProofs TextSpec ConsoleSpec.
Local Open Scope string_scope.
Local Open Scope list_scope.
Local Open Scope Z_scope.

(* ---------------------------------------------------------------- model *)
(* Logger::write logger.h:76-84: `once` is the function's static variable print_once *)
Definition not_supported : string := ("Logging outgoing data is currently not supported" ++ nl)%string.
Definition write_says (once : bool) (buf : list Z) : bool * string := if negb once then (true, not_supported) else (once, "").
Fixpoint writes_say (once : bool) (ev : list event) : bool * string :=
  match ev with
  | [] => (once, "")
  | EvSer b :: r => let (o1, t1) := write_says once b in let (o2, t2) := writes_say o1 r in (o2, (t1 ++ t2)%string)
  | _ :: r => writes_say once r
  end.
(* what a Logger hands to its listener number l because of these writes (SerialModel: nothing but play() delivers) *)
Definition replies (l : Z) (ev : list event) : list Z :=
  concat (got (SLis l) (flat_map (fun e => match e with EvSer b => logger_write b | _ => [] end) ev)).
(* UBX::get_version ubx.cpp:65-89 over a Logger; the driver is its listener number 0 (ublox.cpp:31) *)
Definition ask (once : bool) (s : ublox) : outcome (ublox * bool * bool * string) :=
  let s0 := uw_ubx s (w_ver (u_ubx s) false) in
  let* (s1, e1) := usend send_ver_poll s0 in
  let (once1, t1) := writes_say once e1 in
  let rx := replies 0 e1 in
  let* t2 := ublox_says s1 rx in
  let* (s2, _) := ublox_read s1 rx in
  Ok (s2, got_ver (u_ubx s2), once1, (t1 ++ t2)%string).
(* UBLOX::UBLOX ublox.cpp:29-58 over a Logger: the object (or nothing: runtime_error), print_once, the text *)
Definition connect (u : uninit) (ru : runinit) (out0 : list Z) (nav_id : Z) (once : bool) : outcome (option ublox * bool * string) :=
  let finish s o t :=
    let* (s', e) := usends (ctor_sends (major (u_ubx s))) s in
    let (o', t') := writes_say o e in Ok (Some s', o', (t ++ t')%string) in
  let* (s1, ok1, o1, t1) := ask once (ublox_blank u ru out0 nav_id) in
  if ok1 then finish s1 o1 t1
  else
    let* (s2, ok2, o2, t2) := ask o1 s1 in
    if ok2 then finish s2 o2 (t1 ++ retry_text 2 ++ t2)%string
    else Ok (None, o2, (t1 ++ retry_text 2 ++ t2 ++ retry_text 3)%string).
(* the parser and its callbacks eph_callback and geph_callback read_log.cpp:75-93, numbers ec and gc *)
Fixpoint nav_logs (junk : list Z) (ec gc : Z) (now : utc) (n : nav) (ops : list nop) : outcome (nav * string) :=
  match ops with
  | [] => Ok (n, "")
  | o :: r =>
      let* t := (match o with NMsg m => nav_says n m | _ => Ok "" end) in
      let* (n1, v) := nav_step junk n o in
      let* ts := log_run ec gc (map (pair now) v) in
      let* (n2, t2) := nav_logs junk ec gc now n1 r in
      Ok (n2, (t ++ joined ts ++ t2)%string)
  end.
(* the calls to listeners in the order made: the parser (number nid) or the handler (number hid) *)
Fixpoint calls_say (junk : list Z) (nid hid ec gc : Z) (now : utc) (n : nav) (ev : list event) : outcome (nav * string) :=
  match ev with
  | [] => Ok (n, "")
  | e :: r =>
      let* (n1, t1) := nav_logs junk ec gc now n (to_nav nid e) in
      let* t2 := log_console hid [e] in
      let* (n2, t3) := calls_say junk nid hid ec gc now n1 r in
      Ok (n2, (t1 ++ t2 ++ t3)%string)
  end.
(* bytes handed to the driver by play() logger.h:37-59, each with the clock at that moment *)
Fixpoint played (junk : list Z) (nid hid ec gc : Z) (s : ublox) (n : nav) (bs : list (utc * Z)) : outcome string :=
  match bs with
  | [] => Ok ""
  | (now, b) :: r =>
      let* t := ublox_say s b in
      let* (s1, e) := ublox_byte s b in
      let* (n1, t1) := calls_say junk nid hid ec gc now n e in
      let* t2 := played junk nid hid ec gc s1 n1 r in
      Ok (t ++ t1 ++ t2)%string
  end.
(* how a run of main ends: return, or an exception nobody catches, with its what() *)
Inductive ending := Returns (code : Z) | Uncaught (what : string).
(* the text for standard output, and the text main itself (its own fprintf(stderr)) writes to standard error.  Not included: the diagnostics of the
   parsers, which also go to standard error (C93, C94), and the C++ runtime's text about an uncaught exception *)
Record run := mkRun { r_end : ending; r_out : string; r_err : string }.
(* what exists before main: uninitialised memory (u, ru, out0, junk, st), the clock at the bytes of a replay *)
Record world := mkWorld { wd_u : uninit; wd_ru : runinit; wd_out : list Z; wd_junk : list Z; wd_st : rows; wd_clock : nat -> utc }.
(* main read_log.cpp:95-126.  args: argv[1], argv[2], ...; files: what opening a name gives (None: cannot be opened, logger.h:20-26).
   numbers of the parser, the handler and the two callbacks: 1, 2, 3, 4 *)
Definition read_log (w : world) (files : string -> option (list Z)) (args : list string) : outcome run :=
  match args with
  | [] => Ok (mkRun (Returns 1) "" ("Must supply a log file to read" ++ nl)%string)
  | name :: _ =>
      match files name with
      | None => Ok (mkRun (Uncaught "Unable to open file") "" "")
      | Some file =>
          let* (r, _, t) := connect (wd_u w) (wd_ru w) (wd_out w) 1 false in
          match r with
          | None => Ok (mkRun (Uncaught "Unable to connect.  Please check your serial port configuration") t "")
          | Some s =>
              let s1 := ublox_register s (subscribe (subscribe (mkML 2 []) 0x01 0x07) 0x02 0x15) in
              match logger_play MREAD [0] file with
              | Threw => Ok (mkRun (Uncaught "Must be in READ mode to play log") t "")
              | Done o =>
                  let* ds := o in
                  let bs := concat (got (SLis 0) ds) in
                  let* t2 := played (wd_junk w) 1 2 3 4 s1 (nav_gcb (nav_ecb (nav_init (wd_st w)) 3) 4) (combine (map (wd_clock w) (List.seq 0 (length bs))) bs) in
                  Ok (mkRun (Returns 0) (t ++ t2)%string "")
              end
          end
      end
  end.

(* ---------------------------------------------------------------- proofs *)
Lemma ask_silent once s : ask once s = Ok (uw_out (uw_ubx s (w_ver (u_ubx s) false)) (u_out s), false, true, if once then "" else not_supported).
Proof.
  unfold ask, usend. assert (EP : forall o, exists w0 w, send_ver_poll o = Ok (o, w0 :: w)) by (intros o; do 2 eexists; reflexivity).
  destruct (EP (u_out (uw_ubx s (w_ver (u_ubx s) false)))) as (w0 & w & ->). cbn [bind].
  assert (ES : forall l, writes_say true (map EvSer l) = (true, "")).
  { induction l as [|x l IH]; [reflexivity|]. cbn [map writes_say write_says negb]. rewrite IH. reflexivity. }
  assert (ER : forall l, replies 0 (map EvSer l) = []).
  { intros l. unfold replies. induction l as [|x l IH]; [reflexivity|]. cbn [map flat_map logger_write app]. exact IH. }
  rewrite ER. cbn [map writes_say]. destruct once; cbn [write_says negb]; rewrite ES; cbn [bind ublox_says ublox_read]; reflexivity.
Qed.
Lemma connect_fails u ru out0 nav : exists o, connect u ru out0 nav false = Ok (None, o, (line "Logging outgoing data is currently not supported" ++ second_try_line ++ third_try_line)%string).
Proof. unfold connect. rewrite ask_silent. cbn [bind]. rewrite ask_silent. cbn [bind]. eexists. reflexivity. Qed.
