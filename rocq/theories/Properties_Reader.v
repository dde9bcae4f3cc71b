(* C92: the program read_log from start to end (LogProg.read_log: main of src/examples/read_log.cpp over the Logger of logger.h). *)
From Coq Require Import String.
From Verif Require Import Base UbxModel RtcmModel UbloxModel UbloxSpec UtcModel Dbl NavModel ExShow TextSpec ConsoleSpec Console SerialModel LogProg.
From Verif Require Import UbxEx Properties_Rtcm Properties_Ublox Properties_NavGps Properties_NavDev Properties_Program.
Local Open Scope string_scope.
Local Open Scope list_scope.
Local Open Scope Z_scope.

(* every run: whatever memory held before, whatever the clock, the file system and the arguments *)
Theorem C92_every_run w files args : read_log w files args = Ok
  (match args with
   | [] => mkRun (Returns 1) "" (line "Must supply a log file to read")
   | name :: _ =>
       match files name with
       | None => mkRun (Uncaught "Unable to open file") "" ""
       | Some _ => mkRun (Uncaught "Unable to connect.  Please check your serial port configuration")
           (line "Logging outgoing data is currently not supported" ++ second_try_line ++ third_try_line)%string ""
       end
   end).
Proof.
  destruct args as [|name r]; [reflexivity|]. unfold read_log. destruct (files name) as [file|]; [|reflexivity].
  destruct (connect_fails (wd_u w) (wd_ru w) (wd_out w) 1) as (o & ->). reflexivity.
Qed.
Print Assumptions C92_every_run.
(* it never returns success *)
Theorem C92_never_succeeds w files args x : read_log w files args = Ok x -> r_end x <> Returns 0.
Proof.
  rewrite C92_every_run. intros E. assert (EX : r_end x = r_end (match args with
    | [] => mkRun (Returns 1) "" (line "Must supply a log file to read")
    | name :: _ => match files name with None => mkRun (Uncaught "Unable to open file") "" ""
       | Some _ => mkRun (Uncaught "Unable to connect.  Please check your serial port configuration")
           (line "Logging outgoing data is currently not supported" ++ second_try_line ++ third_try_line)%string "" end end)) by congruence.
  rewrite EX. destruct args as [|name r]; [discriminate|]. destruct (files name); discriminate.
Qed.
Print Assumptions C92_never_succeeds.
(* the content of the log has no influence on anything the program does *)
Theorem C92_content_does_not_matter w files files' name args f f' : files name = Some f -> files' name = Some f' ->
  read_log w files (name :: args) = read_log w files' (name :: args).
Proof. intros H H'. rewrite !C92_every_run, H, H'. reflexivity. Qed.
Print Assumptions C92_content_does_not_matter.

(* the part of the program that is never reached does print what a log contains: a driver that has been constructed, the recorded bytes of three GPS subframes *)
Definition rw0 : world := mkWorld u0 ru0 out00 junk0 st0 (fun _ => mkUtc 1563664000 0).
Example C92_case : exists f, read_log rw0 (fun n => if String.eqb n "a.log" then Some f else None) ["a.log"] = Ok (mkRun (Uncaught "Unable to connect.  Please check your serial port configuration")
    (line "Logging outgoing data is currently not supported" ++ line "Unable to query version.  Trying again (2 out of 3)" ++ line "Unable to query version.  Trying again (3 out of 3)")%string "") /\
  played junk0 77 2 7 8 dv nav1 (combine (repeat (mkUtc 1563664000 0) (length f)) f) =
    Ok (line "Connected:" ++ line "Module: ZED-F9P" ++ line "Protocol Version: 27.11" ++ line "" ++
      line "!!!!!!!!!!!!!!!!!!!!!!!!!!!!!!!!!!!!!!!!!!!!!!!!!!!!!!!!!!" ++ line "GPS sat: 21, now = 2019/7/20 23:6:40, toe = 2019/7/20 22:0:18, tof = 2019/7/20 22:0:18" ++
      line "!!!!!!!!!!!!!!!!!!!!!!!!!!!!!!!!!!!!!!!!!!!!!!!!!!!!!!!!!!")%string.
Proof. exists (ditems_bytes pds). split; [apply C92_every_run|vm_compute; reflexivity]. Qed.
