(** * StartModel: where a process looks for its files and how it sets up its log files.
    /repo/msc_server/bootstrap.go:53-111, /repo/msc_client/bootstrap.go:60-118,
    /repo/msc_server/custom_log.go. *)
From Coq Require Import String.
From Verif Require Import Base LogModel.

(** The configuration as the YAML library hands it over: a text, a whole number or a truth value
    for each key (empty, 0, false where there is none).  Reading the file is not modelled. *)
Record conf := Conf { c_str : string -> bytes; c_int : string -> Z; c_bool : string -> bool }.
(** log.TeeOption of the log library, with the fields of RotateOptions *)
Record tee := Tee {
  t_file : bytes; t_format : bytes; t_precision : bytes;
  t_size : Z; t_age : Z; t_backups : Z; t_compress : bool; t_level : Z }.

(** strings.HasPrefix *)
Fixpoint starts (s p : bytes) : bool :=
  match p, s with
  | [], _ => true
  | x :: p', y :: s' => (x =? y) && starts s' p'
  | _ :: _, [] => false
  end.
(** strings.Index: where [p] occurs first; None for -1 *)
Fixpoint Index (s p : bytes) : option nat :=
  if starts s p then Some 0%nat
  else match s with [] => None | _ :: s' => option_map S (Index s' p) end.

(** bootstrap.go:53-75 (server), 60-82 (client) setBasePath: [cwd] is None when Getwd fails; the
    result is None when the process ends there (log.Fatal), otherwise BasePath, which is empty before. *)
Definition setBasePath (project : bytes) (args : list bytes) (cwd : option bytes) : option bytes :=
  match cwd with
  | None => None
  | Some cur =>
    let test := match args with _ :: a :: _ => starts a (ascii_bytes "-test") | _ => false end in
    let base :=
      if negb (zlen project =? 0) && (zlen project <? zlen cur) && test
      then match Index cur project with
           | Some (S i) => firstn (S i) cur ++ project
           | _ => []
           end
      else cur in
    Some (base ++ ascii_bytes "/")
  end.

(** bootstrap.go:77-111 (server) logInit: the two log files; [lvl] is the conversion log.Level *)
Definition logInit_server (lvl : Z -> Z) (base : bytes) (c : conf) : list tee :=
  [Tee (base ++ c_str c "Logs.Default.LogName") (c_str c "Logs.Default.TextFormat") (c_str c "Logs.Default.TimePrecision")
       (c_int c "Logs.Default.MaxSize") (c_int c "Logs.Default.MaxAge") (c_int c "Logs.Default.MaxBackups") (c_bool c "Logs.Default.Compress")
       (lvl (c_int c "Logs.Default.Level"));
   Tee (base ++ c_str c "Logs.Error.LogName") (c_str c "Logs.Error.TextFormat") (c_str c "Logs.Error.TimePrecision")
       (c_int c "Logs.Error.MaxSize") (c_int c "Logs.Error.MaxAge") (c_int c "Logs.Error.MaxBackups") (c_bool c "Logs.Error.Compress")
       (lvl (c_int c "Logs.Error.Level"))].
(** bootstrap.go:84-118 (client) logInit; line 107 reads the level of the first file *)
Definition logInit_client (lvl : Z -> Z) (base : bytes) (c : conf) : list tee :=
  [Tee (base ++ c_str c "Logs.Default.LogName") (c_str c "Logs.Default.TextFormat") (c_str c "Logs.Default.TimePrecision")
       (c_int c "Logs.Default.MaxSize") (c_int c "Logs.Default.MaxAge") (c_int c "Logs.Default.MaxBackups") (c_bool c "Logs.Default.Compress")
       (lvl (c_int c "Logs.Default.Level"));
   Tee (base ++ c_str c "Logs.Error.LogName") (c_str c "Logs.Error.TextFormat") (c_str c "Logs.Error.TimePrecision")
       (c_int c "Logs.Error.MaxSize") (c_int c "Logs.Error.MaxAge") (c_int c "Logs.Error.MaxBackups") (c_bool c "Logs.Error.Compress")
       (lvl (c_int c "Logs.Default.Level"))].
(** custom_log.go:11-52 New; line 37 leaves out the dots of the key *)
Definition log_New (lvl : Z -> Z) (base : bytes) (c : conf) (name : string) : tee :=
  let fileName := c_str c ("Logs." ++ name ++ ".LogName") in
  let fileName := if zlen fileName =? 0 then ascii_bytes ("logs/" ++ name ++ ".log") else fileName in
  let textFormat := c_str c ("Logs." ++ name ++ ".TextFormat") in
  let textFormat := if zlen textFormat =? 0 then ascii_bytes "json" else textFormat in
  let timePrecision := c_str c ("Logs." ++ name ++ ".TimePrecision") in
  let timePrecision := if zlen timePrecision =? 0 then ascii_bytes "millisecond" else timePrecision in
  let maxSize := c_int c ("Logs." ++ name ++ ".MaxSize") in
  let maxSize := if maxSize =? 0 then 10 else maxSize in
  let backups := c_int c ("Logs." ++ name ++ ".MaxBackups") in
  let backups := if backups =? 0 then 100 else backups in
  let maxAge := c_int c ("Logs." ++ name ++ ".MaxAge") in
  let maxAge := if maxAge =? 0 then 14 else maxAge in
  let compress := c_bool c ("Logs." ++ name ++ ".Compress") in
  let level := lvl (c_int c ("Logs" ++ name ++ "Level")) in
  Tee (base ++ fileName)%list textFormat timePrecision maxSize maxAge backups compress level.
