(** * CreateModel: how the client sets up a carrier: /repo/msc_client/session_factory.go:47-141,
    262-268, 361-374.

    What the settings say, the account store, the regexp compiler, dialling and the login
    (session.NewSession: RecvModel, PropEnd) are arguments.  Left out: logging; that
    [strings.ToLower] has a fast path for ASCII. *)
From Coq Require Import String.
From Verif Require Import Base UtilsModel LogModel RateModel.

(** ConfigYml.GetString and GetInt / GetDuration by key (reading the file is not modelled) *)
Record settings := Settings { g_str : bytes -> bytes; g_int : bytes -> Z }.

(** strings.ToLower: character by character; [lowx] = unicode.ToLower outside ASCII *)
Definition low (lowx : Z -> Z) (c : Z) : Z := if c <? 128 then if (65 <=? c) && (c <=? 90) then c + 32 else c else lowx c.
Definition ToLower (lowx : Z -> Z) (s : bytes) : bytes := flat_map encode_rune (map (low lowx) (runes s)).

(** session_factory.go:361 *)
Definition ISPS : list bytes := [ascii_bytes "cmpp"; ascii_bytes "sgip"; ascii_bytes "smgp"].
(** session_factory.go:363-374; None: log.Panicf *)
Definition ISP_Int (i : bytes) : option nat :=
  if list_eq_dec Z.eq_dec i (ascii_bytes "cmpp") then Some 0%nat
  else if list_eq_dec Z.eq_dec i (ascii_bytes "sgip") then Some 1%nat
  else if list_eq_dec Z.eq_dec i (ascii_bytes "smgp") then Some 2%nat
  else None.

Section Create.
Context {account conn session regexp : Type}.
(** What the outside gives: FindAuthConf (lines 376-384), regexp.Compile, net.Dial, session.NewSession
    (which may panic), and the largest capacity make accepts for a slice of pointers. *)
Record env := Env {
  e_find : bytes -> bytes -> option account;
  e_compile : bytes -> option regexp;
  e_dial : bytes -> option conn;
  e_login : bytes -> account -> conn -> res (option session);
  e_room : Z }.
(** lines 35-44 *)
Record fac := Fac {
  f_name : bytes; f_addr : bytes; f_ac : account; f_sessions : list session;
  f_window : Z; f_limiter : limiter; f_regex : option regexp }.
(** What setting up does besides: looking for the account, dialling, logging in on the connection,
    starting the maintenance with a period (lines 262-268; the goroutine panics if it is negative,
    NewTicker), registering the closing hook. *)
Inductive act :=
| AFind (isp cid : bytes)
| ADial (addr : bytes)
| ALogin (isp : bytes) (ac : account) (c : conn)
| ATick (isp : bytes) (d : Z)
| AHook (isp : bytes).
Definition places := list (option fac).
Definition put (l : places) (i : nat) (f : fac) : places := firstn i l ++ Some f :: skipn (S i) l.

(** lines 71-141: what is done, and the places with the factory returned (None: nil) *)
Definition CreateSessionFactory (e : env) (g : settings) (lowx : Z -> Z) (name : bytes) (l : places)
  : list act * res (places * option fac) :=
  let isp := ToLower lowx name in
  match ISP_Int isp with
  | None => ([], Panic)                                                            (* line 73 *)
  | Some i =>
    match nth i l None with
    | Some f => ([], Ok (l, Some f))                                               (* lines 74-76 *)
    | None =>
      let cid := g_str g (isp ++ ascii_bytes ".client-id")%list in
      match e_find e isp cid with
      | None => ([AFind isp cid], Ok (l, None))                                    (* lines 79-82 *)
      | Some ac =>
        let addr := g_str g (isp ++ ascii_bytes ".address")%list in
        let rx := e_compile e (g_str g (isp ++ ascii_bytes ".segment")%list) in
        let maxConns := g_int g (isp ++ ascii_bytes ".max-conns")%list in
        if e_room e <? maxConns then ([AFind isp cid], Panic) else                 (* line 104 *)
        let '(done, got) :=                                                        (* lines 110-118 *)
          match e_dial e addr with
          | None => ([], Ok [])
          | Some c => ([ALogin isp ac c], match e_login e isp ac c with Ok (Some s) => Ok [s] | Ok None => Ok [] | _ => Panic end)
          end in
        let acts := AFind isp cid :: ADial addr :: done in
        match got with
        | Ok ss =>
          let winSize := g_int g (isp ++ ascii_bytes ".mt-window-size")%list in
          match client_window maxConns winSize with                                (* lines 121-125 *)
          | Ok w =>
            let f := Fac isp addr ac ss w
                       (NewLimiter (Every (client_period (g_int g (isp ++ ascii_bytes ".throughput")%list))) w) rx in
            let d := g_int g (isp ++ ascii_bytes ".tick-duration")%list in
            let d := if d =? 0 then 1000000000 else d in
            ((acts ++ [ATick isp d; AHook isp])%list, Ok (put l i f, Some f))
          | _ => (acts, Panic)
          end
        | _ => (acts, Panic)
        end
      end
    end
  end.

(** lines 47-62: one call of SelectSession up to the unlocking; [m] = MatchString.  The loop runs over
    a copy of the array; the places still to come are those of the array, which only lines 52/139
    write.  The second component of the result: the factory chosen. *)
Fixpoint select_loop (e : env) (g : settings) (lowx : Z -> Z) (m : regexp -> bytes -> bool) (phone : bytes)
    (k i : nat) (l : places) : list act * res (places * option fac) :=
  match k with
  | O => ([], Ok (l, None))
  | S k' =>
    let go (acts : list act) (l : places) (f : option fac) :=
      match f with
      | None => let '(a2, r) := select_loop e g lowx m phone k' (S i) l in ((acts ++ a2)%list, r)     (* line 54 *)
      | Some f =>
        match f_regex f with
        | None => (acts, Panic)
        | Some r => if m r phone then (acts, Ok (l, Some f))
                    else let '(a2, r) := select_loop e g lowx m phone k' (S i) l in ((acts ++ a2)%list, r)
        end
      end in
    match nth i l None with
    | Some f => go [] l (Some f)
    | None =>
      match CreateSessionFactory e g lowx (nth i ISPS []) l with
      | (acts, Ok (l1, f)) => go acts l1 f
      | (acts, _) => (acts, Panic)
      end
    end
  end.
Definition SelectSession (e : env) (g : settings) (lowx : Z -> Z) (m : regexp -> bytes -> bool) (phone : bytes) (l : places) :=
  select_loop e g lowx m phone 3 0 l.
End Create.
Arguments env : clear implicits.
Arguments fac : clear implicits.
Arguments act : clear implicits.
Arguments places : clear implicits.
