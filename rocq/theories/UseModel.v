(** * UseModel: what the goroutines of the client do with the same session, taken apart
    (msc_client/session/session.go, on_traffic_*.go, api.go, session_factory.go).

    A session has its receiver; any number of goroutines send on it, check it, close it.  They share
    its fields without a lock, except where Close and AddCounterN take the session's own.  A goroutine
    is the tree of what it still does to the shared fields: one constructor is one statement (one read
    or write of one field), so that any two statements can be interleaved.  What the peer sends, how
    Read and Write end, how long the session was idle and who comes next are chosen from outside.
    Simplified: memory is sequentially consistent; what does not touch stat, con, authConf, cancel and
    the lock is left out (the counters and the time of the last use are racy too, but harm nothing);
    a panic for the content of a packet is the subject of ClientModel, not of this file. *)
From Verif Require Import Base CmppModel SgipModel SmgpModel FrameModel ClientModel.

(** session.go:264 reads stat, con and authConf; line 87 reads stat. *)
Inductive field := FLogin | FCon | FAc | FOpen.
Inductive prog :=
| Ret                                   (* the goroutine leaves the session alone *)
| PChk (f : field) (yes no : prog)      (* reads a field and decides *)
| PTake (got none : prog)               (* select on cancel with a default: session.go:109-113 *)
| PDeref (k : prog)                     (* s.authConf.Version, or NewSubmit(s.authConf, …), which reads its fields *)
| PWrite (ok err : prog)                (* s.con.Write *)
| PRead (ok err : prog)                 (* s.con.Read is called *)
| PWait (ok err : prog)                 (* the call is blocked on the connection it was made on *)
| PLock (k : prog) | PUnlock (k : prog) (* s.Lock, s.Unlock *)
| PMark (k : prog)                      (* s.stat = StatClosing *)
| PShut (k : prog)                      (* s.con.Close *)
| PSignal (k : prog)                    (* s.cancel <- struct{}{} *)
| PNilCon (k : prog) | PNilAc (k : prog).

(** stat; con is not nil; authConf is not nil; how often the connection was closed on this side;
    signals in the channel cancel (capacity 1, session.go:54); holder of the lock; the goroutines. *)
Record ustate := UState { u_stat : cstat; u_con : bool; u_ac : bool; u_shut : Z; u_tok : Z; u_lock : option nat; u_th : list prog }.

(** ** The code *)
(** session.go:86-101 *)
Definition close (k : prog) : prog :=
  PChk FOpen (PLock (PMark (PShut (PSignal (PNilCon (PNilAc (PUnlock k))))))) k.
(** session.go:69-75 *)
Definition AddCounter (k : prog) : prog := PLock (PUnlock k).
(** session.go:263-274 and 276-300: [idle], the last use is over a minute ago; no heartbeat with SGIP.
    A failed write makes no difference (lines 295-298).  s is not nil; cancel is set before anybody
    else can see the session. *)
Definition HealthCheck (p : proto) (idle : bool) (yes no : prog) : prog :=
  let beat := match p with P_SGIP => false | _ => idle end in
  PChk FLogin (PChk FCon (PChk FAc (if beat then PWrite yes yes else yes) no) no) no.
(** on_traffic_cmpp.go:16-22, on_traffic_sgip.go:15-21, on_traffic_smgp.go:16-22: the writes of a
    message of [n] parts; a failed one closes the session and ends the message. *)
Fixpoint writes (n : nat) (k : prog) : prog :=
  match n with O => k | S m => PWrite (writes m k) (close k) end.
(** api.go:28-37, session_factory.go:143-160, send_sms.go:31-41: the messages one SendN (or several)
    of one goroutine send on the session: whether it is idle at the check, and the number of parts.
    A session found unusable is not returned; another one is (not followed here). *)
Fixpoint sender (p : proto) (l : list (bool * nat)) : prog :=
  match l with
  | [] => Ret
  | (idle, n) :: r => HealthCheck p idle (PDeref (writes n (AddCounter (sender p r)))) (sender p r)
  end.
(** What the handler of a packet does to the session's fields: on_traffic_cmpp.go:36-125,
    on_traffic_sgip.go:36-78, on_traffic_smgp.go:36-125; [bad]: Decode answered with an error. *)
Inductive job :=
| JNothing        (* responses to heartbeats, unknown commands; SGIP: a good BIND_RESP or SUBMIT_RESP *)
| JVersion        (* CONNECT_RESP, LOGIN_RESP, SUBMIT_RESP of CMPP and SMGP *)
| JAnswer         (* ACTIVE_TEST of CMPP and SMGP *)
| JDeliver        (* DELIVER of CMPP and SMGP *)
| JBye            (* TERMINATE, EXIT, UNBIND *)
| JGone.          (* TERMINATE_RESP, EXIT_RESP, UNBIND_RESP *)
Definition onTraffic (j : job) (bad : bool) (k : prog) : prog :=
  match j with
  | JNothing => if bad then close k else k
  | JVersion => PDeref (if bad then close k else k)
  | JAnswer => PWrite k (close k)
  | JDeliver => PDeref (if bad then close k else PWrite k (close k))
  | JBye => PWrite (close k) (close k)
  | JGone => close k
  end.
(** By command: the cases of the three switches (on_traffic_cmpp.go:40-86, on_traffic_sgip.go:41-63,
    on_traffic_smgp.go:40-86); there is no default.  The Decode of heartbeats and farewells is not
    looked at, so [bad] matters for the others only. *)
Definition job_of (p : proto) (cmd : Z) : job :=
  match p with
  | P_CMPP => if (cmd =? RESP + CONNECT) || (cmd =? RESP + SUBMIT) then JVersion
              else if cmd =? ACTIVE_TEST then JAnswer else if cmd =? DELIVER then JDeliver
              else if cmd =? TERMINATE then JBye else if cmd =? RESP + TERMINATE then JGone else JNothing
  | P_SGIP => if cmd =? SG_UNBIND then JBye else if cmd =? RESP + SG_UNBIND then JGone else JNothing
  | P_SMGP => if (cmd =? RESP + SM_LOGIN) || (cmd =? RESP + SM_SUBMIT) then JVersion
              else if cmd =? SM_ACTIVE_TEST then JAnswer else if cmd =? SM_DELIVER then JDeliver
              else if cmd =? SM_EXIT then JBye else if cmd =? RESP + SM_EXIT then JGone else JNothing
  end.
(** One round of the receiver: idle at the check; the length of the packet is legal; it has a body;
    the command; Decode fails (never for what JNothing stands for, but SGIP's BIND_RESP and SUBMIT_RESP). *)
Record round := Round { rd_idle : bool; rd_legal : bool; rd_body : bool; rd_cmd : Z; rd_bad : bool }.
(** session.go:104-155; after the rounds given the peer sends a packet with an illegal length or
    nothing more. *)
Fixpoint receiver (p : proto) (last : bool) (l : list round) : prog :=
  match l with
  | [] => PTake Ret (HealthCheck p last (PRead (close Ret) (close Ret)) Ret)
  | r :: l' =>
    let go := onTraffic (job_of p (rd_cmd r)) (rd_bad r) (receiver p last l') in
    PTake Ret (HealthCheck p (rd_idle r)
      (PRead (if rd_legal r then if rd_body r then PRead go (close Ret) else go else close Ret) (close Ret)) Ret)
  end.
(** session_factory.go:286-298 and 326-328 (the comparisons): the maintenance of the pool checks the
    session any number of times ([true]: as lruSort does, closing it if unusable; [false]: for its
    priority). *)
Fixpoint upkeep (p : proto) (l : list (bool * bool)) : prog :=
  match l with
  | [] => Ret
  | (idle, sorting) :: r => HealthCheck p idle (upkeep p r) (if sorting then close (upkeep p r) else upkeep p r)
  end.
(** session_factory.go:349-357: the hook run at the end of the process. *)
Definition hooker : prog := close Ret.

(** ** One statement of goroutine [t]; [ok]: how a read or a write ends, if the connection is not
    closed on this side.  A goroutine that cannot go on (the lock is taken, the channel is full, Read
    has nothing) stays where it is. *)
Definition put (x : ustate) (t : nat) (p : prog) : list prog := firstn t (u_th x) ++ [p] ++ skipn (S t) (u_th x).
Definition goes (x : ustate) (t : nat) (p : prog) : ustate := UState (u_stat x) (u_con x) (u_ac x) (u_shut x) (u_tok x) (u_lock x) (put x t p).
Definition holds (x : ustate) (f : field) : bool :=
  match f with
  | FLogin => match u_stat x with CLogin => true | _ => false end
  | FOpen => match u_stat x with CClosing => false | _ => true end
  | FCon => u_con x
  | FAc => u_ac x
  end.
Definition ustep (x : ustate) (e : nat * bool) : res ustate :=
  let t := fst e in
  let ok := snd e && (u_shut x =? 0) in
  match nth_error (u_th x) t with
  | None | Some Ret => Ok x
  | Some (PChk f yes no) => Ok (goes x t (if holds x f then yes else no))
  | Some (PTake got none) =>
    if 0 <? u_tok x then Ok (UState (u_stat x) (u_con x) (u_ac x) (u_shut x) (u_tok x - 1) (u_lock x) (put x t got))
    else Ok (goes x t none)
  | Some (PDeref k) => if u_ac x then Ok (goes x t k) else Panic                       (* nil pointer *)
  | Some (PWrite k err) => if u_con x then Ok (goes x t (if ok then k else err)) else Panic   (* a method of a nil interface *)
  | Some (PRead k err) => if u_con x then Ok (goes x t (PWait k err)) else Panic
  | Some (PWait k err) => Ok (goes x t (if ok then k else err))
  | Some (PLock k) =>
    match u_lock x with
    | None => Ok (UState (u_stat x) (u_con x) (u_ac x) (u_shut x) (u_tok x) (Some t) (put x t k))
    | Some _ => Ok x
    end
  | Some (PUnlock k) => Ok (UState (u_stat x) (u_con x) (u_ac x) (u_shut x) (u_tok x) None (put x t k))
  | Some (PMark k) => Ok (UState CClosing (u_con x) (u_ac x) (u_shut x) (u_tok x) (u_lock x) (put x t k))
  | Some (PShut k) => if u_con x then Ok (UState (u_stat x) (u_con x) (u_ac x) (u_shut x + 1) (u_tok x) (u_lock x) (put x t k)) else Panic
  | Some (PSignal k) => if u_tok x <? 1 then Ok (UState (u_stat x) (u_con x) (u_ac x) (u_shut x) (u_tok x + 1) (u_lock x) (put x t k)) else Ok x
  | Some (PNilCon k) => Ok (UState (u_stat x) false (u_ac x) (u_shut x) (u_tok x) (u_lock x) (put x t k))
  | Some (PNilAc k) => Ok (UState (u_stat x) (u_con x) false (u_shut x) (u_tok x) (u_lock x) (put x t k))
  end.
Fixpoint urun (x : ustate) (es : list (nat * bool)) : res ustate :=
  match es with [] => Ok x | e :: r => x1 <- ustep x e ;; urun x1 r end.
(** A session as NewSession returns it, with the goroutines that have it. *)
Definition ustart (ps : list prog) : ustate := UState CLogin true true 0 0 None ps.
