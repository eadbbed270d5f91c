(** * ServerModel: one connection of the server (msc_server/server): session state, handlers,
    worker goroutines with the window channel, the queue of asynchronous writes with their
    callbacks, the ticker and closing.

    The connection is a small-step machine.  Each [event] is one atomic step of the event loop,
    of one worker goroutine, of the ticker or of the network; every interleaving is a list of
    events.  What the environment answers (rate limiter, pools, dice, clock, sequence numbers,
    number of sessions of a client) comes with the event, so theorems for all event lists hold
    for all of its behaviours.

    Simplifications.  Logging, the session's mutex (fields are read and written in one step
    each) and time spent sleeping are left out.  AsyncWrite only queues (its error return, from
    a failed poll trigger, is not modelled); gnet runs the queue in order on the event loop,
    drops what is queued when the connection is closed, and calls OnClose once.  c.Close() is
    asynchronous: it only records the wish, the event [EClose] (possible at any time, since
    peers and networks also close) does it. *)
From Verif Require Import Base UtilsModel OptionsModel TlvModel CmppModel SgipModel SmgpModel FrameModel.

(** ** What the handlers know about packets *)
(** cmpp.Connect, sgip.Bind, smgp.Login *)
Inductive lreq := LCmpp (c : connect) | LSgip (b : bindp) | LSmgp (l : login).
(** cmpp.Submit, sgip.Submit, smgp.Submit *)
Inductive request := QCmpp (s : submit) | QSgip (s : ssubmit) | QSmgp (s : msubmit).
Inductive reply := ACmpp (r : cresp) | ASgip (r : srsp) | ASmgp (r : mresp).
(** a packet without fields: active tests, terminate, unbind, exit *)
Inductive bare := BHead (h : chead) | BSgip (h : shead).

(** Fixed surroundings of a server: protocol, network library behaviour (see FrameModel),
    MD5, GB18030 decoding, the credential store (FindAuthConf utils.go:9-35 and
    auth.Cache.FindByCid, for this server's name) after each reload, whether
    MinSubmitRespMs < MaxSubmitRespMs in the configuration (else RandNum panics, utils.go:226),
    and ForceCloseConnTime. *)
Record params := Params {
  pr_p : proto; pr_drain : bool; pr_md5 : bytes -> bytes; pr_gbd : bytes -> option bytes;
  pr_find : Z -> bytes -> option authconf; pr_delay_ok : bool; pr_force : Z }.

(** What the environment answers during one step. *)
Record orc := Orc {
  o_lim : bool;            (* rate limiter: limiter.Allow() *)
  o_acc : bool;            (* pool.Submit accepts (no error) *)
  o_acc2 : bool;           (* second pool.Submit of the same step (ticker: mock delivery) *)
  o_now : Z;               (* clock, in nanoseconds *)
  o_busy : bool;           (* first DiceCheck: simulated failure *)
  o_norep : bool;          (* second DiceCheck: no report *)
  o_seq : Z; o_nid : Z; o_nrep : Z; o_q : seq3; o_id : bytes; o_rid : bytes;  (* sequence values *)
  o_t1 : bytes; o_t2 : bytes; o_t3 : bytes; o_sec : Z; o_g : Z;               (* formatted times, clock byte *)
  o_cnt : bytes -> Z;      (* CountSessionByClientId *)
  o_dly : option bytes;    (* mock delivery: the encoded packet, if one is to be sent *)
  o_gen : Z }.             (* which contents of the credential store are current *)

(** Session status, session.go:39-46 *)
Inductive sstat := StatConnect | StatLogin | StatClosing.
(** The session, session.go:19-33.  [se_win] names the window channel (an index into the
    connection's list of channels ever made), [se_res] says whether pool and limiter exist
    (they are set and cleared together), [se_conn] whether conn is non-nil. *)
Record sess := Sess {
  se_stat : sstat; se_ver : Z; se_cid : bytes; se_nAt : Z; se_last : Z;
  se_win : option nat; se_res : bool; se_conn : bool; se_mt : Z; se_dly : Z; se_rpt : Z }.
(** A Go channel of empty structs. *)
Record chan := Chan { ch_cap : Z; ch_len : Z; ch_closed : bool }.

(** Work of a goroutine; [k] is the packet it came from. *)
Inductive job :=
| JLogin (k : packet) (l : lreq)       (* handleCmppConnect, handleSgipBind, handleSmgpLogin *)
| JFlow (k : packet) (r : request)     (* the closure of submitFlowControl *)
| JSubmit (k : packet) (r : request)   (* handleCmppSubmit, handleSgipSubmit, handleSmgpSubmit *)
| JActive (k : packet) (b : bare)
| JActiveResp (k : packet)
| JDeliverResp (k : packet)
| JTerm (k : packet) (b : bare)
| JTermResp (k : packet)
| JForce | JHeart | JDly (b : bytes).  (* closures of the ticker *)
(** Where a windowed goroutine stands. *)
Inductive pc :=
| PStart                 (* before the channel send *)
| PSend (g : nat)        (* blocked sending on channel g *)
| PWork                  (* slot taken, working *)
| PReport (a : reply)    (* response queued, before the simulated report *)
| PRelease               (* before the deferred receive *)
| PRecv (g : nat)        (* blocked receiving from channel g *)
| PStuck.                (* blocked forever on a nil channel *)
Definition task := (job * pc)%type.

(** Callbacks of AsyncWrite. *)
Inductive cb :=
| CbLogin (k : packet) (code : Z) (ac : option authconf)
| CbSubmit (code : Z) | CbReport | CbActive | CbTerm | CbHeart | CbDly | CbForce.
(** What a written packet is: [KSubmit k refused code] is a submit response. *)
Inductive okind := KLogin (k : packet) (code : Z) | KSubmit (k : packet) (refused : bool) (code : Z) | KReport (k : packet)
  | KActive (k : packet) | KTerm (k : packet) | KForce | KHeart | KDly.

(** What can be observed at a connection, in order. *)
Inductive obs :=
| OGot (k : packet)                    (* a packet was handed to the handlers *)
| OServe (k : packet) (refused : bool) (* a packet other than a login was accepted for processing;
                                          [refused]: a submit over the rate limit *)
| OLogin (k : packet) (ac : authconf)  (* the login of packet k took effect *)
| OOut (o : okind) (b : bytes)         (* bytes written to the peer *)
| OClose.                              (* the connection was closed *)

Record sconn := SConn {
  sc_buf : bytes; sc_open : bool; sc_sess : sess; sc_chans : list chan; sc_tasks : list task;
  sc_queue : list (okind * bytes * cb); sc_wish : bool; sc_log : list obs }.

(** ** Session updates *)
Definition set_use (s : sess) (now : Z) : sess :=
  Sess (se_stat s) (se_ver s) (se_cid s) (se_nAt s) now (se_win s) (se_res s) (se_conn s) (se_mt s) (se_dly s) (se_rpt s).
Definition set_nAt (s : sess) (n : Z) : sess :=
  Sess (se_stat s) (se_ver s) (se_cid s) n (se_last s) (se_win s) (se_res s) (se_conn s) (se_mt s) (se_dly s) (se_rpt s).
Definition set_stat (s : sess) (t : sstat) : sess :=
  Sess t (se_ver s) (se_cid s) (se_nAt s) (se_last s) (se_win s) (se_res s) (se_conn s) (se_mt s) (se_dly s) (se_rpt s).
(** session.go CounterAddMt/Dly/Rpt; the counters are uint64, mt and rpt also refresh the time *)
Definition add_mt (s : sess) (now : Z) : sess :=
  Sess (se_stat s) (se_ver s) (se_cid s) (se_nAt s) now (se_win s) (se_res s) (se_conn s) (u64 (se_mt s + 1)) (se_dly s) (se_rpt s).
Definition add_dly (s : sess) : sess :=
  Sess (se_stat s) (se_ver s) (se_cid s) (se_nAt s) (se_last s) (se_win s) (se_res s) (se_conn s) (se_mt s) (u64 (se_dly s + 1)) (se_rpt s).
Definition add_rpt (s : sess) (now : Z) : sess :=
  Sess (se_stat s) (se_ver s) (se_cid s) (se_nAt s) now (se_win s) (se_res s) (se_conn s) (se_mt s) (se_dly s) (u64 (se_rpt s + 1)).

Definition with_sess (c : sconn) (s : sess) : sconn :=
  SConn (sc_buf c) (sc_open c) s (sc_chans c) (sc_tasks c) (sc_queue c) (sc_wish c) (sc_log c).
Definition with_buf (c : sconn) (b : bytes) : sconn :=
  SConn b (sc_open c) (sc_sess c) (sc_chans c) (sc_tasks c) (sc_queue c) (sc_wish c) (sc_log c).
Definition with_chans (c : sconn) (l : list chan) : sconn :=
  SConn (sc_buf c) (sc_open c) (sc_sess c) l (sc_tasks c) (sc_queue c) (sc_wish c) (sc_log c).
Definition with_tasks (c : sconn) (l : list task) : sconn :=
  SConn (sc_buf c) (sc_open c) (sc_sess c) (sc_chans c) l (sc_queue c) (sc_wish c) (sc_log c).
Definition with_queue (c : sconn) (l : list (okind * bytes * cb)) : sconn :=
  SConn (sc_buf c) (sc_open c) (sc_sess c) (sc_chans c) (sc_tasks c) l (sc_wish c) (sc_log c).
Definition with_wish (c : sconn) : sconn :=
  SConn (sc_buf c) (sc_open c) (sc_sess c) (sc_chans c) (sc_tasks c) (sc_queue c) true (sc_log c).
Definition note (c : sconn) (o : obs) : sconn :=
  SConn (sc_buf c) (sc_open c) (sc_sess c) (sc_chans c) (sc_tasks c) (sc_queue c) (sc_wish c) (sc_log c ++ [o]).
Definition spawn (c : sconn) (j : job) : sconn := with_tasks c (sc_tasks c ++ [(j, PStart)]).

Definition upd {A} (l : list A) (i : nat) (x : A) : list A := firstn i l ++ [x] ++ skipn (S i) l.
Definition del {A} (l : list A) (i : nat) : list A := firstn i l ++ skipn (S i) l.
Definition no_chan : chan := Chan 0 0 false.
Definition get_chan (c : sconn) (g : nat) : chan := nth g (sc_chans c) no_chan.

(** session.go:98-112 closeResource *)
Definition closeResource (c : sconn) : sconn :=
  let s := sc_sess c in
  let chans := match se_win s with
               | Some g => upd (sc_chans c) g (Chan (ch_cap (get_chan c g)) (ch_len (get_chan c g)) true)
               | None => sc_chans c
               end in
  with_chans
    (with_sess c (Sess (se_stat s) (se_ver s) (se_cid s) (se_nAt s) (se_last s) None false (se_conn s) (se_mt s) (se_dly s) (se_rpt s)))
    chans.
(** session.go:72-96 completeLogin and setupLimiter; make panics on a negative size.
    The division in setupLimiter is by a non-zero Throughput. *)
Definition completeLogin (c : sconn) (ac : authconf) (now : Z) : res sconn :=
  let c1 := closeResource c in
  if ac_MtWindowSize ac <? 0 then Panic
  else
    let s := sc_sess c1 in
    Ok (with_chans
          (with_sess c1 (Sess StatLogin (ac_Version ac) (ac_ClientId ac) (se_nAt s) now
                           (Some (length (sc_chans c1))) true (se_conn s) (se_mt s) (se_dly s) (se_rpt s)))
          (sc_chans c1 ++ [Chan (ac_MtWindowSize ac) 0 false])).
(** on_close.go:14-34 OnClose and deferFunc for a connection with a session; the status stays. *)
Definition OnClose (c : sconn) : sconn :=
  if negb (sc_open c) then c
  else
    let c1 := closeResource c in
    let s := sc_sess c1 in
    let s1 := Sess (se_stat s) (se_ver s) (se_cid s) (se_nAt s) (se_last s) (se_win s) (se_res s) false (se_mt s) (se_dly s) (se_rpt s) in
    note (SConn (sc_buf c1) false s1 (sc_chans c1) (sc_tasks c1) [] (sc_wish c1) (sc_log c1)) OClose.

(** sc.conn.AsyncWrite: a nil connection panics *)
Definition AsyncWrite (c : sconn) (o : okind) (b : bytes) (f : cb) : res sconn :=
  if se_conn (sc_sess c) then Ok (with_queue c (sc_queue c ++ [(o, b, f)])) else Panic.

(** ** Handlers (on the event loop) *)
(** cmpp_connect.go:19-24, sgip_bind.go:19-24, smgp_login.go:19-24: Decode *)
Definition decode_login (p : proto) (k : packet) : res lreq :=
  match p with
  | P_CMPP => c <- Connect_Decode (pk_seq k) (pk_body k) ;; Ok (LCmpp c)
  | P_SGIP => b <- Bind_Decode (pk_seq k) (pk_body k) ;; Ok (LSgip b)
  | P_SMGP => l <- Login_Decode (pk_seq k) (pk_body k) ;; Ok (LSmgp l)
  end.
(** cmpp_submit.go:28-33, sgip_submit.go:27-32, smgp_submit.go:29-34: Decode *)
Definition decode_submit (pr : params) (ver : Z) (k : packet) : res request :=
  match pr_p pr with
  | P_CMPP => s <- Submit_Decode ver (pk_seq k) (pk_body k) ;; Ok (QCmpp s)
  | P_SGIP => s <- SSubmit_Decode (pk_seq k) (pk_body k) ;; Ok (QSgip s)
  | P_SMGP => s <- MSubmit_Decode (pr_gbd pr) ver (pk_seq k) (pk_body k) ;; Ok (QSmgp s)
  end.
(** Decode of the remaining packets and the goroutine each handler starts (cmpp_active.go,
    cmpp_active_resp.go, cmpp_delivery_resp.go, cmpp_terminate.go, cmpp_terminate_resp.go, the
    smgp_ files and sgip_unbind.go, sgip_unbind_resp.go) *)
Definition decode_other (p : proto) (h : hkind) (k : packet) : res job :=
  match p, h with
  | P_CMPP, HActive => x <- ActiveTest_Decode (pk_seq k) (pk_body k) ;; Ok (JActive k (BHead x))
  | P_CMPP, HActiveResp => x <- ActiveTestRsp_Decode (pk_seq k) (pk_body k) ;; Ok (JActiveResp k)
  | P_CMPP, HDeliverResp => x <- cresp_Decode (RESP + DELIVER) 0 (pk_seq k) (pk_body k) ;; Ok (JDeliverResp k)
  | P_CMPP, HTerminate => x <- Terminate_Decode (pk_seq k) (pk_body k) ;; Ok (JTerm k (BHead x))
  | P_CMPP, _ => x <- TerminateRsp_Decode (pk_seq k) (pk_body k) ;; Ok (JTermResp k)
  | P_SGIP, HTerminate => x <- Unbind_Decode SG_UNBIND (pk_seq k) (pk_body k) ;; Ok (JTerm k (BSgip x))
  | P_SGIP, _ => x <- Unbind_Decode (RESP + SG_UNBIND) (pk_seq k) (pk_body k) ;; Ok (JTermResp k)
  | P_SMGP, HActive => x <- sm_bare_Decode SM_ACTIVE_TEST (pk_seq k) (pk_body k) ;; Ok (JActive k (BHead x))
  | P_SMGP, HActiveResp => x <- sm_bare_Decode (RESP + SM_ACTIVE_TEST) (pk_seq k) (pk_body k) ;; Ok (JActiveResp k)
  | P_SMGP, HDeliverResp => x <- mresp_Decode (RESP + SM_DELIVER) 0 (pk_seq k) (pk_body k) ;; Ok (JDeliverResp k)
  | P_SMGP, HTerminate => x <- sm_bare_Decode SM_EXIT (pk_seq k) (pk_body k) ;; Ok (JTerm k (BHead x))
  | P_SMGP, _ => x <- sm_bare_Decode (RESP + SM_EXIT) (pk_seq k) (pk_body k) ;; Ok (JTermResp k)
  end.
(** on_traffic.go:140-147 sessionCheck *)
Definition sessionCheck (s : sess) : bool := match se_stat s with StatLogin => true | _ => false end.

(** The body of each handler for a packet that is its own; [None] pool or limiter: nil
    dereference on the event loop. *)
Definition act (pr : params) (o : orc) (h : hkind) (k : packet) (c : sconn) : res (action * sconn) :=
  let c := note c (OGot k) in
  let s := sc_sess c in
  match h with
  | HLogin =>
    match decode_login (pr_p pr) k with
    | Ok l => if o_acc o then Ok (ANone, spawn c (JLogin k l)) else Ok (AClose, c)
    | Err _ => Ok (AClose, c)
    | Panic => Panic
    end
  | HSubmit =>
    if negb (sessionCheck s) then Ok (AClose, c)
    else
      match decode_submit pr (se_ver s) k with
      | Err _ => Ok (AClose, c)
      | Panic => Panic
      | Ok r =>
        if negb (se_res s) then Panic
        else if negb (o_lim o) then                       (* submitFlowControl, on_traffic.go:109-121 *)
          Ok (ANone, if o_acc o then spawn (note c (OServe k true)) (JFlow k r) else note c (OServe k true))
        else if o_acc o then Ok (ANone, spawn (note c (OServe k false)) (JSubmit k r))
        else Ok (AClose, c)
      end
  | _ =>
    if negb (sessionCheck s) then Ok (AClose, c)
    else
      match decode_other (pr_p pr) h k with
      | Err _ => Ok (AClose, c)
      | Panic => Panic
      | Ok j =>
        if negb (se_res s) then Panic
        else if o_acc o then Ok (ANone, spawn (note c (OServe k false)) j) else Ok (AClose, c)
      end
  end.
(** A read event: OnTraffic on the buffered bytes; action Close closes at once. *)
Definition on_recv (pr : params) (o : orc) (seg : bytes) (c : sconn) : res sconn :=
  if negb (sc_open c) then Ok c
  else
    '(a, buf, c1) <- OnTraffic (pr_p pr) (pr_drain pr) (act pr o) (sc_buf c ++ seg) c ;;
    let c2 := with_buf c1 buf in
    match a with ANone => Ok c2 | AClose => Ok (OnClose c2) end.

(** ** Goroutines *)
(** The account looked up by a login: cmpp_connect.go:47 (SourceAddr), sgip_bind.go:46
    (LoginName), smgp_login.go:47 (ClientID). *)
Definition login_key (l : lreq) : bytes :=
  match l with LCmpp c => cn_sourceAddr c | LSgip b => bd_name b | LSmgp l => lg_clientID l end.
(** login.Check(cli): status, and the request with its secret *)
Definition login_check (md5 : bytes -> bytes) (l : lreq) (ac : option authconf) : Z * lreq :=
  match l with
  | LCmpp c => let '(z, c') := Connect_Check md5 c ac in (z, LCmpp c')
  | LSgip b => (Bind_Check b ac, LSgip b)
  | LSmgp x => let '(z, x') := Login_Check md5 x ac in (z, LSmgp x')
  end.
(** login.ToResponse(code).Encode() *)
Definition login_answer (md5 : bytes -> bytes) (l : lreq) (code : Z) : res bytes :=
  match l with
  | LCmpp c => ConnectResp_Encode (Connect_ToResponse md5 c code)
  | LSgip b => BindRsp_Encode (Bind_ToResponse b code)
  | LSmgp x => LoginRsp_Encode (Login_ToResponse md5 x code)
  end.
(** Code for too many connections: cmpp_connect.go:56 (ConnStatusOthers), sgip_bind.go:55,
    smgp_login.go:56 *)
Definition over_code (p : proto) : Z := match p with P_CMPP => 5 | P_SGIP => 3 | P_SMGP => 2 end.
(** handleCmppConnect (cmpp_connect.go:41-79), handleSgipBind, handleSmgpLogin *)
Definition handle_login (pr : params) (o : orc) (k : packet) (l : lreq) (c : sconn) : res sconn :=
  let cli := pr_find pr (o_gen o) (login_key l) in
  let '(code0, l1) := login_check (pr_md5 pr) l cli in
  let code := if code0 =? 0
              then match cli with
                   | Some ac => if ac_MaxConns ac <=? o_cnt o (ac_ClientId ac) then over_code (pr_p pr) else code0
                   | None => code0
                   end
              else code0 in
  b <- login_answer (pr_md5 pr) l1 code ;;
  AsyncWrite c (KLogin k code) b (CbLogin k code cli).

(** pdu.ToResponse(code): cmpp submit.go:246, sgip submit.go:292, smgp submit.go:200 *)
Definition submit_reply (r : request) (code : Z) (o : orc) : reply :=
  match r with
  | QCmpp s => ACmpp (Submit_ToResponse s code (o_nid o))
  | QSgip s => ASgip (SSubmit_ToResponse s code)
  | QSmgp s => ASmgp (MSubmit_ToResponse s code (o_id o))
  end.
Definition encode_reply (a : reply) : res bytes :=
  match a with ACmpp r => cresp_Encode r | ASgip r => srsp_Encode r | ASmgp r => mresp_Encode r end.
(** on_traffic.go:124-138 sendSubmitResponse *)
Definition sendSubmitResponse (k : packet) (r : request) (refused : bool) (code : Z) (o : orc) (c : sconn) : res (reply * sconn) :=
  let a := submit_reply r code o in
  b <- encode_reply a ;;
  c1 <- AsyncWrite c (KSubmit k refused code) b (CbSubmit code) ;;
  Ok (a, c1).
(** submitFlowControl's third argument: cmpp_submit.go:35, sgip_submit.go:34, smgp_submit.go:36 *)
Definition flow_code (p : proto) : Z := match p with P_CMPP => 8 | P_SGIP => 33 | P_SMGP => 1 end.
(** The simulated failure: cmpp_submit.go:74, sgip_submit.go:70, smgp_submit.go:75 *)
Definition busy_code (p : proto) : Z := match p with P_CMPP => 8 | P_SGIP => 33 | P_SMGP => 75 end.

(** The simulated report: cmpp_submit.go:105-129, smgp_submit.go:106-131; none for SGIP. *)
Definition report_bytes (pr : params) (r : request) (a : reply) (o : orc) (cid : bytes) : res (option bytes) :=
  match r, a with
  | QCmpp s, ACmpp x =>
    if o_norep o then Ok None
    else b <- Delivery_Encode (o_g o) (ToDeliveryReport s (rs_msgId x) (o_seq o) (o_nid o) (o_nrep o) (o_t1 o) (o_t2 o)) ;; Ok (Some b)
  | QSmgp s, ASmgp x =>
    if o_norep o then Ok None
    else match pr_find pr (o_gen o) cid with
         | None => Panic
         | Some ac =>
           d <- smgp_NewDeliveryReport ac s (u32 (o_seq o)) (mr_msgId x) (o_rid o) (o_t1 o) (o_sec o) (o_t2 o) (o_t3 o) ;;
           b <- MDeliver_Encode d ;; Ok (Some b)
         end
  | _, _ => Ok None
  end.
Definition job_packet (j : job) : option packet :=
  match j with
  | JLogin k _ | JFlow k _ | JSubmit k _ | JActive k _ | JActiveResp k | JDeliverResp k | JTerm k _ | JTermResp k => Some k
  | _ => None
  end.
(** ToResponse(0).Encode() of the fieldless requests *)
Definition active_answer (p : proto) (b : bare) : res bytes :=
  match p, b with
  | P_CMPP, BHead h => ActiveTestRsp_Encode (ActiveTest_ToResponse h)
  | _, BHead h => smhead_Encode (sm_bare_ToResponse SM_ACTIVE_TEST h)
  | _, BSgip h => Panic
  end.
Definition term_answer (p : proto) (b : bare) : res bytes :=
  match p, b with
  | P_CMPP, BHead h => head_Encode (Terminate_ToResponse h)
  | _, BHead h => smhead_Encode (sm_bare_ToResponse SM_EXIT h)
  | _, BSgip h => shead_Encode (Unbind_ToResponse h)
  end.
(** on_tick.go:174-187 sendTerminate's packet; on_tick.go:82-96 activeTest's (none for SGIP) *)
Definition force_packet (p : proto) (o : orc) : res bytes :=
  match p with
  | P_CMPP => head_Encode (NewTerminate (u32 (o_seq o)))
  | P_SGIP => shead_Encode (NewUnbind (o_q o))
  | P_SMGP => smhead_Encode (sm_bare SM_EXIT (u32 (o_seq o)))
  end.
Definition heart_packet (p : proto) (o : orc) : option (res bytes) :=
  match p with
  | P_CMPP => Some (head_Encode (NewActiveTest (u32 (o_seq o))))
  | P_SGIP => None
  | P_SMGP => Some (smhead_Encode (sm_bare SM_ACTIVE_TEST (u32 (o_seq o))))
  end.

(** time.Minute, in nanoseconds *)
Definition minute : Z := 60000000000.
(** Goroutines that do not use the window: one step (their panics are caught by the pool's
    PanicHandler, server.go:66-68, session.go:63-65, and then change nothing). *)
Definition plain_job (pr : params) (o : orc) (j : job) (c : sconn) : option (res sconn) :=
  match j with
  | JLogin k l => Some (handle_login pr o k l c)
  | JFlow k r => Some ('(_, c1) <- sendSubmitResponse k r true (flow_code (pr_p pr)) o c ;; Ok c1)
  | JForce => Some (b <- force_packet (pr_p pr) o ;; AsyncWrite c KForce b CbForce)
  | JHeart =>                                             (* on_tick.go:79-112 *)
    Some (if se_last (sc_sess c) + minute <? o_now o
          then match heart_packet (pr_p pr) o with
               | Some rb => b <- rb ;; AsyncWrite c KHeart b CbHeart
               | None => Ok c
               end
          else Ok c)
  | JDly b => Some (AsyncWrite c KDly b CbDly)
  | _ => None
  end.
(** The part of a windowed goroutine between taking and giving back the slot; the second
    component is where it stands afterwards.  A panic runs the deferred receive. *)
Definition work (pr : params) (o : orc) (j : job) (c : sconn) : res (sconn * pc) :=
  match j with
  | JSubmit k r =>
    match pr_find pr (o_gen o) (se_cid (sc_sess c)) with             (* ...PacketCheck dereferences the account *)
    | None => Panic
    | Some _ =>
      if negb (pr_delay_ok pr) then Panic                  (* mockRandPrecessTime, on_traffic.go:154-159 *)
      else
        let code := if o_busy o then busy_code (pr_p pr) else 0 in
        '(a, c1) <- sendSubmitResponse k r false code o c ;;
        Ok (c1, if code =? 0 then PReport a else PRelease)
    end
  | JActive k b => p <- active_answer (pr_p pr) b ;; c1 <- AsyncWrite c (KActive k) p CbActive ;; Ok (c1, PRelease)
  | JActiveResp k => Ok (with_sess c (set_nAt (set_use (sc_sess c) (o_now o)) 0), PRelease)
  | JDeliverResp k => Ok (with_sess c (set_use (sc_sess c) (o_now o)), PRelease)
  | JTerm k b => p <- term_answer (pr_p pr) b ;; c1 <- AsyncWrite c (KTerm k) p CbTerm ;; Ok (c1, PRelease)
  | JTermResp k => if se_conn (sc_sess c) then Ok (with_wish c, PRelease) else Panic
  | _ => Ok (c, PRelease)
  end.
Definition report (pr : params) (o : orc) (j : job) (a : reply) (c : sconn) : res sconn :=
  match j with
  | JSubmit k r =>
    ob <- report_bytes pr r a o (se_cid (sc_sess c)) ;;
    match ob with Some b => AsyncWrite c (KReport k) b CbReport | None => Ok c end
  | _ => Ok c
  end.
Definition set_chan (c : sconn) (g : nat) (x : chan) : sconn := with_chans c (upd (sc_chans c) g x).
Definition plus (x : chan) (d : Z) : chan := Chan (ch_cap x) (ch_len x + d) (ch_closed x).
(** Sending on channel g: a closed channel panics (before the deferred receive is set up, so the
    goroutine is gone); a full one blocks. (An unbuffered channel is full; a receiver waiting on
    one, possible only after a re-login, is not paired with the sender.) *)
Definition try_send (c : sconn) (i : nat) (j : job) (g : nat) : sconn :=
  let x := get_chan c g in
  if ch_closed x then with_tasks c (del (sc_tasks c) i)
  else if ch_len x <? ch_cap x then set_chan (with_tasks c (upd (sc_tasks c) i (j, PWork))) g (plus x 1)
  else with_tasks c (upd (sc_tasks c) i (j, PSend g)).
Definition try_recv (c : sconn) (i : nat) (j : job) (g : nat) : sconn :=
  let x := get_chan c g in
  if 0 <? ch_len x then set_chan (with_tasks c (del (sc_tasks c) i)) g (plus x (-1))
  else if ch_closed x then with_tasks c (del (sc_tasks c) i)
  else with_tasks c (upd (sc_tasks c) i (j, PRecv g)).
(** One step of goroutine [i].  The channel expression sc.window is evaluated when the send,
    and again when the deferred receive, is reached. *)
Definition on_task (pr : params) (o : orc) (i : nat) (c : sconn) : sconn :=
  match nth_error (sc_tasks c) i with
  | None => c
  | Some (j, q) =>
    match plain_job pr o j c with
    | Some r => match r with
                | Ok c1 => with_tasks c1 (del (sc_tasks c1) i)
                | _ => with_tasks c (del (sc_tasks c) i)
                end
    | None =>
      match q with
      | PStart => match se_win (sc_sess c) with
                  | Some g => try_send c i j g
                  | None => with_tasks c (upd (sc_tasks c) i (j, PStuck))
                  end
      | PSend g => try_send c i j g
      | PWork => match work pr o j c with
                 | Ok (c1, q1) => with_tasks c1 (upd (sc_tasks c1) i (j, q1))
                 | _ => with_tasks c (upd (sc_tasks c) i (j, PRelease))
                 end
      | PReport a => match report pr o j a c with
                     | Ok c1 => with_tasks c1 (upd (sc_tasks c1) i (j, PRelease))
                     | _ => with_tasks c (upd (sc_tasks c) i (j, PRelease))
                     end
      | PRelease => match se_win (sc_sess c) with
                    | Some g => try_recv c i j g
                    | None => with_tasks c (upd (sc_tasks c) i (j, PStuck))
                    end
      | PRecv g => try_recv c i j g
      | PStuck => c
      end
    end
  end.

(** ** The event loop runs the first queued write and its callback. *)
Definition callback (o : orc) (f : cb) (c : sconn) : res sconn :=
  let s := sc_sess c in
  match f with
  | CbLogin k code (Some ac) =>
    if code =? 0 then c1 <- completeLogin c ac (o_now o) ;; Ok (note c1 (OLogin k ac))
    else Ok (with_wish (with_sess c (set_stat s StatClosing)))
  | CbLogin k code None => if code =? 0 then Panic else Ok (with_wish (with_sess c (set_stat s StatClosing)))
  | CbSubmit code => Ok (if code =? 0 then with_sess c (add_mt s (o_now o)) else c)
  | CbReport => Ok (with_sess c (add_rpt s (o_now o)))
  | CbActive => Ok (with_sess c (set_use s (o_now o)))
  | CbTerm => Ok (with_wish c)
  | CbHeart => Ok (with_sess c (set_nAt s (u8 (se_nAt s + 1))))
  | CbDly => Ok (with_sess c (add_dly s))
  | CbForce => Ok (with_wish c)
  end.
Definition on_write (o : orc) (c : sconn) : res sconn :=
  match sc_open c, sc_queue c with
  | true, (kd, b, f) :: r => callback o f (note (with_queue c r) (OOut kd b))
  | _, _ => Ok c
  end.

(** on_tick.go:21-47 OnTick for this connection's session. *)
Definition on_tick (pr : params) (o : orc) (c : sconn) : sconn :=
  if negb (sc_open c) then c
  else
    let s := sc_sess c in
    if (se_last s + pr_force pr <? o_now o) || (2 <? se_nAt s)      (* closeCheck; activeTestNoneResponseCheck *)
    then if o_acc o then spawn c JForce else c
    else
      match se_stat s with
      | StatLogin =>
        let c1 := if o_acc o then spawn c JHeart else c in
        match o_dly o with
        | Some b => if o_acc2 o then spawn c1 (JDly b) else c1
        | None => c1
        end
      | _ => c
      end.

(** ** Runs *)
Inductive event := ERecv (seg : bytes) | ETask (i : nat) | EWrite | ETick | EClose.
(** One step; [Panic] is a panic on the event loop, which ends the process. *)
Definition step (pr : params) (c : sconn) (e : event * orc) : res sconn :=
  let '(k, o) := e in
  match k with
  | ERecv seg => on_recv pr o seg c
  | ETask i => Ok (on_task pr o i c)
  | EWrite => on_write o c
  | ETick => Ok (on_tick pr o c)
  | EClose => Ok (OnClose c)
  end.
Fixpoint run (pr : params) (c : sconn) (es : list (event * orc)) : res sconn :=
  match es with [] => Ok c | e :: r => c1 <- step pr c e ;; run pr c1 r end.
(** on_open.go:12-23 and session.go:48-56: an accepted connection at time [now] *)
Definition opened (now : Z) : sconn :=
  SConn [] true (Sess StatConnect 0 [] 0 now None false true 0 0 0) [] [] [] false [].
