(** * PoolModel: the server above its connections (msc_server/server): the counter of sessions
    under several event loops, and the logins of one client on several connections. *)
From Verif Require Import Base UtilsModel OptionsModel FrameModel ServerModel.

(** ** The session counter: on_open.go:12-24, on_close.go:14-35, server.go:81-90, 105-107 *)
(** Each event loop runs OnOpen and OnClose of its own connections, one at a time; the loops run in
    parallel (Multicore: true, config.yaml:8).  A step of a loop is one access to shared memory:
    reading activeSessions, or writing back the value computed from it.  Go's int is not bounded
    here. *)
Inductive lstate :=
| LIdle
| LCreate                 (* OnOpen: the limit was checked (on_open.go:15), before s.Lock() in CreateSession *)
| LAdd (v : Z)            (* in CreateSession, holding the lock: session stored, activeSessions read as v *)
| LSub (v : Z).           (* in deferFunc: session deleted (on_close.go:28), activeSessions read as v *)
(** [po_calls]: gnet calls OnClose also for a connection that OnOpen refused with gnet.Close (it
    does, v2.1.0; kept as a parameter since gnet is not in the repository). [po_sess]: the session
    pool, each session with the loop of its connection; [po_next] the next session id. *)
Record pool := Pool { po_cap : Z; po_calls : bool; po_cnt : Z; po_sess : list (Z * nat); po_next : Z; po_loops : list lstate; po_lock : bool }.
Definition pstart (cap : Z) (calls : bool) (loops : nat) : pool := Pool cap calls 0 [] 1 (repeat LIdle loops) false.
Inductive pevent :=
| PCheck (i : nat)          (* a connection arrives at loop i: OnOpen up to the comparison *)
| PCreate (i : nat)         (* s.Lock() succeeds; sessionPool.Store; activeSessions is read *)
| PAdd (i : nat)            (* activeSessions is written; s.Unlock() *)
| PClose (i : nat) (s : Z)  (* the connection of session s closes: sessionPool.Delete; activeSessions is read *)
| PSub (i : nat).           (* activeSessions is written *)
Definition set_loop (p : pool) (i : nat) (l : lstate) : pool :=
  Pool (po_cap p) (po_calls p) (po_cnt p) (po_sess p) (po_next p) (upd (po_loops p) i l) (po_lock p).
(** [Panic]: OnClose of a refused connection calls LogCounter on its nil session (on_close.go:21,
    session.go:191), on the event loop, where nothing recovers: the process ends.  An event that is
    not possible in a state leaves it as it is. *)
Definition pstep (p : pool) (e : pevent) : res pool :=
  match e with
  | PCheck i =>
    match nth_error (po_loops p) i with
    | Some LIdle =>
      if po_cap p <=? po_cnt p
      then if po_calls p then Panic else Ok p
      else Ok (set_loop p i LCreate)
    | _ => Ok p
    end
  | PCreate i =>
    match nth_error (po_loops p) i, po_lock p with
    | Some LCreate, false =>
      Ok (Pool (po_cap p) (po_calls p) (po_cnt p) (po_sess p ++ [(po_next p, i)]) (po_next p + 1) (upd (po_loops p) i (LAdd (po_cnt p))) true)
    | _, _ => Ok p
    end
  | PAdd i =>
    match nth_error (po_loops p) i with
    | Some (LAdd v) => Ok (Pool (po_cap p) (po_calls p) (v + 1) (po_sess p) (po_next p) (upd (po_loops p) i LIdle) false)
    | _ => Ok p
    end
  | PClose i s =>
    match nth_error (po_loops p) i with
    | Some LIdle =>
      if existsb (fun x => (fst x =? s) && Nat.eqb (snd x) i) (po_sess p)
      then Ok (Pool (po_cap p) (po_calls p) (po_cnt p) (filter (fun x => negb (fst x =? s)) (po_sess p)) (po_next p) (upd (po_loops p) i (LSub (po_cnt p))) (po_lock p))
      else Ok p
    | _ => Ok p
    end
  | PSub i =>
    match nth_error (po_loops p) i with
    | Some (LSub v) => Ok (Pool (po_cap p) (po_calls p) (v - 1) (po_sess p) (po_next p) (upd (po_loops p) i LIdle) (po_lock p))
    | _ => Ok p
    end
  end.
Fixpoint prun (p : pool) (es : list pevent) : res pool :=
  match es with [] => Ok p | e :: r => p1 <- pstep p e ;; prun p1 r end.

(** ** Several connections of one server *)
(** server.go:92-103 CountSessionByClientId: the sessions in the pool, that is of the connections not
    closed, with this client id (in any status). *)
Definition CountSessionByClientId (cs : list sconn) (cid : bytes) : Z :=
  Z.of_nat (length (filter (fun c => sc_open c && beqb (se_cid (sc_sess c)) cid) cs)).
(** The answers of the environment, with the real count of sessions. *)
Definition counted (cs : list sconn) (o : orc) : orc :=
  Orc (o_lim o) (o_acc o) (o_acc2 o) (o_now o) (o_busy o) (o_norep o) (o_seq o) (o_nid o) (o_nrep o) (o_q o) (o_id o) (o_rid o)
      (o_t1 o) (o_t2 o) (o_t3 o) (o_sec o) (o_g o) (CountSessionByClientId cs) (o_dly o) (o_gen o).
(** A new connection, or a step of connection [i] (ServerModel). *)
Inductive sevent := SOpen (now : Z) | SConnStep (i : nat) (e : event) (o : orc).
Definition sstep (pr : params) (cs : list sconn) (e : sevent) : res (list sconn) :=
  match e with
  | SOpen now => Ok (cs ++ [opened now])
  | SConnStep i e o =>
    match nth_error cs i with
    | Some c => c1 <- step pr c (e, counted cs o) ;; Ok (upd cs i c1)
    | None => Ok cs
    end
  end.
Fixpoint srun (pr : params) (cs : list sconn) (es : list sevent) : res (list sconn) :=
  match es with [] => Ok cs | e :: r => cs1 <- sstep pr cs e ;; srun pr cs1 r end.
