(** * LoopModel: one event loop of the server with all its connections, and the pools that run the
    goroutines.

    gnet serves every connection on one event loop for its whole life (a single loop for all of them
    unless Multicore is set); OnTraffic, OnClose and the callbacks of AsyncWrite run on it one after
    another.  The handlers start goroutines with pool.Submit: logins and the ticker in the server's
    pool, which refuses when it is full (server.go:62-70, Nonblocking true; [o_acc] of the event), all
    other packets in the session's pool, which makes the caller wait (session.go:58-70, Nonblocking
    false).  ServerModel leaves this waiting out; here it is explicit: while the loop waits, nothing
    happens on it.

    Of ants (not in the sandbox) is used: a pool of size n > 0 runs at most n goroutines at a time, one
    of size <= 0 any number; Submit on a full pool that is not non-blocking waits until a goroutine of
    that pool is done, as long as at most MaxBlockingTasks callers wait.  Here that is one caller, the
    loop, and MaxBlockingTasks is the size, which is at least 2 when the pool can be full.

    Simplification: what a handler does before Submit (decoding, the limiter) is done in one step with
    the start of the goroutine, when the wait is over; in between no step changes what it depends on. *)
From Verif Require Import Base OptionsModel FrameModel ServerModel.

(** A connection; for each of its goroutines the pool it runs in: [Some g] for the session pool made
    together with window [g] (session.go:81-82), [None] for the server's pool. *)
Record lconn := LConn { lc_c : sconn; lc_in : list (option nat) }.
(** The loop: its connections and the read it is busy with, if it waits in Submit. *)
Record loop := Loop { lp_cs : list lconn; lp_wait : option (nat * bytes * orc) }.
Definition loop0 : loop := Loop [] None.

(** session.go:82 createSessionSidePool(ac.MtWindowSize * 2) *)
Definition pool_size (c : sconn) (g : nat) : Z := 2 * ch_cap (get_chan c g).
Definition in_pool (g : nat) (t : option nat) : bool := match t with Some h => Nat.eqb h g | None => false end.
Definition running (g : nat) (l : list (option nat)) : Z := zlen (filter (in_pool g) l).
(** Submit to the session's pool would not wait *)
Definition has_room (x : lconn) : bool :=
  match se_win (sc_sess (lc_c x)) with
  | None => true
  | Some g => (pool_size (lc_c x) g <=? 0) || (running g (lc_in x) <? pool_size (lc_c x) g)
  end.
(** the same environment, with Submit accepting *)
Definition granted (o : orc) : orc :=
  Orc (o_lim o) true (o_acc2 o) (o_now o) (o_busy o) (o_norep o) (o_seq o) (o_nid o) (o_nrep o) (o_q o) (o_id o) (o_rid o)
    (o_t1 o) (o_t2 o) (o_t3 o) (o_sec o) (o_g o) (o_cnt o) (o_dly o) (o_gen o).
(** Whether a read gets to the Submit of the session's pool: cmpp_submit.go:42, on_traffic.go:114 and
    the other handlers; cmpp_connect.go:27, sgip_bind.go:27, smgp_login.go:27 use the server's. *)
Definition to_pool (pr : params) (o : orc) (seg : bytes) (c : sconn) : bool :=
  match on_recv pr (granted o) seg c with
  | Ok c' => match skipn (length (sc_tasks c)) (sc_tasks c') with
             | [] => false
             | (JLogin _ _, _) :: _ => false
             | _ => true
             end
  | _ => false
  end.
(** the goroutines added run in pool [p] *)
Definition grown (x : lconn) (c' : sconn) (p : option nat) : lconn :=
  LConn c' (lc_in x ++ repeat p (length (sc_tasks c') - length (sc_tasks (lc_c x)))).
Definition take (pr : params) (o : orc) (seg : bytes) (x : lconn) : res lconn :=
  c' <- on_recv pr (granted o) seg (lc_c x) ;; Ok (grown x c' (se_win (sc_sess (lc_c x)))).

Inductive lev :=
| LOpen (now : Z)                          (* a connection is accepted *)
| LRecv (i : nat) (seg : bytes) (o : orc)  (* octets arrive *)
| LResume                                  (* Submit returns *)
| LWrite (i : nat) (o : orc)               (* the next queued packet is written, and its callback run *)
| LClose (i : nat)
| LTask (i t : nat) (o : orc)              (* goroutine t of connection i makes a step *)
| LTick (i : nat) (o : orc).               (* the ticker, a goroutine of its own *)

Definition lput (l : loop) (i : nat) (x : lconn) : loop := Loop (upd (lp_cs l) i x) (lp_wait l).
(** a step of the loop on connection i, if the loop is not waiting *)
Definition on_loop (l : loop) (i : nat) (f : lconn -> res loop) : res loop :=
  match lp_wait l, nth_error (lp_cs l) i with None, Some x => f x | _, _ => Ok l end.
Definition loop_step (pr : params) (l : loop) (e : lev) : res loop :=
  match e with
  | LOpen now => match lp_wait l with None => Ok (Loop (lp_cs l ++ [LConn (opened now) []]) None) | _ => Ok l end
  | LRecv i seg o =>
    on_loop l i (fun x =>
      if to_pool pr o seg (lc_c x) then
        if has_room x then x' <- take pr o seg x ;; Ok (lput l i x') else Ok (Loop (lp_cs l) (Some (i, seg, o)))
      else c' <- on_recv pr o seg (lc_c x) ;; Ok (lput l i (grown x c' None)))
  | LResume =>
    match lp_wait l with
    | None => Ok l
    | Some (i, seg, o) =>
      match nth_error (lp_cs l) i with
      | None => Ok l
      | Some x => if has_room x then x' <- take pr o seg x ;; Ok (Loop (upd (lp_cs l) i x') None) else Ok l
      end
    end
  | LWrite i o => on_loop l i (fun x => c' <- on_write o (lc_c x) ;; Ok (lput l i (LConn c' (lc_in x))))
  | LClose i => on_loop l i (fun x => Ok (lput l i (LConn (OnClose (lc_c x)) (lc_in x))))
  | LTask i t o =>
    match nth_error (lp_cs l) i with
    | None => Ok l
    | Some x =>
      let c' := on_task pr o t (lc_c x) in
      Ok (lput l i (LConn c' (if (length (sc_tasks c') <? length (sc_tasks (lc_c x)))%nat then del (lc_in x) t else lc_in x)))
    end
  | LTick i o =>
    match nth_error (lp_cs l) i with
    | None => Ok l
    | Some x => Ok (lput l i (grown x (on_tick pr o (lc_c x)) None))
    end
  end.
Fixpoint loop_run (pr : params) (l : loop) (es : list lev) : res loop :=
  match es with [] => Ok l | e :: r => l1 <- loop_step pr l e ;; loop_run pr l1 r end.
