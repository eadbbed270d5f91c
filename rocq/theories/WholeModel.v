(** * WholeModel: the server process: its services, the stop signals and what ends it.
    /repo/msc_server/cmd/gosmc.go:19-35 (main), /repo/msc_server/server/server.go:42-55 (Start),
    /repo/msc_server/destory.go, /repo/event_manager/event_manage.go:33-55.

    The services are started by main (lines 26-28) before it waits; here they are there from the
    start, each with its parameters and without connections (PoolModel, ServerModel).  Left out: pprof,
    the logs; os.Kill cannot be caught. *)
From Verif Require Import Base EventModel OptionsModel ServerModel PoolModel MainModel.

Record service := Service { sv_pr : params; sv_conns : list sconn }.
(** [Crashed]: a panic on an event loop.  [Failed]: log.Fatalf at server.go:53. *)
Inductive fate := Runs | Crashed | Failed.
Record whole := Whole { w_proc : proc; w_srv : list service; w_fate : fate }.
Inductive wev :=
| WProc (e : pev)                 (* the signal handler, main, a signal (MainModel) *)
| WServe (k : nat) (e : sevent)   (* service k: a new connection or a step of a connection *)
| WEnds (k : nat).                (* gnet.Run of service k returns: it cannot listen, or its engine stopped *)

(** The shutdown hooks registered in the server's process: no package it is built from registers one
    (RegisterShutdownHooker is called by msc_client only). *)
Definition server_registry : smap := [].
(** GracefullyShutdown, event_manage.go:53-55; [order]: the order Range visits the registry in;
    [hook h]: what the hook h does to the services. *)
Definition GracefullyShutdown (hook : Z -> list service -> list service) (order : smap) (srv : list service) : list service :=
  fold_left (fun s h => hook h s) (ev_FuzzyCall ShutdownHookerPrefix order server_registry) srv.

Definition put_srv (l : list service) (k : nat) (x : service) : list service := firstn k l ++ [x] ++ skipn (S k) l.
Definition wstep (hook : Z -> list service -> list service) (order : smap) (w : whole) (e : wev) : whole :=
  match w_fate w, pc_p (w_proc w) with
  | Runs, Alive =>
    match e with
    | WProc pe =>
      let srv := match pe, pc_h (w_proc w) with
                 | HandlerStep, HHooks => GracefullyShutdown hook order (w_srv w)      (* destory.go:33 *)
                 | _, _ => w_srv w
                 end in
      Whole (proc_step (w_proc w) pe) srv Runs
    | WServe k se =>
      match nth_error (w_srv w) k with
      | Some s => match sstep (sv_pr s) (sv_conns s) se with
                  | Ok cs => Whole (w_proc w) (put_srv (w_srv w) k (Service (sv_pr s) cs)) Runs
                  | _ => Whole (w_proc w) (w_srv w) Crashed
                  end
      | None => w
      end
    | WEnds k => match nth_error (w_srv w) k with Some _ => Whole (w_proc w) (w_srv w) Failed | None => w end
    end
  | _, _ => w
  end.
Definition wrun hook order (es : list wev) (w : whole) : whole := fold_left (wstep hook order) es w.
Definition wstart (prs : list params) : whole := Whole new_proc (map (fun pr => Service pr []) prs) Runs.
