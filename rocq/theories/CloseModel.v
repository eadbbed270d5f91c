(** * CloseModel: Session.Close of the client taken apart (msc_client/session/session.go:86-101).

    Any number of goroutines close the same session at the same time.  An event is one statement of
    one of them, or the receiver taking the cancel signal.  A step that cannot go on (the lock is
    taken, the channel is full) changes nothing.  A read of the status outside the lock (line 87) is
    atomic.  The fields used by Close and HealthCheck only. *)
From Verif Require Import Base ClientModel.

(** Where a goroutine is: before line 87; past the check, before line 91; holding the lock before
    lines 95, 96, 98, 99; before the deferred unlock; returned at line 88; returned at the end. *)
Inductive xphase := XIdle | XPassed | XLocked | XMarked | XConClosed | XCancelled | XCleared | XSkipped | XDone.
(** stat; con is not nil; authConf is not nil; signals in the channel cancel (capacity 1, line 54);
    holder of the lock; how often Close was called on the connection. *)
Record xstate := XState { x_stat : cstat; x_con : bool; x_ac : bool; x_tok : Z; x_lock : option nat; x_closes : Z; x_ph : list xphase }.
Inductive xevent := XStep (t : nat) | XReceive.
Definition at_phase (x : xstate) (t : nat) (ph : xphase) : list xphase := firstn t (x_ph x) ++ [ph] ++ skipn (S t) (x_ph x).
Definition xstep (x : xstate) (e : xevent) : res xstate :=
  match e with
  | XReceive => if 0 <? x_tok x then Ok (XState (x_stat x) (x_con x) (x_ac x) (x_tok x - 1) (x_lock x) (x_closes x) (x_ph x)) else Ok x   (* line 110 *)
  | XStep t =>
    match nth_error (x_ph x) t with
    | Some XIdle => match x_stat x with                                                   (* line 87 *)
                    | CClosing => Ok (XState (x_stat x) (x_con x) (x_ac x) (x_tok x) (x_lock x) (x_closes x) (at_phase x t XSkipped))
                    | _ => Ok (XState (x_stat x) (x_con x) (x_ac x) (x_tok x) (x_lock x) (x_closes x) (at_phase x t XPassed))
                    end
    | Some XPassed => match x_lock x with                                                 (* line 91 *)
                      | None => Ok (XState (x_stat x) (x_con x) (x_ac x) (x_tok x) (Some t) (x_closes x) (at_phase x t XLocked))
                      | Some _ => Ok x
                      end
    | Some XLocked => Ok (XState CClosing (x_con x) (x_ac x) (x_tok x) (x_lock x) (x_closes x) (at_phase x t XMarked))   (* line 95 *)
    | Some XMarked => if x_con x then Ok (XState (x_stat x) (x_con x) (x_ac x) (x_tok x) (x_lock x) (x_closes x + 1) (at_phase x t XConClosed))
                      else Panic                                                          (* line 96: a method of a nil interface *)
    | Some XConClosed => if x_tok x <? 1 then Ok (XState (x_stat x) (x_con x) (x_ac x) (x_tok x + 1) (x_lock x) (x_closes x) (at_phase x t XCancelled))
                         else Ok x                                                        (* line 98 *)
    | Some XCancelled => Ok (XState (x_stat x) false false (x_tok x) (x_lock x) (x_closes x) (at_phase x t XCleared))     (* lines 99, 100 *)
    | Some XCleared => Ok (XState (x_stat x) (x_con x) (x_ac x) (x_tok x) None (x_closes x) (at_phase x t XDone))         (* line 92 *)
    | _ => Ok x
    end
  end.
Fixpoint xrun (x : xstate) (es : list xevent) : res xstate :=
  match es with [] => Ok x | e :: r => x1 <- xstep x e ;; xrun x1 r end.
(** A session as NewSession returns it (status connect or login), [n] goroutines about to close it. *)
Definition xstart (login : bool) (n : nat) : xstate := XState (if login then CLogin else CConnect) true true 0 None 0 (repeat XIdle n).
(** session.go:264 (the cancel channel is made by NewSession) *)
Definition xhealthy (x : xstate) : bool := match x_stat x with CLogin => x_con x && x_ac x | _ => false end.
