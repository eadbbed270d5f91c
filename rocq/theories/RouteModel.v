(** * RouteModel: how concurrent sends choose their carrier (msc_client/session_factory.go): the lock
    around the choice, and what is done while it is held.

    A call is one run of SelectSession up to line 62; any number of goroutines run it at the same
    time, and every interleaving is a list of events.  What creating a factory meets (the account,
    the dialling, the login, the configured values) is the argument of the event that ends it; a
    gateway that never answers is an interleaving without that event.  Left out: PeekSession
    (FactoryModel), logging. *)
From Verif Require Import Base FactoryModel.

(** Where a call stands. *)
Inductive rpc :=
| RWait                     (* before mu.Lock() *)
| RLook (i : nat)           (* holds the lock, about to look at place i *)
| RMake (i : nat)           (* holds the lock, inside CreateSessionFactory for place i *)
| RDone (o : option nat)    (* past mu.Unlock() with the carrier found *)
| RDead.                    (* panicked; the pool's handler took the panic, line 62 was not reached *)
(** [rc_none]: the places whose factory could not be made during this call. *)
Record rcall := RCall { rc_phone : bytes; rc_pc : rpc; rc_none : list nat }.
(** [rt_mu]: mu is locked; [rt_facs]: the three places (line 24), a factory being its expression as
    in FactoryModel; [rt_made]: the places in the order their factories were made. *)
Record rstate := RState { rt_mu : bool; rt_facs : list (option factory); rt_calls : list rcall; rt_made : list nat }.
Definition set_nth {A} (l : list A) (i : nat) (x : A) : list A := firstn i l ++ [x] ++ skipn (S i) l.
Definition at_pc (s : rstate) (g : nat) (c : rcall) (pc : rpc) (mu : bool) : rstate :=
  RState mu (rt_facs s) (set_nth (rt_calls s) g (RCall (rc_phone c) pc (rc_none c))) (rt_made s).
Inductive revent :=
| RNew (phone : bytes)                        (* a goroutine calls SelectSession *)
| RLock (g : nat)                             (* call g gets past mu.Lock() *)
| RStep (g : nat)                             (* call g: one round of the loop, lines 50-61 *)
| RMade (g : nat) (o : res (option factory)). (* call g: CreateSessionFactory ends *)
(** session_factory.go:47-62.  The range copies the array at line 50; as the array is written under
    the lock only (line 139 within line 52), the copy is the array.  Lines 73-76 find the place empty
    for the same reason.  An event that is not possible leaves the state as it is. *)
Definition rstep (s : rstate) (e : revent) : rstate :=
  match e with
  | RNew phone => RState (rt_mu s) (rt_facs s) (rt_calls s ++ [RCall phone RWait []]) (rt_made s)
  | RLock g =>
    match nth_error (rt_calls s) g with
    | Some c => match rc_pc c with RWait => if rt_mu s then s else at_pc s g c (RLook 0) true | _ => s end
    | None => s
    end
  | RStep g =>
    match nth_error (rt_calls s) g with
    | Some c =>
      match rc_pc c with
      | RLook i =>
        match nth_error (rt_facs s) i with
        | None => at_pc s g c (RDone None) false                                     (* line 62 *)
        | Some None => at_pc s g c (RMake i) (rt_mu s)                               (* lines 51-52 *)
        | Some (Some None) => at_pc s g c RDead (rt_mu s)                            (* line 57 on a nil expression *)
        | Some (Some (Some m)) => if m (rc_phone c) then at_pc s g c (RDone (Some i)) false   (* lines 58-62 *)
                                  else at_pc s g c (RLook (S i)) (rt_mu s)
        end
      | _ => s
      end
    | None => s
    end
  | RMade g o =>
    match nth_error (rt_calls s) g with
    | Some c =>
      match rc_pc c with
      | RMake i =>
        match o with
        | Ok None => RState (rt_mu s) (rt_facs s) (set_nth (rt_calls s) g (RCall (rc_phone c) (RLook (S i)) (i :: rc_none c))) (rt_made s)  (* lines 53-55 *)
        | Ok (Some f) => RState (rt_mu s) (set_nth (rt_facs s) i (Some f)) (set_nth (rt_calls s) g (RCall (rc_phone c) (RLook i) (rc_none c))) (rt_made s ++ [i])  (* line 139, back to line 57 *)
        | _ => at_pc s g c RDead (rt_mu s)
        end
      | _ => s
      end
    | None => s
    end
  end.
Definition rrun (s : rstate) (es : list revent) : rstate := fold_left rstep es s.
(** The program starts with three empty places (line 24). *)
Definition rstart : rstate := RState false [None; None; None] [] [].
