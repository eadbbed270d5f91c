(** * StopModel: the connections of one carrier while the client is being stopped.
    /repo/msc_client/session_factory.go:109-118 (first connection), 262-314 (maintenance),
    334-348 (newConnect), 350-358 (closing hook), /repo/msc_client/session/session.go:47-58
    (NewSession), 86-102 (Close), /repo/event_manager/event_manage.go:36-52 (hook with
    cancel channel), 115-124 (hooks run one after the other, in the order of sync.Map.Range,
    which is not specified).

    PickModel has the same goroutine with whole maintenance rounds as steps and without
    the hooks; here the steps are small enough for the hooks to fall in between.
    Simplifications: a Close is one step (its own interleavings are ClientModel's and C62's);
    a session is healthy if it is logged in and its connection is open (HealthCheck,
    session.go:263-274, whose heartbeat never reports an error); lines 291-301 of lruSort are
    one step; the slice header is read in one step (the closing hook takes no lock). *)
From Verif Require Import Base.

(** Where the maintenance goroutine is: waiting at line 275; in sort.Sort (line 290); before
    the test of line 303; in newConnect (line 309); sleeping (line 312). *)
Inductive maint := MIdle | MSort | MTop | MDial | MSleep.

(** What the shutdown goroutine still has to do: the ticker's hook is ticker.Stop (line 272)
    followed by the send into the cancel channel (event_manage.go:42); the closing hook is the
    loop of lines 352-355: position, length and, once lruSort has replaced the list, the
    contents of the array it still goes over. *)
Inductive task := TStop | TCancel | TClose | TLoop (i n : nat) (old : option (list nat)).

(** The list of the carrier; the open connections; sessions whose login ended without error
    and without an answer (session.go:200-202 returns the nil error of a short read, the
    session never is StatLogin); connections nothing refers to any more; the next
    connection's number; a tick waits in the ticker's channel; the ticker is stopped; the
    cancel channel is filled; the two goroutines. *)
Record st := St { s_list : list nat; s_open : list nat; s_half : list nat; s_left : list nat; s_next : nat;
  s_pend : bool; s_stopped : bool; s_cancel : bool; s_m : maint; s_begun : bool; s_todo : list task }.

Inductive dialled := DFail | DRefused | DHalf | DMade.
Inductive ev :=
| EBegin (stop_first : bool)  (* a stop signal: destory.go:31; which hook comes first *)
| EHook                       (* next step of the shutdown goroutine *)
| ETick                       (* the ticker fires *)
| ETake                       (* line 275 *)
| ESwap (i j : nat)           (* a Swap of sort.Sort, line 331 *)
| EPrune                      (* lines 291-301 *)
| ETop                        (* lines 303-309 *)
| EDial (d : dialled)         (* newConnect returns *)
| EWake                       (* line 312 is over *)
| ELost (c : nat)             (* the receiver of a session closes it: session.go:123, 131, 143 *)
| EGc (c : nat).              (* the runtime collects a connection nothing refers to *)

Definition mem (c : nat) (l : list nat) : bool := existsb (Nat.eqb c) l.
Definition del (c : nat) (l : list nat) : list nat := filter (fun x => negb (Nat.eqb c x)) l.
Definition healthy (s : st) (c : nat) : bool := mem c (s_open s) && negb (mem c (s_half s)).
Definition max_of (conf : Z) : Z := if conf <=? 0 then 2 else conf.

(** f.sessions[i], f.sessions[j] = f.sessions[j], f.sessions[i] *)
Definition set_at (i c : nat) (l : list nat) : list nat := firstn i l ++ c :: skipn (S i) l.
Definition swap (i j : nat) (l : list nat) : list nat :=
  match nth_error l i, nth_error l j with
  | Some a, Some b => set_at j a (set_at i b l)
  | _, _ => l
  end.

(** Before lruSort replaces the list the closing hook's loop keeps the old array. *)
Definition keep_old (l : list nat) (t : task) : task :=
  match t with TLoop i n None => TLoop i n (Some l) | _ => t end.

Definition with_todo (s : st) (t : list task) : st :=
  St (s_list s) (s_open s) (s_half s) (s_left s) (s_next s) (s_pend s) (s_stopped s) (s_cancel s) (s_m s) (s_begun s) t.
Definition with_m (s : st) (m : maint) : st :=
  St (s_list s) (s_open s) (s_half s) (s_left s) (s_next s) (s_pend s) (s_stopped s) (s_cancel s) m (s_begun s) (s_todo s).
Definition with_open (s : st) (o : list nat) : st :=
  St (s_list s) o (s_half s) (s_left s) (s_next s) (s_pend s) (s_stopped s) (s_cancel s) (s_m s) (s_begun s) (s_todo s).

Definition hook (s : st) : st :=
  match s_todo s with
  | [] => s
  | TStop :: r => St (s_list s) (s_open s) (s_half s) (s_left s) (s_next s) (s_pend s) true (s_cancel s) (s_m s) (s_begun s) r
  | TCancel :: r => St (s_list s) (s_open s) (s_half s) (s_left s) (s_next s) (s_pend s) (s_stopped s) true (s_m s) (s_begun s) r
  | TClose :: r => with_todo s (TLoop 0 (length (s_list s)) None :: r)
  | TLoop i n old :: r =>
    if (i <? n)%nat then
      let l := match old with None => s_list s | Some l => l end in
      match nth_error l i with
      | Some c => with_todo (with_open s (del c (s_open s))) (TLoop (S i) n old :: r)
      | None => with_todo s (TLoop (S i) n old :: r)
      end
    else with_todo s r
  end.

(** What cannot happen in a state leaves it as it is. *)
Definition step (conf : Z) (s : st) (e : ev) : st :=
  match e with
  | EBegin f => if s_begun s then s else
      St (s_list s) (s_open s) (s_half s) (s_left s) (s_next s) (s_pend s) (s_stopped s) (s_cancel s) (s_m s) true
         (if f then [TStop; TCancel; TClose] else [TClose; TStop; TCancel])
  | EHook => hook s
  | ETick => if s_stopped s then s else
      St (s_list s) (s_open s) (s_half s) (s_left s) (s_next s) true (s_stopped s) (s_cancel s) (s_m s) (s_begun s) (s_todo s)
  | ETake => match s_m s with
      | MIdle => if s_pend s then St (s_list s) (s_open s) (s_half s) (s_left s) (s_next s) false (s_stopped s) (s_cancel s) MSort (s_begun s) (s_todo s) else s
      | _ => s end
  | ESwap i j => match s_m s with
      | MSort => St (swap i j (s_list s)) (s_open s) (s_half s) (s_left s) (s_next s) (s_pend s) (s_stopped s) (s_cancel s) MSort (s_begun s) (s_todo s)
      | _ => s end
  | EPrune => match s_m s with
      | MSort =>
        let sick := filter (fun c => negb (healthy s c)) (s_list s) in
        St (filter (healthy s) (s_list s)) (filter (fun c => negb (mem c sick)) (s_open s)) (s_half s) (s_left s) (s_next s)
           (s_pend s) (s_stopped s) (s_cancel s) MTop (s_begun s) (map (keep_old (s_list s)) (s_todo s))
      | _ => s end
  | ETop => match s_m s with
      | MTop =>
        if zlen (s_list s) <? max_of conf then
          if s_cancel s then St (s_list s) (s_open s) (s_half s) (s_left s) (s_next s) (s_pend s) (s_stopped s) false MIdle (s_begun s) (s_todo s)
          else with_m s MDial
        else with_m s MIdle
      | _ => s end
  | EDial d => match s_m s with
      | MDial =>
        let c := s_next s in
        match d with
        | DFail => with_m s MSleep
        | DRefused => St (s_list s) (c :: s_open s) (s_half s) (c :: s_left s) (S c) (s_pend s) (s_stopped s) (s_cancel s) MSleep (s_begun s) (s_todo s)
        | DHalf => St (s_list s ++ [c]) (c :: s_open s) (c :: s_half s) (s_left s) (S c) (s_pend s) (s_stopped s) (s_cancel s) MSleep (s_begun s) (s_todo s)
        | DMade => St (s_list s ++ [c]) (c :: s_open s) (s_half s) (s_left s) (S c) (s_pend s) (s_stopped s) (s_cancel s) MSleep (s_begun s) (s_todo s)
        end
      | _ => s end
  | EWake => match s_m s with MSleep => with_m s MTop | _ => s end
  | ELost c => if mem c (s_list s) then with_open s (del c (s_open s)) else s
  | EGc c => if mem c (s_left s) then with_open s (del c (s_open s)) else s
  end.

Definition run (conf : Z) (s : st) (es : list ev) : st := fold_left (step conf) es s.

(** CreateSessionFactory lines 109-118 makes the first connection. *)
Definition start (d : dialled) : st :=
  match d with
  | DFail => St [] [] [] [] 0 false false false MIdle false []
  | DRefused => St [] [0%nat] [] [0%nat] 1 false false false MIdle false []
  | DHalf => St [0%nat] [0%nat] [0%nat] [] 1 false false false MIdle false []
  | DMade => St [0%nat] [0%nat] [] [] 1 false false false MIdle false []
  end.
