(** * RaceModel: senders choosing a session while the list of sessions is rebuilt.
    /repo/msc_client/session_factory.go:142-161 (PeekSession) statement by statement beside the
    maintenance goroutine and the hooks of StopModel.  PeekSession takes no lock: each read of
    f.sessions (its length, its first element) is a step of its own.
    Simplifications: the limiter has let the sender through (line 143 otherwise returns nil at once);
    HealthCheck is one step (its own interleavings are UseModel's); the list never holds a nil session
    (lines 113 and 339), so that the second operand of line 148 is false. *)
From Verif Require Import Base StopModel.

(** Where a sender is: before line 148; between its two reads of f.sessions; at the test of line 153
    with the session read last; before the length is read in line 155; before the element is read in
    line 156; returned. *)
Inductive peek := KStart | KStart0 | KTest (r : option nat) | KLen (r : option nat) | KTake (r : option nat) | KGot (c : nat).
Record rstate := RState { r_s : st; r_k : list peek }.
Inductive revent := RPool (e : ev) | RNew | RStep (t : nat).

(** f.sessions[0]: an empty slice panics. *)
Definition first (s : st) : res nat := match s_list s with [] => Panic | c :: _ => Ok c end.
Definition empty (s : st) : bool := match s_list s with [] => true | _ => false end.
Definition kstep (s : st) (k : peek) : res peek :=
  match k with
  | KStart => Ok (if empty s then KTest None else KStart0)
  | KStart0 => c <- first s ;; Ok (KTest None)
  | KTest r => Ok (match r with Some c => if healthy s c then KGot c else KLen r | None => KLen None end)
  | KLen r => Ok (if empty s then KTest r else KTake r)
  | KTake r => c <- first s ;; Ok (KTest (Some c))
  | KGot c => Ok (KGot c)
  end.
Definition kput (t : nat) (k : peek) (l : list peek) : list peek := firstn t l ++ k :: skipn (S t) l.
Definition rstep (conf : Z) (x : rstate) (e : revent) : res rstate :=
  match e with
  | RPool e => Ok (RState (step conf (r_s x) e) (r_k x))
  | RNew => Ok (RState (r_s x) (r_k x ++ [KStart]))
  | RStep t =>
    match nth_error (r_k x) t with
    | None => Ok x
    | Some k => k1 <- kstep (r_s x) k ;; Ok (RState (r_s x) (kput t k1 (r_k x)))
    end
  end.
Fixpoint rrun (conf : Z) (x : rstate) (es : list revent) : res rstate :=
  match es with [] => Ok x | e :: r => x1 <- rstep conf x e ;; rrun conf x1 r end.
(** CreateSessionFactory lines 109-118; nobody sends yet. *)
Definition rstart (d : dialled) : rstate := RState (start d) [].
