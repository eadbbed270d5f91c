(** * PickModel: one carrier's session list over time: the maintenance goroutine, the
    sessions' own goroutines and senders that wait for a session.
    /repo/msc_client/session_factory.go:144-161, 262-314, 330-352.  Round by round this is
    FactoryModel (lruSort, PeekSession); here the rounds are interleaved. *)
From Verif Require Import Base ClientModel FactoryModel.

(** All sessions by number (they are shared by pointer), the list of the carrier (head
    first), whether the maintenance goroutine is still inside the connect loop of lruSort
    (lines 303-313), and whether its ticker was stopped (line 271). *)
Record fac := Fac { fc_w : nat -> csess; fc_list : list nat; fc_busy : bool; fc_stopped : bool }.

Definition put (w : nat -> csess) (l : list numbered) (i : nat) : csess :=
  match find (fun x => Nat.eqb (fst x) i) l with Some x => snd x | None => w i end.

Inductive fev :=
| FTick (order : list nat)     (* the ticker fires; sort.Sort leaves the list in this order *)
| FTry (t : try)               (* next round of the connect loop *)
| FSess (i : nat) (s : csess)  (* a goroutine of session i changed it *)
| FStop.                       (* the shutdown hook stops the ticker, line 271 *)

Definition max_of (conf : Z) : Z := if conf <=? 0 then 2 else conf.

(** A tick during the connect loop waits in the ticker's channel: the goroutine is the only
    reader.  A stopped ticker never fires (a tick already waiting in its channel is not
    modelled).  Lines 289-301 run under the factory's lock, as one step; line 347 adds a new
    session at the end.  A tick with sessions that Close panics on ends the process. *)
Definition fstep (conf : Z) (f : fac) (e : fev) : res fac :=
  match e with
  | FTick order =>
    if fc_busy f || fc_stopped f then Ok f
    else '(k, c) <- keep_healthy (map (fun i => (i, fc_w f i)) order) ;;
         Ok (Fac (put (put (fc_w f) c) k) (map fst k) (zlen k <? max_of conf) (fc_stopped f))
  | FTry t =>
    if fc_busy f then
      match t with
      | TCancel => Ok (Fac (fc_w f) (fc_list f) false (fc_stopped f))
      | TNone => Ok f
      | TMade (i, s) => Ok (Fac (put (fc_w f) [(i, s)]) (fc_list f ++ [i]) (zlen (fc_list f ++ [i]) <? max_of conf) (fc_stopped f))
      end
    else Ok f
  | FSess i s => Ok (Fac (put (fc_w f) [(i, s)]) (fc_list f) (fc_busy f) (fc_stopped f))
  | FStop => Ok (Fac (fc_w f) (fc_list f) (fc_busy f) true)
  end.

(** The states passed through, starting with the given one. *)
Fixpoint frun (conf : Z) (f : fac) (es : list fev) : res (list fac) :=
  match es with
  | [] => Ok [f]
  | e :: r => f1 <- fstep conf f e ;; fs <- frun conf f1 r ;; Ok (f :: fs)
  end.

(** What a waiting sender reads after a sleep: PeekSession lines 155-158. *)
Definition view (f : fac) : (nat -> csess) * option nat := (fc_w f, hd_error (fc_list f)).
