(** * EventModel: model of /repo/event_manager/event_manage.go.
    Keys are byte strings; a handler is an opaque identifier.  Handlers are taken to be
    non-nil and not to touch the registry themselves (simplification: a handler that
    re-enters the registry is not modelled).  The effect observed of running events is the
    list of handlers executed, in order.  Log output is not modelled. *)
From Verif Require Import Base.

Definition key := bytes.
Definition key_eqb (a b : key) : bool := if list_eq_dec Z.eq_dec a b then true else false.

(** strings.HasPrefix *)
Fixpoint has_prefix (k p : bytes) {struct p} : bool :=
  match p, k with
  | [], _ => true
  | y :: p', x :: k' => (x =? y) && has_prefix k' p'
  | _ :: _, [] => false
  end.

(** event_manage.go:21 sMap: what the sync.Map holds, in the order Range visits it.  Range
    order is unspecified in Go; see [range_order] below. *)
Definition smap := list (key * list Z).

Fixpoint sm_load (m : smap) (k : key) : option (list Z) :=
  match m with
  | [] => None
  | (k', v) :: r => if key_eqb k' k then Some v else sm_load r k
  end.
Fixpoint sm_delete (m : smap) (k : key) : smap :=
  match m with
  | [] => []
  | (k', v) :: r => if key_eqb k' k then sm_delete r k else (k', v) :: sm_delete r k
  end.
Definition sm_store (m : smap) (k : key) (v : list Z) : smap := sm_delete m k ++ [(k, v)].

(** event_manage.go:62-64, 79-81, 91-93, 106-108: the key used with the map. *)
Definition full_key (prefix k : key) : key := if has_prefix k prefix then k else prefix ++ k.

(** event_manage.go:78-87 Get: the stored handlers, if any. *)
Definition ev_Get (prefix k : key) (m : smap) : option (list Z) := sm_load m (full_key prefix k).

(** event_manage.go:58-75 Register, run without interleaving (see [creg_step] for the
    interleaved version). The stored function runs [events] in order. *)
Definition ev_Register (prefix k : key) (events : list Z) (m : smap) : smap * bool :=
  match events with
  | [] => (m, false)
  | _ =>
    let k := full_key prefix k in
    match ev_Get prefix k m with
    | None => (sm_store m k events, true)
    | Some _ => (m, false)
    end
  end.

(** event_manage.go:90-102 Call: handlers executed. *)
Definition ev_Call (prefix k : key) (m : smap) : list Z :=
  let k := full_key prefix k in
  match ev_Get prefix k m with Some evs => evs | None => [] end.

(** event_manage.go:105-110 Delete *)
Definition ev_Delete (prefix k : key) (m : smap) : smap := sm_delete m (full_key prefix k).

(** event_manage.go:113-122 FuzzyCall.  [order] is the order in which Range visits the
    entries: any permutation of the content. *)
Definition ev_FuzzyCall (prefix : key) (order : smap) (m : smap) : list Z :=
  flat_map (fun kv => if has_prefix (fst kv) prefix then ev_Call prefix (fst kv) m else []) order.

(** ** Concurrent registration of one key (event_manage.go:66-72): the existence check
    (sync.Map.Load, atomic) and the Store (atomic) are separate steps. *)
Inductive cpc := CStart | CChecked | CDone (ok : bool).
Record creg := Creg { cell : option (list Z); pcs : list (list Z * cpc) }.

(** One step of caller [i]. *)
Definition pc_step (c : option (list Z)) (t : list Z * cpc) : option (list Z) * (list Z * cpc) :=
  match t with
  | ([], CStart) => (c, ([], CDone false))
  | (evs, CStart) => (c, (evs, match c with None => CChecked | Some _ => CDone false end))
  | (evs, CChecked) => (Some evs, (evs, CDone true))
  | (evs, CDone b) => (c, (evs, CDone b))
  end.
Fixpoint creg_step (i : nat) (c : option (list Z)) (ts : list (list Z * cpc))
  : option (list Z) * list (list Z * cpc) :=
  match ts, i with
  | [], _ => (c, [])
  | t :: r, O => let (c', t') := pc_step c t in (c', t' :: r)
  | t :: r, S j => let (c', r') := creg_step j c r in (c', t :: r')
  end.
Definition creg_run (sched : list nat) (s : creg) : creg :=
  fold_left (fun s i => let (c, ts) := creg_step i (cell s) (pcs s) in Creg c ts) sched s.
Definition creg_init (callers : list (list Z)) : creg := Creg None (map (fun e => (e, CStart)) callers).

(** ** Shutdown hooks with a cancel channel (event_manage.go:37-50) *)

(** Running the stored handlers [hs] of such a hook, in which the identifier [send] stands
    for the closure of lines 41-43 that sends on the channel (capacity 1, [ch] signals
    buffered): the other handlers executed, the channel content after, and whether the run
    is stuck in the send because the channel is full. *)
Fixpoint hook_exec (send : Z) (hs : list Z) (ch : nat) : list Z * nat * bool :=
  match hs with
  | [] => ([], ch, false)
  | h :: r => if h =? send then match ch with
                                | O => hook_exec send r 1%nat
                                | S _ => ([], ch, true)
                                end
              else let '(tr, c, b) := hook_exec send r ch in (h :: tr, c, b)
  end.
(** event_manage.go:37-50: [None] (nil channel) when the key is taken. *)
Definition ShutdownHookerPrefix : key :=
  [103;114;97;99;101;102;117;108;95;115;104;117;116;100;111;119;110;95;104;111;111;107;101;114;95].
Definition RegisterAddChan (k : key) (events : list Z) (send : Z) (m : smap) : smap * option nat :=
  let (m', ok) := ev_Register ShutdownHookerPrefix k (events ++ [send]) m in
  if ok then (m', Some 0%nat) else (m', None).
