(** * JournalModel: what becomes of the results of a send after their time in the query cache
    (msc_client/api.go:64-80 PersistenceSmsJournal over session_factory.go:187-222).

    The client is that of ClientModel; its sweeping of the query cache hands batches to the handler,
    the handler to the worker pool, a worker writes to the database.  Whether the pool takes a job
    and how many documents of a batch the database stores come with the events.  Simplified: the
    order in which Range visits the map is the order of the list (C60 shows that it does not matter
    which results leave the cache); logging left out; a document is the result as the worker reads
    it (the driver reads all fields at once). *)
From Verif Require Import Base ClientModel.

(** [j_open]: the pool takes jobs; [j_queue]: the batches with the pool; [j_db]: the documents stored,
    each a result with the place it had in the client; [j_lost]: results that are nowhere any more. *)
Record jstate := JState { j_c : cstate; j_open : bool; j_queue : list (list nat); j_db : list (nat * result); j_lost : list nat }.
Inductive jevent :=
| JClient (e : cevent)                        (* the client does something else than sweeping the query cache *)
| JSweep (d now : Z) (taken : list bool)      (* a round of the sweeper; which batches the pool takes *)
| JJob (k : nat) (stored : option nat)        (* a worker writes batch k; None: all of it, Some n: an error after n documents *)
| JShut.                                      (* the shutdown hook releases the pool *)
(** api.go:68: the error of Submit is dropped. *)
Fixpoint hand_over (opn : bool) (taken : list bool) (out queue : list (list nat)) (lost : list nat) : list (list nat) * list nat :=
  match out with
  | [] => (queue, lost)
  | b :: r =>
    let ok := match taken with [] => true | t :: _ => t end in
    if opn && ok then hand_over opn (tl taken) r (queue ++ [b]) lost else hand_over opn (tl taken) r queue (lost ++ b)
  end.
(** api.go:72: InsertMany on the results, read through their pointers. *)
Definition documents (heap : list result) (l : list nat) : list (nat * result) :=
  flat_map (fun p => match nth_error heap p with Some r => [(p, r)] | None => [] end) l.
Definition without {A} (k : nat) (l : list A) : list A := firstn k l ++ skipn (S k) l.
Definition jstep (pr : cparams) (j : jstate) (e : jevent) : res jstate :=
  match e with
  | JClient (CSweepQ _ _ _) => Ok j
  | JClient e => c <- cstep pr (j_c j) e ;; Ok (JState c (j_open j) (j_queue j) (j_db j) (j_lost j))
  | JSweep d now taken =>
    let '(ca, out) := cleanQueryCacheMap true (ct_ca (j_c j)) d now (ca_query (ct_ca (j_c j))) in
    let '(queue, lost) := hand_over (j_open j) taken out (j_queue j) (j_lost j) in
    Ok (JState (put_ca (j_c j) ca) (j_open j) queue (j_db j) lost)
  | JJob k stored =>
    match nth_error (j_queue j) k with
    | Some b =>
      let n := match stored with None => length b | Some n => n end in
      (* api.go:73-75: an error ends the job; what is not stored is not kept anywhere *)
      Ok (JState (j_c j) (j_open j) (without k (j_queue j)) (j_db j ++ documents (ca_heap (ct_ca (j_c j))) (firstn n b)) (j_lost j ++ skipn n b))
    | None => Ok j
    end
  | JShut => Ok (JState (j_c j) false (j_queue j) (j_db j) (j_lost j))
  end.
Fixpoint jrun (pr : cparams) (j : jstate) (es : list jevent) : res jstate :=
  match es with [] => Ok j | e :: r => j1 <- jstep pr j e ;; jrun pr j1 r end.
Definition jstart (l : list csess) : jstate := JState (cstart l) true [] [] [].
