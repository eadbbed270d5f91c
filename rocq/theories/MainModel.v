(** * MainModel: the two programs' main functions and what they start: the command line sender
    (msc_client/cmd/client.go), the account store's start and reload (auth/client_store.go), the
    pid file (msc_server/cmd/gosmc.go) and the stop signals (destory.go of client and server).

    Left out: logging, flags, pprof, the file system's own errors beyond "cannot be opened/read". *)
From Coq Require Import String.
From Verif Require Import Base OptionsModel ClientModel AuthModel.
Local Open Scope string_scope. Local Open Scope list_scope. Local Open Scope Z_scope.

(** ** The command line sender *)
(** msc_client/cmd/client.go:31 strings.Split(phone, ","). *)
Fixpoint split_comma (s : bytes) : list bytes :=
  match s with
  | [] => [[]]
  | c :: r => if c =? 44 then [] :: split_comma r
              else match split_comma r with [] => [[c]] | w :: ws => (c :: w) :: ws end
  end.
(** msc_client/cmd/client.go:29-44, the sending goroutine and the jobs it hands to the pool.  The
    module is built with go 1.18 (msc_client/go.mod:3): a range statement has one variable s,
    assigned anew in each round and captured by reference by the closure of lines 34-36.
    [sd_vars] holds that variable of each range statement begun, [sd_jobs] the closures handed
    over and not started: (range statement, position of the number meant).  A job reads its variable when
    it starts; the pool starts jobs in any order.  [sd_sent]: the calls sms.Send made.
    Simplifications: [i--] happens at the beginning of a pass; reading s is atomic. *)
Record sender := Sender {
  sd_left : Z; sd_rest : list bytes; sd_at : nat; sd_vars : list bytes;
  sd_jobs : list (nat * nat); sd_sent : list (nat * nat * bytes); sd_over : bool }.
Inductive sev := EvLoop (ok : bool)   (* the goroutine's next round; [ok]: the pool takes the job *)
               | EvJob (n : nat).     (* the n-th waiting job starts *)
Definition new_sender (iterates : Z) : sender := Sender iterates [] 0 [] [] [] false.
Definition set_last (l : list bytes) (v : bytes) : list bytes := removelast l ++ [v].
Definition without {A} (n : nat) (l : list A) : list A := firstn n l ++ skipn (S n) l.
Definition sender_step (arr : list bytes) (s : sender) (e : sev) : sender :=
  match e with
  | EvLoop ok =>
    if sd_over s then s else
    match sd_rest s with
    | p :: r =>
      let vars := set_last (sd_vars s) p in
      if ok then Sender (sd_left s) r (S (sd_at s)) vars (sd_jobs s ++ [(length vars - 1, sd_at s)%nat]) (sd_sent s) false
      else Sender (sd_left s) r (sd_at s) vars (sd_jobs s) (sd_sent s) true
    | [] => if 0 <? sd_left s
            then Sender (sd_left s - 1) arr 0 (sd_vars s ++ [[]]) (sd_jobs s) (sd_sent s) false
            else Sender (sd_left s) [] (sd_at s) (sd_vars s) (sd_jobs s) (sd_sent s) true
    end
  | EvJob n =>
    match nth_error (sd_jobs s) n with
    | None => s
    | Some (it, k) => Sender (sd_left s) (sd_rest s) (sd_at s) (sd_vars s) (without n (sd_jobs s))
                        (sd_sent s ++ [(it, k, nth it (sd_vars s) [])]) (sd_over s)
    end
  end.
Definition sender_run (arr : list bytes) (es : list sev) (s : sender) : sender := fold_left (sender_step arr) es s.

(** ** Starting and reloading the account store *)
Inductive life := Up (c : cache) | Stopped (* ended with a message: log.Fatalf, log.Panic *) | Crashed (* nil dereference and the like *).
Inductive skind := KYaml | KMongo | KNone.
Definition t_yaml : bytes := btext "yaml".
Definition t_yml : bytes := btext "yml".
Definition t_mongo : bytes := btext "mongo".
(** auth/client_store.go:34-47 *)
Definition store_kind (st : bytes) : skind :=
  if beqb st [] || beqb st t_yaml || beqb st t_yml then KYaml
  else if beqb st t_mongo then KMongo else KNone.
Record settings := Settings { st_type : bytes; st_uri : bytes; st_user : bytes; st_passwd : bytes; st_connects : bool; st_ticker : Z }.
(** What one Load meets: the directory (None: not readable) with a flag per entry whether the file
    can be read; the query's success and the documents. *)
Record scan := Scan { sn_dir : option (list (dirent * bool)); sn_ok : bool; sn_docs : list (option authconf) }.
(** auth/yaml_store.go:13-50 Load with its two exits. *)
Fixpoint yaml_scan (files : list (dirent * bool)) (c : cache) : life :=
  match files with
  | [] => Up c
  | (f, readable) :: r =>
    if de_dir f then yaml_scan r c
    else match file_key (de_name f) with
         | [] => yaml_scan r c
         | key => if readable then match unmarshal (de_data f) (ToLower key) c with Ok c1 => yaml_scan r c1 | _ => Crashed end
                  else Stopped
         end
  end.
(** One call cache.Load(): auth/client_store.go:49 and :65. [mongo_set]: database/mongodb.Mongo is not nil. *)
Definition store_load (k : skind) (mongo_set : bool) (n : scan) (c : cache) : life :=
  match k with
  | KYaml => match sn_dir n with None => Stopped | Some fs => yaml_scan fs c end
  | KMongo => if mongo_set then Up (mongo_Load (sn_ok n) (sn_docs n) c) else Crashed
  | KNone => Crashed
  end.
(** database/mongodb/mongo.go:22-31 InitDB, :37-75 setConnect: None: the process has ended. *)
Definition InitDB (g : settings) : option bool :=
  if beqb (st_uri g) [] then Some false
  else if beqb (st_user g) [] || beqb (st_passwd g) [] then None
  else if st_connects g then Some true else None.
(** auth/client_store.go:34-53 New (with the first load) *)
Definition store_New (g : settings) (n : scan) : life * bool :=
  match store_kind (st_type g) with
  | KMongo => match InitDB g with None => (Stopped, false) | Some set => (store_load KMongo set n [], set) end
  | k => (store_load k false n [], false)
  end.
(** auth/client_store.go:55-68 startTicker: time.NewTicker panics unless the period is positive;
    then one Load per tick. *)
Definition ticker_period (g : settings) : Z := if st_ticker g =? 0 then 300000000000 else st_ticker g.
Definition reload (k : skind) (set : bool) (l : life) (n : scan) : life :=
  match l with Up c => store_load k set n c | _ => l end.
Definition store_run (g : settings) (first : scan) (ticks : list scan) : life :=
  match store_New g first with
  | (Up c, set) => if ticker_period g <=? 0 then Crashed else fold_left (reload (store_kind (st_type g)) set) ticks (Up c)
  | (l, _) => l
  end.

(** ** The pid file *)
(** fmt.Sprintf("%d", n) for 0 <= n < 10^20. *)
Fixpoint dec_digits (fuel : nat) (n : Z) : bytes :=
  match fuel with
  | O => []
  | S f => (if n <? 10 then [] else dec_digits f (n / 10)) ++ [48 + n mod 10]
  end.
Definition dec_text (n : Z) : bytes := dec_digits 20 n.
(** msc_server/cmd/gosmc.go:40-56 savePid on a file with the given content (None: no file); the
    file is opened without truncation and written from its beginning. [opens] = false: OpenFile
    failed, nothing is written. *)
Definition savePid (opens : bool) (pid : Z) (old : option bytes) : option bytes :=
  if opens then let t := dec_text pid in Some (t ++ skipn (length t) (match old with Some o => o | None => [] end)) else old.

(** ** Stop signals *)
(** msc_client/destory.go:17-36, msc_server/destory.go:16-35: the handler goroutine. *)
Inductive hstate := HStart      (* before signal.Notify *)
                  | HNotified   (* registered, not yet receiving *)
                  | HWaiting    (* in received := <-c *)
                  | HHooks      (* running GracefullyShutdown *)
                  | HClosed     (* c closed, sending on statChan *)
                  | HGone.
Inductive mstate := MBusy       (* main before <-StatChan() *)
                  | MWaiting | MOver.
Inductive pstate := Alive | Exited (* os.Exit(0) *) | Killed (* the signal's default action *) | Broken (* panic: send on closed channel *).
Record proc := Proc { pc_h : hstate; pc_m : mstate; pc_p : pstate; pc_hooks : nat }.
Inductive pev := Signal | HandlerStep | MainStep.
Definition new_proc : proc := Proc HStart MBusy Alive 0.
(** Package os/signal delivers with a non-blocking send to the unbuffered channel c; without Notify the
    signal ends the process; c is closed but stays registered. *)
Definition proc_step (p : proc) (e : pev) : proc :=
  match pc_p p with
  | Alive =>
    match e with
    | Signal => match pc_h p with
                | HStart => Proc HStart (pc_m p) Killed (pc_hooks p)
                | HNotified | HHooks => p
                | HWaiting => Proc HHooks (pc_m p) Alive (pc_hooks p)
                | HClosed | HGone => Proc (pc_h p) (pc_m p) Broken (pc_hooks p)
                end
    | HandlerStep => match pc_h p with
                     | HStart => Proc HNotified (pc_m p) Alive (pc_hooks p)
                     | HNotified => Proc HWaiting (pc_m p) Alive (pc_hooks p)
                     | HWaiting => p
                     | HHooks => Proc HClosed (pc_m p) Alive (S (pc_hooks p))
                     | HClosed => match pc_m p with MWaiting => Proc HGone MOver Alive (pc_hooks p) | _ => p end
                     | HGone => p
                     end
    | MainStep => match pc_m p with
                  | MBusy => Proc (pc_h p) MWaiting Alive (pc_hooks p)
                  | MWaiting => p
                  | MOver => Proc (pc_h p) MOver Exited (pc_hooks p)
                  end
    end
  | _ => p
  end.
Definition proc_run (es : list pev) (p : proc) : proc := fold_left proc_step es p.
