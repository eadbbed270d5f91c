(** * ClientModel: the client (msc_client): sending, the handlers of received packets, the caches of
    results, querying and the sweepers.

    The client is a small-step machine.  An event is a step of a goroutine that sends, of the
    receiver goroutine of a session, or of a sweeper; every interleaving is a list of events.  What
    the environment answers (clock, sequence values, rate limiter and session choice, success of
    writes) comes with the event.

    Simplifications.  Logging is left out (the Log methods called do not fail).  A sync.Map is an
    association list.  A packet may be handed to the handlers of a session that was closed after it
    was read; the model allows that at any time after the close.  Close is one step here (CloseModel
    takes it apart).  A panic ends the process ([Panic]): no goroutine of the client recovers. *)
From Verif Require Import Base UtilsModel OptionsModel TlvModel CmppModel SgipModel SmgpModel FrameModel.

(** ** Results and caches *)
(** session/send_sms.go:10-20 Result.  Times in nanoseconds, 0 for the zero time. *)
Record result := Result {
  rt_qid : Z; rt_phone : bytes; rt_seq : Z; rt_result : Z; rt_msgid : bytes; rt_report : bytes;
  rt_send : Z; rt_resp : Z; rt_rept : Z }.
(** The dynamic type of a map key counts: in a sync.Map uint32(5) and uint64(5) are different keys. *)
Inductive ckey := U32 (z : Z) | U64 (z : Z).
Definition ckey_eqb (a b : ckey) : bool :=
  match a, b with U32 x, U32 y => x =? y | U64 x, U64 y => x =? y | _, _ => false end.
Definition text_eqb (a b : bytes) : bool := if list_eq_dec Z.eq_dec a b then true else false.
(** sync.Map Load, Store, Delete *)
Fixpoint load {K V} (eqb : K -> K -> bool) (k : K) (m : list (K * V)) : option V :=
  match m with [] => None | (k', v) :: r => if eqb k k' then Some v else load eqb k r end.
Definition remove {K V} (eqb : K -> K -> bool) (k : K) (m : list (K * V)) : list (K * V) :=
  filter (fun x => negb (eqb k (fst x))) m.
Definition store_at {K V} (eqb : K -> K -> bool) (k : K) (v : V) (m : list (K * V)) : list (K * V) :=
  (k, v) :: remove eqb k m.
(** The heap of Result objects (a pointer is an index), SequenceIdResultCacheMap and
    MsgIdResultCacheMap (session/send_sms.go:22-26), resultQueryCacheMap (session_factory.go:27). *)
Record caches := Caches { ca_heap : list result; ca_seq : list (ckey * nat); ca_msg : list (bytes * nat); ca_query : list (Z * list nat) }.
Definition upd_heap (h : list result) (p : nat) (f : result -> result) : list result :=
  match nth_error h p with Some r => firstn p h ++ [f r] ++ skipn (S p) h | None => h end.

(** ** Sessions *)
(** session/session.go:36-39 *)
Inductive cstat := CConnect | CLogin | CClosing.
(** session/session.go:19-31; [cs_con], [cs_ac]: non-nil.  counter, createTime, cancel are left out. *)
Record csess := CSess { cs_p : proto; cs_stat : cstat; cs_con : bool; cs_ac : option authconf; cs_pcnt : Z; cs_active : Z }.
(** session/session.go:86-101 Close *)
Definition Close (s : csess) : res csess :=
  match cs_stat s with
  | CClosing => Ok s
  | _ => if cs_con s then Ok (CSess (cs_p s) CClosing false None (cs_pcnt s) (cs_active s)) else Panic
  end.
(** session/session.go:69-75 AddCounterN(1) (activeTime: the clock [now]); uint64 *)
Definition AddCounter (s : csess) (now : Z) : csess :=
  CSess (cs_p s) (cs_stat s) (cs_con s) (cs_ac s) (u64 (cs_pcnt s + 1)) now.
(** session/session.go:264; the heartbeat of lines 267-272 never makes it fail (ActiveTest always
    returns nil) and is left out. *)
Definition HealthCheck (s : csess) : bool :=
  match cs_stat s, cs_con s, cs_ac s with CLogin, true, Some _ => true | _, _, _ => false end.

(** ** Packets of one send *)
(** What NewSubmit of the protocol draws: sequence values, formatted times, the clock byte. *)
Record dorc := DOrc { d_seq : Z; d_nxt : Z -> Z; d_q : Z -> seq3; d_valid : bytes; d_now : bytes; d_g : Z }.
(** sendByCmpp on_traffic_cmpp.go:14-34, sendBySgip on_traffic_sgip.go:13-33, sendBySmgp
    on_traffic_smgp.go:14-34: the packets of one message to one number, each with its encoding
    (computed when it is written) and the SequenceId of its result. *)
Definition segments (p : proto) (gbe : bytes -> option bytes) (ac : authconf) (phone msg : bytes) (ops : list mtopt) (d : dorc) : res (list (res bytes * Z)) :=
  match p with
  | P_CMPP => l <- NewSubmit ac [phone] msg (u32 (d_seq d)) ops (d_valid d) (d_g d) (fun i => u32 (d_nxt d i)) ;;
              Ok (map (fun s => (Submit_Encode s, h_seq (sb_h s))) l)
  | P_SGIP => l <- sgip_NewSubmit ac [phone] msg ops (d_valid d) (d_g d) (fun i => let '(a, b, c) := d_q d i in (u32 a, u32 b, u32 c)) ;;
              Ok (map (fun s => (SSubmit_Encode s, Sequence2Uint64 (sh_seq (ss_h s)))) l)
  | P_SMGP => l <- smgp_NewSubmit gbe ac [phone] msg (u32 (d_seq d)) ops (d_now d) (d_g d) (d_nxt d) ;;
              Ok (map (fun s => (MSubmit_Encode s, h_seq (ms_h s))) l)
  end.

(** ** The goroutine of one SendN (api.go:21-40) *)
Inductive sphase :=
| SNext                                                                              (* before the next number *)
| SPart (i : nat) (phone : bytes) (parts : list (res bytes * Z)) (done : list nat)   (* before a write; parts is not empty *)
| SWrote (i : nat) (phone b : bytes) (key : Z) (parts : list (res bytes * Z)) (done : list nat)  (* written, result not stored yet *)
| SDone.
Record sender := Sender { sn_q : Z; sn_msg : bytes; sn_ops : list mtopt; sn_todo : list bytes; sn_res : list nat; sn_ph : sphase }.

(** ** What can be seen from outside *)
Inductive cobs :=
| OPick (t : nat) (phone : bytes)       (* sender t turned to the next number *)
| OWrote (t i : nat) (b : bytes)        (* sender t wrote packet b to session i *)
| ORec (t : nat) (p : proto) (phone b : bytes)    (* sender t has recorded the result of packet b *)
| OBroke (t i : nat)                    (* the write failed *)
| ORet (q : Z)                          (* SendN returned q *)
| OGotP (i : nat) (p : proto) (cmd seq : Z) (body : bytes)   (* session i received a packet *)
| OReply (i : nat) (b : bytes).         (* a handler of session i wrote b *)

Record cstate := CState { ct_sess : list csess; ct_ca : caches; ct_send : list sender; ct_log : list cobs }.

(** ** Handlers of received packets *)
(** Environment of a handler: writes fail, the clock, the BcdSeq value of an SMGP deliver response. *)
Record gorc := GOrc { g_err : bool; g_now : Z; g_id : bytes }.
(** fmt %010d and %08x of a uint32: sgip/header.go:62-64 Sequence2String *)
Definition dec10 (n : Z) : bytes := map (fun k => 48 + (n / 10 ^ k) mod 10) [9;8;7;6;5;4;3;2;1;0].
Definition hex8 (n : Z) : bytes := Uint32HexString n.
Definition Sequence2String (q : seq3) : bytes := let '(a, b, c) := q in dec10 a ++ dec10 b ++ hex8 c.
(** s.con.Write of a packet: the encoding is computed, a nil con panics. *)
Definition reply_with (s : csess) (e : res bytes) : res bytes := b <- e ;; if cs_con s then Ok b else Panic.
(** A result is found by its key, updated, and stored in the map by message id
    (on_traffic_cmpp.go:86-94, on_traffic_sgip.go:71-79, on_traffic_smgp.go:86-94). *)
Definition set_answer (code : Z) (mid : bytes) (now : Z) (r : result) : result :=
  Result (rt_qid r) (rt_phone r) (rt_seq r) code mid (rt_report r) (rt_send r) now (rt_rept r).
Definition answered (ca : caches) (k : ckey) (code : Z) (mid : bytes) (now : Z) : caches :=
  match load ckey_eqb k (ca_seq ca) with
  | Some p => Caches (upd_heap (ca_heap ca) p (set_answer code mid now)) (ca_seq ca) (store_at text_eqb mid p (ca_msg ca)) (ca_query ca)
  | None => ca
  end.
(** A report is booked on the result with its message id (on_traffic_cmpp.go:112-125,
    on_traffic_smgp.go:112-124). *)
Definition set_report (txt : bytes) (now : Z) (r : result) : result :=
  Result (rt_qid r) (rt_phone r) (rt_seq r) (rt_result r) (rt_msgid r) txt (rt_send r) (rt_resp r) now.
Definition reported (ca : caches) (k txt : bytes) (now : Z) : caches :=
  match load text_eqb k (ca_msg ca) with
  | Some p => Caches (upd_heap (ca_heap ca) p (set_report txt now)) (ca_seq ca) (ca_msg ca) (ca_query ca)
  | None => ca
  end.
Definition touch (s : csess) (now : Z) : csess := CSess (cs_p s) (cs_stat s) (cs_con s) (cs_ac s) (cs_pcnt s) now.
Definition hout := (csess * caches * list bytes)%type.
Definition nothing (s : csess) (ca : caches) : res hout := Ok (s, ca, []).
Definition closing (s : csess) (ca : caches) (out : list bytes) : res hout := s1 <- Close s ;; Ok (s1, ca, out).
(** nil dereference of s.authConf *)
Definition version_of (s : csess) : res Z := match cs_ac s with Some ac => Ok (ac_Version ac) | None => Panic end.
(** A packet answered with [e]; on a write error the session is closed. *)
Definition answer_or_close (s : csess) (ca : caches) (e : res bytes) (o : gorc) : res hout :=
  b <- reply_with s e ;; if g_err o then closing s ca [] else Ok (s, ca, [b]).

(** session/on_traffic_cmpp.go:36-126 onTrafficCmpp.  Line 47: err is nil when the status is not OK,
    err.Error() panics.  Line 86 looks the result up under a uint32, line 31 stored it under a uint64. *)
Definition onTrafficCmpp (s0 : csess) (ca : caches) (cmd seq : Z) (f : bytes) (o : gorc) : res hout :=
  let s := touch s0 (g_now o) in
  if cmd =? RESP + CONNECT then
    v <- version_of s ;; r <- ConnectResp_Decode v seq f ;;
    if cr_status r =? 0 then nothing s ca else Panic
  else if cmd =? ACTIVE_TEST then
    h <- ActiveTest_Decode seq f ;; answer_or_close s ca (ActiveTestRsp_Encode (ActiveTest_ToResponse h)) o
  else if cmd =? RESP + ACTIVE_TEST then nothing s ca
  else if cmd =? TERMINATE then
    h <- Terminate_Decode seq f ;; b <- reply_with s (head_Encode (Terminate_ToResponse h)) ;; closing s ca (if g_err o then [] else [b])
  else if cmd =? RESP + TERMINATE then closing s ca []
  else if cmd =? RESP + SUBMIT then
    v <- version_of s ;; r <- cresp_Decode (RESP + SUBMIT) v seq f ;;
    nothing s (answered ca (U32 (h_seq (rs_h r))) (rs_result r) (Uint64HexString (rs_msgId r)) (g_now o))
  else if cmd =? DELIVER then
    v <- version_of s ;; d <- Delivery_Decode v seq f ;;
    b <- reply_with s (cresp_Encode (Delivery_ToResponse d 0)) ;;
    s1 <- (if g_err o then Close s else Ok s) ;;
    Ok (s1, match dl_report d with Some r => reported ca (Uint64HexString (rp_msgId r)) (rp_stat r) (g_now o) | None => ca end, if g_err o then [] else [b])
  else nothing s ca.
(** session/on_traffic_sgip.go:35-81 onTrafficSgip *)
Definition onTrafficSgip (s0 : csess) (ca : caches) (cmd seq : Z) (f : bytes) (o : gorc) : res hout :=
  let s := touch s0 (g_now o) in
  if cmd =? RESP + SG_BIND then
    r <- srsp_Decode (RESP + SG_BIND) seq f ;;
    if sr_status r =? 0 then nothing s ca else Panic
  else if cmd =? SG_UNBIND then
    h <- Unbind_Decode SG_UNBIND seq f ;; b <- reply_with s (shead_Encode (Unbind_ToResponse h)) ;; closing s ca (if g_err o then [] else [b])
  else if cmd =? RESP + SG_UNBIND then
    h <- Unbind_Decode (RESP + SG_UNBIND) seq f ;; closing s ca []
  else if cmd =? RESP + SG_SUBMIT then
    r <- srsp_Decode (RESP + SG_SUBMIT) seq f ;;
    nothing s (answered ca (U64 (Sequence2Uint64 (sh_seq (sr_h r)))) (sr_status r) (Sequence2String (sh_seq (sr_h r))) (g_now o))
  else nothing s ca.
(** session/on_traffic_smgp.go:36-126 onTrafficSmgp; an undecodable deliver closes the session *)
Definition onTrafficSmgp (gbd : bytes -> option bytes) (s0 : csess) (ca : caches) (cmd seq : Z) (f : bytes) (o : gorc) : res hout :=
  let s := touch s0 (g_now o) in
  if cmd =? RESP + SM_LOGIN then
    v <- version_of s ;; r <- LoginRsp_Decode seq f ;;
    if lr_status r =? 0 then nothing s ca else Panic
  else if cmd =? SM_ACTIVE_TEST then
    h <- sm_bare_Decode SM_ACTIVE_TEST seq f ;; answer_or_close s ca (smhead_Encode (sm_bare_ToResponse SM_ACTIVE_TEST h)) o
  else if cmd =? RESP + SM_ACTIVE_TEST then nothing s ca
  else if cmd =? SM_EXIT then
    h <- sm_bare_Decode SM_EXIT seq f ;; b <- reply_with s (smhead_Encode (sm_bare_ToResponse SM_EXIT h)) ;; closing s ca (if g_err o then [] else [b])
  else if cmd =? RESP + SM_EXIT then closing s ca []
  else if cmd =? RESP + SM_SUBMIT then
    v <- version_of s ;; r <- mresp_Decode (RESP + SM_SUBMIT) v seq f ;;
    nothing s (answered ca (U32 (h_seq (mr_h r))) (mr_status r) (hex_bytes (mr_msgId r)) (g_now o))
  else if cmd =? SM_DELIVER then
    v <- version_of s ;;
    match MDeliver_Decode gbd v seq f with
    | Ok d =>
      b <- reply_with s (mresp_Encode (MDeliver_ToResponse d 0 (g_id o))) ;;
      s1 <- (if g_err o then Close s else Ok s) ;;
      Ok (s1, match md_report d with Some r => reported ca (hex_bytes (mp_id r)) (mp_stat r) (g_now o) | None => ca end, if g_err o then [] else [b])
    | Err _ => closing s ca []
    | Panic => Panic
    end
  else nothing s ca.
(** session/session.go:156-165 onTraffic *)
Definition c_onTraffic (gbd : bytes -> option bytes) (s : csess) (ca : caches) (cmd seq : Z) (f : bytes) (o : gorc) : res hout :=
  match cs_p s with
  | P_CMPP => onTrafficCmpp s ca cmd seq f o
  | P_SGIP => onTrafficSgip s ca cmd seq f o
  | P_SMGP => onTrafficSmgp gbd s ca cmd seq f o
  end.

(** ** Querying and sweeping *)
(** api.go:42-54 Query: line 47 indexes result[0] also when the stored slice is empty. *)
Fixpoint deref (h : list result) (l : list nat) : list result :=
  match l with [] => [] | p :: r => match nth_error h p with Some x => x :: deref h r | None => deref h r end end.
Definition Query (ca : caches) (q : Z) : res (option (list result)) :=
  match load Z.eqb q (ca_query ca) with
  | Some [] => Panic
  | Some l => Ok (Some (deref (ca_heap ca) l))
  | None => Ok None
  end.
(** api.go:56-62 saveQueryCache *)
Definition set_qid (q : Z) (r : result) : result :=
  Result q (rt_phone r) (rt_seq r) (rt_result r) (rt_msgid r) (rt_report r) (rt_send r) (rt_resp r) (rt_rept r).
Definition saveQueryCache (ca : caches) (q : Z) (l : list nat) : caches :=
  Caches (fold_left (fun h p => upd_heap h p (set_qid q)) l (ca_heap ca)) (ca_seq ca) (ca_msg ca) (store_at Z.eqb q l (ca_query ca)).

(** session_factory.go:187-222 cleanQueryCacheMap.  [entries]: the map in the order Range visits it;
    [d]: the cache time (not 0), [now]: the clock.  Result: keys to delete, batches handed over.
    [h]: the handler is not nil.  r0.SendTime.Add(d).Before(now) is send + d < now. *)
Fixpoint sweep_query (h : bool) (heap : list result) (d now : Z) (entries : list (Z * list nat)) (expired : list Z) (batch : list nat) (out : list (list nat)) : list Z * list nat * list (list nat) :=
  match entries with
  | [] => (expired, batch, out)
  | (id, l) :: r =>
    let '(expired1, batch1) :=
      match l with
      | [] => (expired ++ [id], batch)
      | p :: _ => match nth_error heap p with
                  | Some r0 => if rt_send r0 + d <? now then (expired ++ [id], batch ++ l) else (expired, batch)
                  | None => (expired, batch)
                  end
      end in
    if h && (64 <=? zlen batch1) then sweep_query h heap d now r expired1 [] (out ++ [batch1])
    else sweep_query h heap d now r expired1 batch1 out
  end.
Definition cleanQueryCacheMap (h : bool) (ca : caches) (d now : Z) (entries : list (Z * list nat)) : caches * list (list nat) :=
  let '(expired, batch, out) := sweep_query h (ca_heap ca) d now entries [] [] [] in
  (Caches (ca_heap ca) (ca_seq ca) (ca_msg ca) (fold_left (fun m k => remove Z.eqb k m) expired (ca_query ca)),
   if h && (0 <? zlen batch) then out ++ [batch] else out).
(** session_factory.go:224-241 cleanRequestIdCacheMap: deletes under the result's own SequenceId, a uint64. *)
Definition old (heap : list result) (d now : Z) (p : nat) : bool :=
  match nth_error heap p with Some r => rt_send r + d <? now | None => false end.
Definition cleanRequestIdCacheMap (ca : caches) (d now : Z) : caches :=
  let keys := flat_map (fun e => if old (ca_heap ca) d now (snd e) then match nth_error (ca_heap ca) (snd e) with Some r => [U64 (rt_seq r)] | None => [] end else []) (ca_seq ca) in
  Caches (ca_heap ca) (fold_left (fun m k => remove ckey_eqb k m) keys (ca_seq ca)) (ca_msg ca) (ca_query ca).
(** session_factory.go:243-260 cleanMsgIdCacheMap: deletes under the result's present MsgId. *)
Definition cleanMsgIdCacheMap (ca : caches) (d now : Z) : caches :=
  let keys := flat_map (fun e => if old (ca_heap ca) d now (snd e) then match nth_error (ca_heap ca) (snd e) with Some r => [rt_msgid r] | None => [] end else []) (ca_msg ca) in
  Caches (ca_heap ca) (ca_seq ca) (fold_left (fun m k => remove text_eqb k m) keys (ca_msg ca)) (ca_query ca).

(** ** Steps *)
Inductive cevent :=
| CBegin (q : Z) (msg : bytes) (ops : list mtopt) (phones : list bytes)   (* SendN is called; q: the B64Seq value it draws *)
| CPick (t : nat) (choice : option nat) (d : dorc) (now : Z)  (* sender t: SelectSession for the next number, NewSubmit *)
| CWrite (t : nat) (ok : bool) (now : Z)    (* sender t writes the next packet *)
| CRecord (t : nat) (now : Z)               (* sender t stores the packet's result; now: its SendTime *)
| CDone (t : nat)                           (* sender t: saveQueryCache, return *)
| CGot (i : nat) (cmd seq : Z) (body : bytes) (o : gorc)  (* the receiver of session i hands a packet to the handlers *)
| CClose (i : nat)                          (* some goroutine closes session i *)
| CSweepQ (h : bool) (d now : Z)            (* one round of the sweeper: query cache, ... *)
| CSweepS (d now : Z)                       (* ... cache by sequence id, *)
| CSweepM (d now : Z).                      (* ... cache by message id *)
Record cparams := CParams { cp_gbe : bytes -> option bytes; cp_gbd : bytes -> option bytes }.

Definition put_sess (c : cstate) (i : nat) (s : csess) : cstate :=
  CState (firstn i (ct_sess c) ++ [s] ++ skipn (S i) (ct_sess c)) (ct_ca c) (ct_send c) (ct_log c).
Definition put_send (c : cstate) (t : nat) (s : sender) : cstate :=
  CState (ct_sess c) (ct_ca c) (firstn t (ct_send c) ++ [s] ++ skipn (S t) (ct_send c)) (ct_log c).
Definition put_ca (c : cstate) (ca : caches) : cstate := CState (ct_sess c) ca (ct_send c) (ct_log c).
Definition say (c : cstate) (l : list cobs) : cstate := CState (ct_sess c) (ct_ca c) (ct_send c) (ct_log c ++ l).
Definition phase (s : sender) (todo : list bytes) (rs : list nat) (ph : sphase) : sender :=
  Sender (sn_q s) (sn_msg s) (sn_ops s) todo rs ph.
(** AddCounter of session i (api.go:36) *)
Definition used (c : cstate) (i : nat) (now : Z) : cstate :=
  match nth_error (ct_sess c) i with Some s => put_sess c i (AddCounter s now) | None => c end.
(** An event that is not possible in a state leaves it as it is. *)
Definition cstep (pr : cparams) (c : cstate) (e : cevent) : res cstate :=
  match e with
  | CBegin q msg ops phones =>
    match phones with
    | [] => Ok (say c [ORet 0])                                           (* api.go:22-24 *)
    | _ => Ok (CState (ct_sess c) (ct_ca c) (ct_send c ++ [Sender q msg ops phones [] SNext]) (ct_log c))
    end
  | CPick t choice d now =>
    match nth_error (ct_send c) t with
    | Some s =>
      match sn_ph s, sn_todo s with
      | SNext, phone :: rest =>
        match choice with
        | None => Ok (say (put_send c t (phase s rest (sn_res s) SNext)) [OPick t phone])       (* api.go:31-34 *)
        | Some i =>
          match nth_error (ct_sess c) i with
          | Some ss =>
            if HealthCheck ss then
              match cs_ac ss with
              | Some ac =>
                parts <- segments (cs_p ss) (cp_gbe pr) ac phone (sn_msg s) (sn_ops s) d ;;
                match parts with
                | [] => Ok (say (used (put_send c t (phase s rest (sn_res s) SNext)) i now) [OPick t phone])
                | _ => Ok (say (put_send c t (phase s rest (sn_res s) (SPart i phone parts []))) [OPick t phone])
                end
              | None => Ok c
              end
            else Ok c
          | None => Ok c
          end
        end
      | _, _ => Ok c
      end
    | None => Ok c
    end
  | CWrite t ok now =>
    match nth_error (ct_send c) t with
    | Some s =>
      match sn_ph s with
      | SPart i phone ((enc, key) :: r) done =>
        match nth_error (ct_sess c) i with
        | Some ss =>
          b <- reply_with ss enc ;;
          if ok then Ok (say (put_send c t (phase s (sn_todo s) (sn_res s) (SWrote i phone b key r done))) [OWrote t i b])
          else s1 <- Close ss ;; Ok (say (used (put_send (put_sess c i s1) t (phase s (sn_todo s) (sn_res s) SNext)) i now) [OBroke t i])
        | None => Ok c
        end
      | _ => Ok c
      end
    | None => Ok c
    end
  | CRecord t now =>
    match nth_error (ct_send c) t with
    | Some s =>
      match sn_ph s with
      | SWrote i phone b key r done =>
        let p := length (ca_heap (ct_ca c)) in
        let ca := Caches (ca_heap (ct_ca c) ++ [Result 0 phone key 0 [] [] now 0 0])
                         (store_at ckey_eqb (U64 key) p (ca_seq (ct_ca c))) (ca_msg (ct_ca c)) (ca_query (ct_ca c)) in
        let c1 := say (put_ca c ca) [ORec t (match nth_error (ct_sess c) i with Some ss => cs_p ss | None => P_CMPP end) phone b] in
        match r with
        | [] => Ok (used (put_send c1 t (phase s (sn_todo s) (sn_res s ++ done ++ [p]) SNext)) i now)
        | _ => Ok (put_send c1 t (phase s (sn_todo s) (sn_res s) (SPart i phone r (done ++ [p]))))
        end
      | _ => Ok c
      end
    | None => Ok c
    end
  | CDone t =>
    match nth_error (ct_send c) t with
    | Some s =>
      match sn_ph s, sn_todo s with
      | SNext, [] => Ok (say (put_send (put_ca c (saveQueryCache (ct_ca c) (sn_q s) (sn_res s))) t (phase s [] (sn_res s) SDone)) [ORet (sn_q s)])
      | _, _ => Ok c
      end
    | None => Ok c
    end
  | CGot i cmd seq body o =>
    match nth_error (ct_sess c) i with
    | Some ss =>
      '(s1, ca, out) <- c_onTraffic (cp_gbd pr) ss (ct_ca c) cmd seq body o ;;
      Ok (say (put_ca (put_sess c i s1) ca) (OGotP i (cs_p ss) cmd seq body :: map (OReply i) out))
    | None => Ok c
    end
  | CClose i =>
    match nth_error (ct_sess c) i with
    | Some ss => s1 <- Close ss ;; Ok (put_sess c i s1)
    | None => Ok c
    end
  | CSweepQ h d now => Ok (put_ca c (fst (cleanQueryCacheMap h (ct_ca c) d now (ca_query (ct_ca c)))))
  | CSweepS d now => Ok (put_ca c (cleanRequestIdCacheMap (ct_ca c) d now))
  | CSweepM d now => Ok (put_ca c (cleanMsgIdCacheMap (ct_ca c) d now))
  end.
Fixpoint crun (pr : cparams) (c : cstate) (es : list cevent) : res cstate :=
  match es with [] => Ok c | e :: r => c1 <- cstep pr c e ;; crun pr c1 r end.
(** A client with the given sessions before anything was sent. *)
Definition cstart (l : list csess) : cstate := CState l (Caches [] [] [] []) [] [].
