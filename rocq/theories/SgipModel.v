(** * SgipModel: /repo/codec/sgip/.
    A SequenceNumber slice is modelled as a triple (NextVal, sequence.go:27-43, and every
    Decode make it with three elements); Report.MtSequence, which a caller hands over, is a
    list.  Decoders get the node number [cid] (read from the first 12 bytes) and the bytes
    behind them; the buffer has capacity equal to its length, as in CmppModel. *)
From Verif Require Import Base UtilsModel OptionsModel CmppModel.

(** ** header.go *)
Definition seq3 := (Z * Z * Z)%type.
Record shead := SHead { sh_len : Z; sh_cmd : Z; sh_seq : seq3 }.
(** codec/sgip/header.go:19-30 Encode; the bumped length is what later code sees. *)
Definition shead_len (h : shead) : Z := if sh_len h <? 20 then 20 else sh_len h.
Definition shead_Encode (h : shead) : res bytes :=
  let n := shead_len h in
  let '(a, b, c) := sh_seq h in
  f <- put_be 4 (zeros n) 0 4 n ;;
  f <- put_be 4 f 4 8 (sh_cmd h) ;;
  f <- put_be 4 f 8 12 a ;;
  f <- put_be 4 f 12 16 b ;;
  put_be 4 f 16 20 c.
(** codec/sgip/header.go:32-40 Decode *)
Definition shead_Decode (f : bytes) : res shead :=
  l <- get_be 4 f 0 4 ;;
  k <- get_be 4 f 4 8 ;;
  a <- get_be 4 f 8 12 ;;
  b <- get_be 4 f 12 16 ;;
  c <- get_be 4 f 16 20 ;;
  Ok (SHead l k (a, b, c)).
(** codec/sgip/header.go:58-60 Sequence2Uint64 *)
Definition Sequence2Uint64 (q : seq3) : Z := let '(_, b, c) := q in Z.lor (Z.shiftl b 32) c.

(** codec/sgip/variables.go:35-43 *)
Definition SG_BIND := 1. Definition SG_UNBIND := 2. Definition SG_SUBMIT := 3.
Definition SG_DELIVER := 4. Definition SG_REPORT := 5.

(** ** bind.go *)
Record bindp := Bind { bd_h : shead; bd_type : Z; bd_name : bytes; bd_pwd : bytes }.
(** codec/sgip/bind.go:24-33 NewBind; [q] = Sequencer.NextVal() *)
Definition NewBind (ac : authconf) (loginType : Z) (q : seq3) : bindp :=
  Bind (SHead 61 SG_BIND q) loginType (ac_ClientId ac) (ac_SharedSecret ac).
(** codec/sgip/bind.go:35-46 Encode (utils.CopyStr, utils/utils.go:149-153, is a bounded copy) *)
Definition Bind_Encode (b : bindp) : res bytes :=
  f <- shead_Encode (bd_h b) ;;
  if (zlen f =? 61) && (shead_len (bd_h b) =? 61) then
    f <- set_at f 20 (bd_type b) ;;
    f <- copy_at f 21 37 (bd_name b) ;;
    copy_at f 37 53 (bd_pwd b)
  else Ok f.
(** codec/sgip/bind.go:48-65 Decode *)
Definition Bind_Decode (cid : Z) (f : bytes) : res bindp :=
  b <- get_be 4 f 0 4 ;;
  c <- get_be 4 f 4 8 ;;
  t <- at_ f 8 ;;
  n <- slice f 9 25 ;;
  p <- slice f 25 41 ;;
  Ok (Bind (SHead (12 + zlen f) SG_BIND (cid, b, c)) t (TrimStr n) (TrimStr p)).
(** codec/sgip/bind.go:67-73 Check *)
Definition Bind_Check (b : bindp) (ac : option authconf) : Z :=
  match ac with
  | Some a => if beqb (ac_LoginName a) (bd_name b) && beqb (ac_SharedSecret a) (bd_pwd b) then 0 else 1
  | None => 1
  end.

(** The four response types have a header and a status byte: BindRsp bind.go:93-96, SubmitRsp
    submit.go:286-290, DeliverRsp deliver.go:126-130, ReportRsp report.go:95-99 (their Reserve
    is always empty). *)
Record srsp := SRsp { sr_h : shead; sr_status : Z }.
(** codec/sgip/bind.go:75-82 ToResponse; Status(code) keeps the low byte *)
Definition Bind_ToResponse (b : bindp) (code : Z) : srsp :=
  SRsp (SHead 21 (RESP + SG_BIND) (sh_seq (bd_h b))) (u8 code).
(** codec/sgip/bind.go:98-104 BindRsp.Encode *)
Definition BindRsp_Encode (r : srsp) : res bytes :=
  f <- shead_Encode (sr_h r) ;;
  if (zlen f =? 21) && (shead_len (sr_h r) =? 21) then set_at f 20 (u8 (sr_status r)) else Ok f.
(** codec/sgip/submit.go:314-318, deliver.go:154-158, report.go:123-127 Encode *)
Definition srsp_Encode (r : srsp) : res bytes :=
  f <- shead_Encode (sr_h r) ;; set_at f 20 (u8 (sr_status r)).
(** codec/sgip/bind.go:106-118, submit.go:302-312, deliver.go:142-152, report.go:111-121 Decode *)
Definition srsp_Decode (cmd cid : Z) (f : bytes) : res srsp :=
  b <- get_be 4 f 0 4 ;;
  c <- get_be 4 f 4 8 ;;
  s <- at_ f 8 ;;
  Ok (SRsp (SHead (12 + zlen f) cmd (cid, b, c)) s).

(** ** unbind.go *)
(** codec/sgip/unbind.go:14-17 NewUnbind *)
Definition NewUnbind (q : seq3) : shead := SHead 20 SG_UNBIND q.
(** codec/sgip/unbind.go:23-31, 53-61 Decode *)
Definition Unbind_Decode (cmd cid : Z) (f : bytes) : res shead :=
  b <- get_be 4 f 0 4 ;;
  c <- get_be 4 f 4 8 ;;
  Ok (SHead 20 cmd (cid, b, c)).
(** codec/sgip/unbind.go:33-39 ToResponse *)
Definition Unbind_ToResponse (u : shead) : shead := SHead (sh_len u) (RESP + SG_UNBIND) (sh_seq u).

(** ** submit.go *)
Record ssubmit := SSubmit {
  ss_h : shead; ss_SPNumber : bytes; ss_ChargeNumber : bytes; ss_UserCount : Z; ss_UserNumber : list bytes;
  ss_CorpId : bytes; ss_ServiceType : bytes; ss_FeeType : Z; ss_FeeValue : bytes; ss_GivenValue : bytes;
  ss_AgentFlag : Z; ss_Morelate : Z; ss_Priority : Z; ss_ExpireTime : bytes; ss_ScheduleTime : bytes;
  ss_ReportFlag : Z; ss_TpPid : Z; ss_TpUdhi : Z; ss_Coding : Z; ss_MessageType : Z; ss_MessageLength : Z;
  ss_Content : bytes; ss_Reserve : bytes }.

(** codec/sgip/submit.go:64-97 NewSubmit with SetOptions 213-252 inlined. [q i] = the sequence
    drawn for part i (i = 0: line 68), [vd] = FormatTime(now + ac.MtValidDuration), [g] = the
    clock byte of ToTPUDHISlices.  ac.ClientId[5:] if longer than 5. *)
Definition corp_of (cid : bytes) : bytes := if 5 <? zlen cid then skipn 5 cid else cid.
Definition sgip_part (ac : authconf) (o : mtopts) (phones : list bytes) (vd : bytes) (coding udhi : Z) (q : seq3) (b : bytes) : ssubmit :=
  SSubmit (SHead (u32 (143 + zlen phones * 21 + zlen b)) SG_SUBMIT q)
    (match o_SpSubNo o with [] => ac_SmsDisplayNo ac | s => ac_SmsDisplayNo ac ++ s end) []
    (u8 (zlen phones)) phones (corp_of (ac_ClientId ac)) (opt_txt (o_ServiceId o) (ac_ServiceId ac)) 0 [] [] 0 2
    (opt_num (o_MsgLevel o) (ac_DefaultMsgLevel ac)) (opt_txt (o_ValidTime o) vd) (o_AtTime o)
    (opt_num (o_NeedReport o) (ac_NeedReport ac)) 0 udhi coding 0 (u32 (zlen b)) b [].
Fixpoint sgip_parts (mk : Z -> bytes -> ssubmit) (i : Z) (parts : list bytes) : list ssubmit :=
  match parts with
  | [] => []
  | b :: r => mk i b :: sgip_parts mk (i + 1) r
  end.
Definition sgip_NewSubmit (ac : authconf) (phones : list bytes) (content : bytes) (ops : list mtopt)
    (vd : bytes) (g : Z) (q : Z -> seq3) : res (list ssubmit) :=
  let o := LoadMtOptions ops in
  let coding := MsgFmt content in
  parts <- MsgSlices g coding content ;;
  match parts with
  | [b] => Ok [sgip_part ac o phones vd coding 0 (q 0) b]
  | _ => Ok (sgip_parts (fun i b => sgip_part ac o phones vd coding 1 (q i) b) 0 parts)
  end.

(** [copy(frame[lo:], src)]: unbounded by the field's width. *)
Definition copy_open (f : bytes) (lo : Z) (src : bytes) : res bytes := copy_at f lo (zlen f) src.

(** codec/sgip/submit.go:108-111 *)
Fixpoint put_users (f : bytes) (index : Z) (l : list bytes) : res (bytes * Z) :=
  match l with
  | [] => Ok (f, index)
  | p :: r => f <- copy_open f index p ;; put_users f (index + 21) r
  end.
(** codec/sgip/submit.go:99-148 Encode *)
Definition SSubmit_Encode (s : ssubmit) : res bytes :=
  f <- shead_Encode (ss_h s) ;;
  f <- copy_open f 20 (ss_SPNumber s) ;;
  f <- copy_open f 41 (ss_ChargeNumber s) ;;
  f <- set_at f 62 (ss_UserCount s) ;;
  '(f, index) <- put_users f 63 (ss_UserNumber s) ;;
  f <- copy_open f index (ss_CorpId s) ;;
  let index := index + 5 in
  f <- copy_open f index (ss_ServiceType s) ;;
  let index := index + 10 in
  f <- set_at f index (ss_FeeType s) ;;
  let index := index + 1 in
  f <- copy_open f index (ss_FeeValue s) ;;
  let index := index + 6 in
  f <- copy_open f index (ss_GivenValue s) ;;
  let index := index + 6 in
  f <- set_at f index (ss_AgentFlag s) ;;
  let index := index + 1 in
  f <- set_at f index (ss_Morelate s) ;;
  let index := index + 1 in
  f <- set_at f index (ss_Priority s) ;;
  let index := index + 1 in
  f <- copy_open f index (ss_ExpireTime s) ;;
  let index := index + 16 in
  f <- copy_open f index (ss_ScheduleTime s) ;;
  let index := index + 16 in
  f <- set_at f index (ss_ReportFlag s) ;;
  let index := index + 1 in
  f <- set_at f index (ss_TpPid s) ;;
  let index := index + 1 in
  f <- set_at f index (ss_TpUdhi s) ;;
  let index := index + 1 in
  f <- set_at f index (ss_Coding s) ;;
  let index := index + 1 in
  f <- set_at f index (ss_MessageType s) ;;
  let index := index + 1 in
  f <- put_be 4 f index (zlen f) (ss_MessageLength s) ;;
  let index := index + 4 in
  f <- copy_open f index (ss_Content s) ;;
  let index := index + zlen (ss_Content s) in
  copy_open f index (ss_Reserve s).

(** codec/sgip/submit.go:167-170 *)
Fixpoint get_users (f : bytes) (index : Z) (n : nat) : res (list bytes * Z) :=
  match n with
  | O => Ok ([], index)
  | S k => p <- slice f index (index + 21) ;;
           '(r, i) <- get_users f (index + 21) k ;;
           Ok (TrimStr p :: r, i)
  end.
(** codec/sgip/submit.go:150-211 Decode; content as in cmpp ([strip_udh], lines 205-208) *)
Definition SSubmit_Decode (cid : Z) (f : bytes) : res ssubmit :=
  b <- get_be 4 f 0 (zlen f) ;;
  c <- get_be 4 f 4 (zlen f) ;;
  sp <- slice f 8 29 ;;
  charge <- slice f 29 50 ;;
  n <- at_ f 50 ;;
  '(users, index) <- get_users f 51 (Z.to_nat n) ;;
  corp <- slice f index (index + 5) ;;
  let index := index + 5 in
  stype <- slice f index (index + 10) ;;
  let index := index + 10 in
  feeType <- at_ f index ;;
  let index := index + 1 in
  feeValue <- slice f index (index + 6) ;;
  let index := index + 6 in
  given <- slice f index (index + 6) ;;
  let index := index + 6 in
  agent <- at_ f index ;;
  let index := index + 1 in
  more <- at_ f index ;;
  let index := index + 1 in
  prio <- at_ f index ;;
  let index := index + 1 in
  expire <- slice f index (index + 16) ;;
  let index := index + 16 in
  sched <- slice f index (index + 16) ;;
  let index := index + 16 in
  rflag <- at_ f index ;;
  let index := index + 1 in
  pid <- at_ f index ;;
  let index := index + 1 in
  udhi <- at_ f index ;;
  let index := index + 1 in
  coding <- at_ f index ;;
  let index := index + 1 in
  mtype <- at_ f index ;;
  let index := index + 1 in
  len <- get_be 4 f index (zlen f) ;;
  let index := index + 4 in
  content <- slice f index (index + len) ;;
  content <- strip_udh content ;;
  Ok (SSubmit (SHead (12 + zlen f) SG_SUBMIT (cid, b, c)) (TrimStr sp) (TrimStr charge) n users (TrimStr corp)
        (TrimStr stype) feeType (TrimStr feeValue) (TrimStr given) agent more prio (TrimStr expire) (TrimStr sched)
        rflag pid udhi coding mtype len content []).
(** codec/sgip/submit.go:292-300, deliver.go:132-140, report.go:101-109 ToResponse *)
Definition SSubmit_ToResponse (s : ssubmit) (code : Z) : srsp := SRsp (SHead 29 (RESP + SG_SUBMIT) (sh_seq (ss_h s))) (u8 code).

(** ** deliver.go *)
Record sdeliver := SDeliver {
  sd_h : shead; sd_UserNumber : bytes; sd_SPNumber : bytes; sd_TpPid : Z; sd_TpUdhi : Z; sd_Coding : Z;
  sd_MessageLength : Z; sd_Content : bytes; sd_Reserve : bytes }.
(** strings.HasPrefix *)
Fixpoint has_prefix (s p : bytes) : bool :=
  match p, s with
  | [], _ => true
  | x :: p', y :: s' => (x =? y) && has_prefix s' p'
  | _ :: _, [] => false
  end.
(** codec/sgip/deliver.go:28-57 NewDeliver (the error of Utf8ToUcs2 is dropped) *)
Definition deliver_bytes (content : bytes) : bytes :=
  if MsgFmt content =? 8 then
    let bs := match Utf8ToUcs2 content with Ok b => b | _ => [] end in
    if 140 <? zlen bs then firstn 140 bs else bs
  else if 160 <? zlen content then firstn 160 content else content.
Definition NewDeliver (ac : authconf) (phone content destNo : bytes) (q : seq3) : sdeliver :=
  let bs := deliver_bytes content in
  SDeliver (SHead (77 + zlen bs) SG_DELIVER q) phone
    (if has_prefix destNo (ac_SmsDisplayNo ac) then destNo else ac_SmsDisplayNo ac ++ destNo)
    0 0 (MsgFmt content) (zlen bs) bs [].
(** codec/sgip/deliver.go:59-78 Encode *)
Definition SDeliver_Encode (d : sdeliver) : res bytes :=
  f <- shead_Encode (sd_h d) ;;
  f <- copy_open f 20 (sd_UserNumber d) ;;
  f <- copy_open f 41 (sd_SPNumber d) ;;
  f <- set_at f 62 (sd_TpPid d) ;;
  f <- set_at f 63 (sd_TpUdhi d) ;;
  f <- set_at f 64 (sd_Coding d) ;;
  f <- put_be 4 f 65 (zlen f) (sd_MessageLength d) ;;
  f <- copy_open f 69 (sd_Content d) ;;
  copy_open f (69 + zlen (sd_Content d)) (sd_Reserve d).
(** codec/sgip/deliver.go:80-106 Decode *)
Definition SDeliver_Decode (cid : Z) (f : bytes) : res sdeliver :=
  b <- get_be 4 f 0 (zlen f) ;;
  c <- get_be 4 f 4 (zlen f) ;;
  u <- slice f 8 29 ;;
  sp <- slice f 29 50 ;;
  pid <- at_ f 50 ;;
  udhi <- at_ f 51 ;;
  coding <- at_ f 52 ;;
  len <- get_be 4 f 53 (zlen f) ;;
  content <- slice f 57 (57 + len) ;;
  Ok (SDeliver (SHead (12 + zlen f) SG_DELIVER (cid, b, c)) (TrimStr u) (TrimStr sp) pid udhi coding len content []).
Definition SDeliver_ToResponse (d : sdeliver) (code : Z) : srsp := SRsp (SHead 29 (RESP + SG_DELIVER) (sh_seq (sd_h d))) (u8 code).

(** ** report.go *)
Record sreport := SReport {
  st_h : shead; st_MtSequence : list Z; st_ReportType : Z; st_UserNumber : bytes; st_State : Z; st_ErrorCode : Z;
  st_Reserve : bytes }.
(** codec/sgip/report.go:25-35 NewReport: the command id written is SGIP_DELIVER *)
Definition sgip_NewReport (phone : bytes) (mtSequence : list Z) (status code : Z) (q : seq3) : sreport :=
  SReport (SHead 64 SG_DELIVER q) mtSequence 0 phone status code [].
(** codec/sgip/report.go:40-43 *)
Fixpoint put_seqs (f : bytes) (index : Z) (l : list Z) : res (bytes * Z) :=
  match l with
  | [] => Ok (f, index)
  | v :: r => f <- put_be 4 f index (zlen f) v ;; put_seqs f (index + 4) r
  end.
(** codec/sgip/report.go:37-54 Encode *)
Definition SReport_Encode (r : sreport) : res bytes :=
  f <- shead_Encode (st_h r) ;;
  '(f, index) <- put_seqs f 20 (st_MtSequence r) ;;
  f <- set_at f index (st_ReportType r) ;;
  let index := index + 1 in
  f <- copy_open f index (st_UserNumber r) ;;
  let index := index + 21 in
  f <- set_at f index (u8 (st_State r)) ;;
  let index := index + 1 in
  f <- set_at f index (st_ErrorCode r) ;;
  let index := index + 1 in
  copy_open f index (st_Reserve r).
(** codec/sgip/report.go:56-81 Decode *)
Definition SReport_Decode (cid : Z) (f : bytes) : res sreport :=
  b <- get_be 4 f 0 (zlen f) ;;
  c <- get_be 4 f 4 (zlen f) ;;
  m0 <- get_be 4 f 8 (zlen f) ;;
  m1 <- get_be 4 f 12 (zlen f) ;;
  m2 <- get_be 4 f 16 (zlen f) ;;
  t <- at_ f 20 ;;
  u <- slice f 21 42 ;;
  s <- at_ f 42 ;;
  e <- at_ f 43 ;;
  Ok (SReport (SHead (12 + zlen f) SG_REPORT (cid, b, c)) [m0; m1; m2] t (TrimStr u) s e []).
Definition SReport_ToResponse (r : sreport) (code : Z) : srsp := SRsp (SHead 29 (RESP + SG_REPORT) (sh_seq (st_h r))) (u8 code).
