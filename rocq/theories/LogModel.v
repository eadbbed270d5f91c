(** * LogModel: what is written to the log about packets.
    The Log methods of codec/cmpp, codec/sgip and codec/smgp, the String methods they use, and the
    lines the server writes while it handles a login or a submit.
    A log field (github.com/hrygo/log, a wrapper of zap) is a key and a value; how the library
    renders it is not modelled.  The texts of the status tables (cmpp/connect.go:236,
    cmpp/submit.go:368, cmpp/delivery.go:317, sgip/variables.go:80, smgp/variables.go:117) are the
    parameter [names], which StatusModel fills in. *)
From Coq Require Import String.
From Verif Require Import Base UtilsModel OptionsModel TlvModel CmppModel SgipModel SmgpModel FrameModel ServerModel.
Local Open Scope string_scope.
Local Open Scope list_scope.
Local Open Scope Z_scope.

Inductive fval := FS (s : bytes) | FN (n : Z).
Definition field := (string * fval)%type.
Fixpoint ascii_bytes (s : string) : bytes :=
  match s with EmptyString => [] | String c r => Z.of_nat (Ascii.nat_of_ascii c) :: ascii_bytes r end.
(** log.Int8 of int8(x) *)
Definition i8 (x : Z) : Z := let y := u8 x in if y <? 128 then y else y - 256.

(** ** Formatting *)
(** fmt %x of an unsigned number: no leading zeros *)
Fixpoint hexnum_fuel (fuel : nat) (n : Z) : bytes :=
  match fuel with
  | O => []
  | S k => if n <? 16 then [hexd n] else hexnum_fuel k (n / 16) ++ [hexd (n mod 16)]
  end.
Definition hexnum (n : Z) : bytes := hexnum_fuel 16 n.
(** fmt %-ws: filled with spaces to [w] characters (fmt counts runes) *)
Definition pad_right (w : Z) (s : bytes) : bytes := s ++ repeat 32 (Z.to_nat (w - zlen (runes s))).
(** hex.EncodeToString([]byte{byte(v)}) *)
Definition hex1 (v : Z) : bytes := hex_bytes [u8 v].
(** "%d: %s" of a status and its name: cmpp/connect.go:232-234, submit.go:364-366,
    delivery.go:313-315, sgip/variables.go:76-78, smgp/variables.go:113-115 *)
Definition status_String (names : Z -> bytes) (s : Z) : bytes := FormatInt s ++ [58; 32] ++ names s.
(** The content shown: hex.EncodeToString(content[:l]) + "..." with l = min(len, 6)
    (cmpp/submit.go:326-330, cmpp/delivery.go:197-207, sgip/submit.go:256-260, sgip/deliver.go:110-114,
    smgp/submit.go:250-254, smgp/deliver.go:188-198) *)
Definition shown (content : bytes) : res bytes :=
  let l := zlen content in
  let l := if 6 <? l then 6 else l in
  b <- slice content 0 l ;; Ok (hex_bytes b ++ [46; 46; 46]).

(** ** Headers *)
(** codec/cmpp/header.go:35-41, codec/smgp/header.go:36-42 Log *)
Definition head_Log (p : proto) (h : chead) : list field :=
  [("pkl", FN (h_len h)); ("op", FS (ascii_bytes (cmd_String p (h_cmd h)))); ("seq", FN (h_seq h))].
(** fmt %010d%010d%08x of three uint32 (codec/sgip/header.go:47, report.go:87) *)
Definition seq12 (a b c : Z) : bytes := TimeStamp2Str a ++ TimeStamp2Str b ++ Uint32HexString c.
(** codec/sgip/header.go:42-49 Log *)
Definition shead_Log (h : shead) : list field :=
  let '(a, b, c) := sh_seq h in
  [("pkl", FN (sh_len h)); ("op", FS (ascii_bytes (cmd_String P_SGIP (sh_cmd h))));
   ("seq", FN (Sequence2Uint64 (sh_seq h))); ("seq_12", FS (seq12 a b c))].

(** ** Logins *)
(** codec/cmpp/connect.go:81-89 Connect.Log *)
Definition Connect_Log (c : connect) : list field :=
  head_Log P_CMPP (cn_h c) ++
  [("clientID", FS (cn_sourceAddr c)); ("authenticatorSource", FS (hex_bytes (cn_auth c)));
   ("version", FS (hex1 (cn_version c))); ("timestamp", FS (TimeStamp2Str (cn_timestamp c)))].
(** codec/cmpp/connect.go:190-197 ConnectResp.Log *)
Definition ConnectResp_Log (names : Z -> bytes) (r : connect_resp) : list field :=
  head_Log P_CMPP (cr_h r) ++
  [("status", FS (status_String names (cr_status r))); ("authenticatorISMG", FS (hex_bytes (cr_auth r)));
   ("version", FS (hex1 (cr_version r)))].
(** codec/sgip/bind.go:84-91 Bind.Log *)
Definition Bind_Log (b : bindp) : list field :=
  shead_Log (bd_h b) ++
  [("loginType", FN (i8 (bd_type b))); ("loginName", FS (bd_name b)); ("loginPassword", FS [42;42;42;42;42;42])].
(** codec/sgip/bind.go:120-123, submit.go:320-323, deliver.go:160-163, report.go:129-132 Log *)
Definition srsp_Log (names : Z -> bytes) (r : srsp) : list field :=
  shead_Log (sr_h r) ++ [("status", FS (status_String names (sr_status r)))].
(** codec/smgp/login.go:141-150 Login.Log *)
Definition Login_Log (l : login) : list field :=
  head_Log P_SMGP (lg_h l) ++
  [("clientID", FS (lg_clientID l)); ("authenticatorSource", FS (hex_bytes (lg_auth l)));
   ("loginMode", FN (i8 (lg_mode l))); ("timestamp", FS (TimeStamp2Str (lg_timestamp l)));
   ("version", FS (hex1 (lg_version l)))].
(** codec/smgp/login.go:184-191 LoginRsp.Log *)
Definition LoginRsp_Log (names : Z -> bytes) (r : login_rsp) : list field :=
  head_Log P_SMGP (lr_h r) ++
  [("status", FS (status_String names (lr_status r))); ("authenticatorISMG", FS (hex_bytes (lr_auth r)));
   ("version", FS (hex1 (lr_version r)))].

(** ** Submits *)
(** codec/cmpp/submit.go:321-358 Submit.Log *)
Definition Submit_Log (s : submit) : res (list field) :=
  let pl := if is_v3 (sb_version s) then 32 else 21 in
  msg <- shown (sb_msgContent s) ;;
  ids <- Bytes2StringSlice (sb_termIds s) pl ;;
  Ok (head_Log P_CMPP (sb_h s) ++
    [("spNumber", FS (sb_srcId s)); ("clientId", FS (sb_msgSrc s)); ("priority", FN (sb_msgLevel s));
     ("serviceId", FS (sb_serviceId s)); ("needReport", FN (sb_registeredDel s));
     ("validTime", FS (sb_validTime s)); ("atTime", FS (sb_atTime s)); ("userCount", FN (sb_destUsrTl s));
     ("userNumber", FS (join_comma ids)); ("msgFormat", FN (sb_msgFmt s)); ("msgLength", FN (sb_msgLength s));
     ("msgContent", FS msg); ("feeUsertype", FN (sb_feeUsertype s)); ("feeTerminalId", FS (sb_feeTerminalId s));
     ("feeTerminalType", FN (sb_feeTerminalType s)); ("feeType", FS (sb_feeType s)); ("feeCode", FS (sb_feeCode s));
     ("tpPid", FN (sb_tpPid s)); ("tpUdhi", FN (sb_tpUdhi s)); ("pkTotal", FN (sb_pkTotal s));
     ("pkNumber", FN (sb_pkNumber s)); ("linkID", FS (sb_linkID s)); ("version", FS (hex1 (sb_version s)))]).
(** codec/sgip/submit.go:254-284 Submit.Log *)
Definition SSubmit_Log (s : ssubmit) : res (list field) :=
  msg <- shown (ss_Content s) ;;
  Ok (shead_Log (ss_h s) ++
    [("spNumber", FS (ss_SPNumber s)); ("clientId", FS (ss_CorpId s)); ("priority", FN (ss_Priority s));
     ("needReport", FN (ss_ReportFlag s)); ("serviceId", FS (ss_ServiceType s)); ("validTime", FS (ss_ExpireTime s));
     ("atTime", FS (ss_ScheduleTime s)); ("userCount", FN (ss_UserCount s));
     ("userNumber", FS (join_comma (ss_UserNumber s))); ("msgType", FN (ss_MessageType s));
     ("msgFormat", FN (ss_Coding s)); ("msgLength", FN (ss_MessageLength s)); ("msgContent", FS msg);
     ("tpPid", FN (ss_TpPid s)); ("tpUdhi", FN (ss_TpUdhi s)); ("chargeNumber", FS (ss_ChargeNumber s));
     ("feeType", FN (ss_FeeType s)); ("feeValue", FS (ss_FeeValue s)); ("givenValue", FS (ss_GivenValue s));
     ("agentFlag", FN (ss_AgentFlag s)); ("morelatetoMTFlag", FN (ss_Morelate s))]).
(** utils/tlv.go:40-42 object.String; %#x of no bytes prints nothing *)
Definition tlv_String (t : tlv) : bytes :=
  ascii_bytes "{tag: " ++ hexnum (t_typ t) ++ ascii_bytes ", len: " ++ FormatInt (t_len t) ++ ascii_bytes ", val: " ++
  match t_val t with [] => [] | v => ascii_bytes "0x" ++ hex_bytes v end ++ ascii_bytes "}".
(** utils/tlv.go:254-268 TlvList.String; [None] = nil list *)
Definition tlvs_String (l : option (list tlv)) : bytes :=
  match l with
  | None => ascii_bytes "[]"
  | Some l => ascii_bytes "[" ++ flat_map (fun t => tlv_String t ++ [44]) l ++ ascii_bytes "]"
  end.
(** codec/smgp/submit.go:248-275 Submit.Log *)
Definition MSubmit_Log (s : msubmit) : res (list field) :=
  msg <- shown (ms_content s) ;;
  Ok (head_Log P_SMGP (ms_h s) ++
    [("spNumber", FS (ms_srcTermID s)); ("priority", FN (ms_priority s)); ("serviceId", FS (ms_serviceID s));
     ("needReport", FN (ms_needReport s)); ("validTime", FS (ms_validTime s)); ("atTime", FS (ms_atTime s));
     ("userCount", FN (ms_count s)); ("userNumber", FS (join_comma (ms_destTermID s))); ("msgType", FN (ms_msgType s));
     ("msgFormat", FN (ms_msgFormat s)); ("msgLength", FN (ms_msgLength s)); ("msgContent", FS msg);
     ("feeType", FS (ms_feeType s)); ("feeCode", FS (ms_feeCode s)); ("fixedFee", FS (ms_fixedFee s));
     ("chargeTermID", FS (ms_chargeTermID s)); ("version", FS (hex1 (ms_version s)));
     ("tlv", FS (tlvs_String (ms_tlv s)))]).
(** codec/cmpp/submit.go:311-319, delivery.go:297-305 SubmitRsp.Log, DeliveryRsp.Log *)
Definition cresp_Log (names : Z -> bytes) (r : cresp) : list field :=
  head_Log P_CMPP (rs_h r) ++
  [("version", FS (hex1 (rs_version r))); ("msgId", FS (Uint64HexString (rs_msgId r)));
   ("status", FS (status_String names (rs_result r)))].
(** codec/smgp/submit.go:277-285, deliver.go:228-236 SubmitRsp.Log, DeliverRsp.Log *)
Definition mresp_Log (names : Z -> bytes) (r : mresp) : list field :=
  head_Log P_SMGP (mr_h r) ++
  [("version", FS (hex1 (mr_version r))); ("msgId", FS (hex_bytes (mr_msgId r)));
   ("status", FS (status_String names (mr_status r)))].

(** ** Deliveries *)
(** codec/cmpp/report.go:20-22 Report.String *)
Definition creport_String (r : creport) : bytes :=
  hexnum (rp_msgId r) ++ [32] ++ pad_right 7 (rp_stat r) ++ [32] ++ pad_right 10 (rp_submitTime r) ++ [32] ++
  pad_right 10 (rp_doneTime r) ++ [32] ++ pad_right 21 (rp_destTerminalId r) ++ [32] ++ FormatInt (rp_smscSequence r).
(** codec/cmpp/delivery.go:186-209 Delivery.Log; String of a nil report panics *)
Definition Delivery_Log (d : delivery) : res (list field) :=
  msg <- (if dl_registeredDelivery d =? 1
          then match dl_report d with Some r => Ok (creport_String r) | None => Panic end
          else shown (dl_msgContent d)) ;;
  Ok (head_Log P_CMPP (dl_h d) ++
    [("version", FS (hex1 (dl_version d))); ("msgId", FS (Uint64HexString (dl_msgId d)));
     ("isReport", FN (dl_registeredDelivery d)); ("msgFmt", FN (dl_msgFmt d)); ("msgLength", FN (dl_msgLength d));
     ("destId", FS (dl_destId d)); ("serviceId", FS (dl_serviceId d)); ("srcTerminalType", FN (dl_srcTerminalType d));
     ("srcTerminalId", FS (dl_srcTerminalId d)); ("tpPid", FN (dl_tpPid d)); ("tpUdhi", FN (dl_tpUdhi d));
     ("linkID", FS (dl_linkID d)); ("msgContent", FS msg)]).
(** codec/sgip/deliver.go:108-124 Deliver.Log *)
Definition SDeliver_Log (d : sdeliver) : res (list field) :=
  msg <- shown (sd_Content d) ;;
  Ok (shead_Log (sd_h d) ++
    [("userNumber", FS (sd_UserNumber d)); ("spNumber", FS (sd_SPNumber d)); ("msgFormat", FN (sd_Coding d));
     ("msgLength", FN (sd_MessageLength d)); ("msgContent", FS msg); ("tpPid", FN (sd_TpPid d));
     ("tpUdhi", FN (sd_TpUdhi d))]).
(** codec/smgp/deliver.go:173-200 Delivery.Log; tlvList is never set; String of a nil report panics *)
Definition MDeliver_Log (d : mdeliver) : res (list field) :=
  msg <- (if md_isReport d =? 1
          then match md_report d with Some r => Ok (mreport_String r) | None => Panic end
          else shown (md_content d)) ;;
  Ok (head_Log P_SMGP (md_h d) ++
    [("version", FS (hex1 (md_version d))); ("msgId", FS (hex_bytes (md_msgId d))); ("isReport", FN (md_isReport d));
     ("msgFmt", FN (md_msgFormat d)); ("recvTime", FS (md_recvTime d)); ("srcTermID", FS (md_srcTermID d));
     ("destTermID", FS (md_destTermID d)); ("msgLength", FN (md_msgLength d)); ("reserve", FS (md_reserve d));
     ("tlv", FS (tlvs_String None)); ("msgContent", FS msg)]).
(** codec/sgip/report.go:83-93 Report.Log; the sequence is a slice given by the caller *)
Definition SReport_Log (names : Z -> bytes) (r : sreport) : res (list field) :=
  b <- at_ (st_MtSequence r) 1 ;;
  c <- at_ (st_MtSequence r) 2 ;;
  a <- at_ (st_MtSequence r) 0 ;;
  Ok (shead_Log (st_h r) ++
    [("mt_seq", FN (Z.lor (Z.shiftl b 32) c)); ("mt_seq_12", FS (seq12 a b c)); ("reportType", FN (st_ReportType r));
     ("userNumber", FS (st_UserNumber r)); ("status", FS (status_String names (st_State r)));
     ("errorCode", FN (st_ErrorCode r))]).

(** ** The lines of the server *)
Inductive level := LDebug | LInfo | LWarn | LError.
Record line := Line { ln_level : level; ln_fields : list field }.
(** log_utils.go:47-49 Packet2HexLogStr *)
Definition Packet2HexLogStr (pack : bytes) : field := ("packet", FS (hex_bytes pack)).
(** on_traffic.go:103: every packet that passes the frame check.  [ls] = sc.LogSession() (server
    name, client id, session id, remote address), taken as given; FlatMapLog (log_utils.go:34-44)
    concatenates. *)
Definition traffic_line (p : proto) (ls : list field) (k : packet) : line :=
  Line LDebug (ls ++ [("op", FS (ascii_bytes (cmd_String p (pk_cmd k)))); Packet2HexLogStr (pk_body k)]).
Definition err_field (e : bytes) : field := ("error", FS e).
(** on_traffic.go:149-152 decodeErrorLog *)
Definition decode_error_line (ls : list field) (buff : bytes) : line :=
  Line LError (ls ++ [("op", FS (ascii_bytes "connection_close")); err_field (ascii_bytes "Decode packet body error");
                      Packet2HexLogStr buff]).
(** cmpp_connect.go:30-33, sgip_bind.go:30-33, smgp_login.go:30-33 ("connection_close"); the same
    in cmpp_submit.go:45-48, sgip_submit.go:44-47, smgp_submit.go:46-49 ("drop_message").
    [e] = the pool's error text *)
Definition pool_error_line (what : string) (ls : list field) (e buff : bytes) : line :=
  Line LError (ls ++ [("op", FS (ascii_bytes what)); err_field e; Packet2HexLogStr buff]).

Definition login_Log (l : lreq) : list field :=
  match l with LCmpp c => Connect_Log c | LSgip b => Bind_Log b | LSmgp x => Login_Log x end.
(** login.ToResponse(code).Log() *)
Definition answer_Log (md5 : bytes -> bytes) (names : Z -> bytes) (l : lreq) (code : Z) : list field :=
  match l with
  | LCmpp c => ConnectResp_Log names (Connect_ToResponse md5 c code)
  | LSgip b => srsp_Log names (Bind_ToResponse b code)
  | LSmgp x => LoginRsp_Log names (Login_ToResponse md5 x code)
  end.
(** cmpp/connect.go:105-106, smgp/login.go:106-107: two debug lines (the format's text is dropped,
    the printed digest is the field's value) *)
Definition check_lines (md5 : bytes -> bytes) (l : lreq) (ac : option authconf) : list line :=
  match l, ac with
  | LCmpp c, Some a =>
    if negb (major_match (cn_version c) (ac_Version a)) then []
    else [Line LDebug [("input", FS (hex_bytes (cn_auth c)))];
          Line LDebug [("compute", FS (hex_bytes (md5 (ac_ClientId a ++ zeros 9 ++ ac_SharedSecret a ++ TimeStamp2Str (cn_timestamp c)))))]]
  | LSmgp x, Some a =>
    if negb (major_match (lg_version x) (ac_Version a)) then []
    else [Line LDebug [("input", FS (hex_bytes (lg_auth x)))];
          Line LDebug [("compute", FS (hex_bytes (md5 (ac_ClientId a ++ zeros 7 ++ ac_SharedSecret a ++ TimeStamp2Str (lg_timestamp x)))))]]
  | _, _ => []
  end.
(** All lines of one login packet: DecodeAndCheckHeader, the handler and handleCmppConnect /
    handleSgipBind / handleSmgpLogin (cmpp_connect.go:13-79, sgip_bind.go:13-79,
    smgp_login.go:13-79).  [ls], [ls'] = LogSession before and after; [pool] = None if the pool
    accepts, otherwise its error text; [over] = the limit of connections is reached; [sent] says
    whether the answer's write callback runs. *)
Definition login_lines (p : proto) (md5 : bytes -> bytes) (names : Z -> bytes) (find : bytes -> option authconf)
    (ls ls' : list field) (pool : option bytes) (over sent : bool) (k : packet) : res (list line) :=
  match decode_login p k with
  | Panic => Panic
  | Err _ => Ok [traffic_line p ls k; decode_error_line ls (pk_body k)]
  | Ok l =>
    match pool with
    | Some e => Ok [traffic_line p ls k; pool_error_line "connection_close" ls e (pk_body k)]
    | None =>
      let ac := find (login_key l) in
      let '(code0, l1) := login_check md5 l ac in
      let code := if (code0 =? 0) && over then over_code p else code0 in
      Ok (traffic_line p ls k :: Line LInfo (ls ++ login_Log l) :: check_lines md5 l ac ++
          (if sent then [Line LInfo (ls' ++ answer_Log md5 names l1 code)] else []))
    end
  end.

Definition request_Log (r : request) : res (list field) :=
  match r with QCmpp s => Submit_Log s | QSgip s => SSubmit_Log s | QSmgp s => MSubmit_Log s end.
Definition reply_Log (names : Z -> bytes) (a : reply) : list field :=
  match a with ACmpp r => cresp_Log names r | ASgip r => srsp_Log names r | ASmgp r => mresp_Log names r end.
(** The lines of one submit packet of a logged-in session that the limiter lets through
    (cmpp_submit.go:17-91, sgip_submit.go:17-82, smgp_submit.go:19-93 and on_traffic.go:124-138),
    without the report simulated afterwards: the debug line of the frame check, then the pool's
    refusal or the request and (if its callback runs) the answer [a].  Log is called before the
    answer is made, whatever the log level. *)
Definition submit_lines (pr : params) (ver : Z) (names : Z -> bytes) (ls : list field) (pool : option bytes)
    (sent : option reply) (k : packet) : res (list line) :=
  match decode_submit pr ver k with
  | Panic => Panic
  | Err _ => Ok [traffic_line (pr_p pr) ls k; decode_error_line ls (pk_body k)]
  | Ok r =>
    match pool with
    | Some e => Ok [traffic_line (pr_p pr) ls k; pool_error_line "drop_message" ls e (pk_body k)]
    | None =>
      f <- request_Log r ;;
      Ok (traffic_line (pr_p pr) ls k :: Line LDebug (ls ++ f) ::
          match sent with Some a => [Line LDebug (ls ++ reply_Log names a)] | None => [] end)
    end
  end.

(** msc_client/session/session.go:167-196 login: the line "Send login to": Log of the pdu the
    account makes ([sq] = codec.B32Seq.NextVal(), [q] = the SGIP sequence, [ts], [tsn] = the clock) *)
Definition client_login_line (p : proto) (md5 : bytes -> bytes) (ac : authconf) (q : seq3) (sq : Z) (ts : bytes) (tsn : Z) : line :=
  Line LInfo match p with
             | P_SGIP => Bind_Log (NewBind ac 1 q)
             | P_CMPP => Connect_Log (NewConnect md5 ac (u32 sq) ts tsn)
             | P_SMGP => Login_Log (NewLogin md5 ac (u32 sq) ts tsn)
             end.
