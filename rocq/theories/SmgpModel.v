(** * SmgpModel: /repo/codec/smgp/.
    The header (codec/smgp/header.go:12-34) has the fields of the CMPP header, so its record is
    CmppModel's [chead].
    GB18030 is the library golang.org/x/text: [gbe], [gbd] stand for GbEncoder.Bytes/String and
    GbDecoder.Bytes, [None] for an error.  Decoders get a buffer of capacity = length. *)
From Verif Require Import Base UtilsModel OptionsModel TlvModel CmppModel.

(** codec/smgp/header.go:18-27 Encode; the bumped length is what login.go sees afterwards. *)
Definition smhead_len (h : chead) : Z := if h_len h <? 12 then 12 else h_len h.
Definition smhead_Encode (h : chead) : res bytes :=
  let n := smhead_len h in
  let f := zeros n in
  f <- put_be 4 f 0 4 n ;;
  f <- put_be 4 f 4 8 (h_cmd h) ;;
  put_be 4 f 8 12 (h_seq h).
(** codec/smgp/header.go:29-34 Decode *)
Definition smhead_Decode (f : bytes) : res chead :=
  l <- get_be 4 f 0 4 ;;
  c <- get_be 4 f 4 8 ;;
  s <- get_be 4 f 8 12 ;;
  Ok (CHead l c s).

(** codec/smgp/variables.go:67-77 *)
Definition SM_LOGIN := 1. Definition SM_SUBMIT := 2. Definition SM_DELIVER := 3.
Definition SM_ACTIVE_TEST := 4. Definition SM_EXIT := 6.

(** ** login.go *)
Record login := Login {
  lg_h : chead; lg_clientID : bytes; lg_auth : bytes; lg_mode : Z; lg_timestamp : Z; lg_version : Z;
  lg_secret : bytes }.
Record login_rsp := LoginRsp { lr_h : chead; lr_status : Z; lr_auth : bytes; lr_version : Z }.
(** codec/smgp/login.go:40-58 NewLogin; [ts], [tsn] = utils.Now() *)
Definition NewLogin (md5 : bytes -> bytes) (ac : authconf) (seq : Z) (ts : bytes) (tsn : Z) : login :=
  Login (CHead 42 SM_LOGIN seq) (ac_ClientId ac)
    (md5 (ac_ClientId ac ++ zeros 7 ++ ac_SharedSecret ac ++ ts)) 2 tsn (ac_Version ac) [].
(** codec/smgp/login.go:60-70 Encode *)
Definition Login_Encode (l : login) : res bytes :=
  f <- smhead_Encode (lg_h l) ;;
  if (zlen f =? 42) && (smhead_len (lg_h l) =? 42) then
    f <- copy_at f 12 20 (lg_clientID l) ;;
    f <- copy_at f 20 36 (lg_auth l) ;;
    f <- set_at f 36 (lg_mode l) ;;
    f <- put_be 4 f 37 41 (lg_timestamp l) ;;
    set_at f 41 (lg_version l)
  else Ok f.
(** codec/smgp/login.go:72-82 Decode: the client id keeps its padding *)
Definition Login_Decode (seq : Z) (f : bytes) : res login :=
  c <- slice f 0 8 ;;
  a <- slice f 8 24 ;;
  m <- at_ f 24 ;;
  t <- get_be 4 f 25 29 ;;
  v <- at_ f 29 ;;
  Ok (Login (CHead (12 + zlen f) SM_LOGIN seq) c a m t v []).
(** codec/smgp/login.go:89-115 Check: status and the request (secret set when accepted) *)
Definition Login_Check (md5 : bytes -> bytes) (l : login) (ac : option authconf) : Z * login :=
  match ac with
  | None => (69, l)
  | Some ac =>
    if negb (major_match (lg_version l) (ac_Version ac)) then (22, l)
    else
      let m := md5 (ac_ClientId ac ++ zeros 7 ++ ac_SharedSecret ac ++ TimeStamp2Str (lg_timestamp l)) in
      if beqb (lg_auth l) m
      then (0, Login (lg_h l) (lg_clientID l) (lg_auth l) (lg_mode l) (lg_timestamp l) (lg_version l) (ac_SharedSecret ac))
      else (21, l)
  end.
(** codec/smgp/login.go:117-135 ToResponse (code is a uint32, as is Status) *)
Definition Login_ToResponse (md5 : bytes -> bytes) (l : login) (code : Z) : login_rsp :=
  LoginRsp (CHead 33 (RESP + SM_LOGIN) (h_seq (lg_h l))) code
    (if code =? 0 then md5 ([u8 code] ++ lg_clientID l ++ lg_secret l) else zeros 16) (lg_version l).
(** codec/smgp/login.go:152-164 LoginRsp.Encode *)
Definition LoginRsp_Encode (r : login_rsp) : res bytes :=
  f <- smhead_Encode (lr_h r) ;;
  if zlen f =? smhead_len (lr_h r) then
    f <- put_be 4 f 12 16 (lr_status r) ;;
    f <- copy_at f 16 32 (lr_auth r) ;;
    set_at f 32 (lr_version r)
  else Ok f.
(** codec/smgp/login.go:166-177 LoginRsp.Decode *)
Definition LoginRsp_Decode (seq : Z) (f : bytes) : res login_rsp :=
  s <- get_be 4 f 0 4 ;;
  a <- slice f 4 20 ;;
  v <- at_ f 20 ;;
  Ok (LoginRsp (CHead (12 + zlen f) (RESP + SM_LOGIN) seq) s a v).

(** ** active.go, exit.go: header-only packets *)
(** codec/smgp/active.go:12-15, exit.go:12-15 *)
Definition sm_bare (cmd seq : Z) : chead := CHead 12 cmd seq.
(** codec/smgp/active.go:21-26 & 48-53, exit.go:21-26 & 48-53 Decode: the body is ignored *)
Definition sm_bare_Decode (cmd seq : Z) (f : bytes) : res chead := Ok (CHead 12 cmd seq).
(** codec/smgp/active.go:28-34, exit.go:28-34 ToResponse *)
Definition sm_bare_ToResponse (cmd : Z) (h : chead) : chead := CHead (h_len h) (RESP + cmd) (h_seq h).

(** ** submit.go *)
Record msubmit := MSubmit {
  ms_h : chead; ms_msgType : Z; ms_needReport : Z; ms_priority : Z; ms_serviceID : bytes; ms_feeType : bytes;
  ms_feeCode : bytes; ms_fixedFee : bytes; ms_msgFormat : Z; ms_validTime : bytes; ms_atTime : bytes;
  ms_srcTermID : bytes; ms_chargeTermID : bytes; ms_count : Z; ms_destTermID : list bytes; ms_msgLength : Z;
  ms_content : bytes; ms_reserve : bytes; ms_tlv : option (list tlv); ms_version : Z }.

(** codec/smgp/submit.go:53-78 with SetOptions 367-401 inlined: the fields common to all parts.
    [now] = utils.FormatTime(time.Now()) (line 395 overwrites every other choice, and line 393
    drops the result of Add). *)
Definition sm_opt (o a : Z) : Z := if o =? 0 then a else o.
Definition sm_base (ac : authconf) (phones : list bytes) (seq : Z) (o : mtopts) (now : bytes)
    (len msgLength : Z) (content : bytes) (tl : option (list tlv)) : msubmit :=
  MSubmit (CHead len SM_SUBMIT seq) 6 (sm_opt (o_NeedReport o) (ac_NeedReport ac))
    (sm_opt (o_MsgLevel o) (ac_DefaultMsgLevel ac)) (opt_txt (o_ServiceId o) (ac_ServiceId ac))
    (ac_FeeType ac) (ac_FeeCode ac) (ac_FixedFee ac) 15 now (o_AtTime o)
    (match o_SpSubNo o with [] => ac_SmsDisplayNo ac | s => ac_SmsDisplayNo ac ++ s end)
    (ac_FeeTerminalId ac) (u8 (zlen phones)) phones msgLength content [] tl (ac_Version ac).
(** codec/smgp/submit.go:81-102; [total] = len(slices), [nxt i] = the sequence drawn for part i *)
Definition sm_tlvs (total i : Z) : list tlv :=
  TlvAdd 10 [u8 i] (TlvAdd 9 [u8 total] (TlvAdd 2 [1] (TlvAdd 1 [0] []))).
Fixpoint sm_parts (mk : Z -> Z -> Z -> bytes -> option (list tlv) -> msubmit) (phones total : Z)
    (seq : Z) (nxt : Z -> Z) (i : Z) (parts : list bytes) : list msubmit :=
  match parts with
  | [] => []
  | b :: r =>
    mk (if i =? 0 then seq else u32 (nxt i)) (u32 (126 + phones * 21 + u8 (zlen b) + 20)) (u8 (zlen b)) b
       (Some (sm_tlvs total i))
    :: sm_parts mk phones total seq nxt (i + 1) r
  end.
(** codec/smgp/submit.go:53-105 NewSubmit; nil on an encoding error *)
Definition smgp_NewSubmit (gbe : bytes -> option bytes) (ac : authconf) (phones : list bytes) (content : bytes)
    (seq : Z) (ops : list mtopt) (now : bytes) (g : Z) (nxt : Z -> Z) : res (list msubmit) :=
  let o := LoadMtOptions ops in
  match gbe content with
  | None => Ok []
  | Some data =>
    parts <- ToTPUDHISlices g data 140 ;;
    match parts with
    | [b] => Ok [sm_base ac phones seq o now (u32 (126 + zlen phones * 21 + u8 (zlen b))) (u8 (zlen b)) b None]
    | _ => Ok (sm_parts (fun q len ml b tl => sm_base ac phones q o now len ml b tl) (zlen phones) (zlen parts) seq nxt 0 parts)
    end
  end.

(** codec/smgp/submit.go:126-128 *)
Fixpoint put_terms (f : bytes) (index : Z) (l : list bytes) : res (bytes * Z) :=
  match l with
  | [] => Ok (f, index)
  | p :: r => f <- copy_at f index (index + 21) p ;; put_terms f (index + 21) r
  end.
(** codec/smgp/submit.go:107-144 Encode; nil is [] *)
Definition MSubmit_Encode (s : msubmit) : res bytes :=
  if negb (zlen (ms_destTermID s) =? ms_count s) then Ok [] else
  f <- smhead_Encode (ms_h s) ;;
  f <- set_at f 12 (ms_msgType s) ;;
  f <- set_at f 13 (ms_needReport s) ;;
  f <- set_at f 14 (ms_priority s) ;;
  f <- copy_at f 15 25 (ms_serviceID s) ;;
  f <- copy_at f 25 27 (ms_feeType s) ;;
  f <- copy_at f 27 33 (ms_feeCode s) ;;
  f <- copy_at f 33 39 (ms_fixedFee s) ;;
  f <- set_at f 39 (ms_msgFormat s) ;;
  f <- copy_at f 40 57 (ms_validTime s) ;;
  f <- copy_at f 57 74 (ms_atTime s) ;;
  f <- copy_at f 74 95 (ms_srcTermID s) ;;
  f <- copy_at f 95 116 (ms_chargeTermID s) ;;
  f <- set_at f 116 (ms_count s) ;;
  '(f, index) <- put_terms f 117 (ms_destTermID s) ;;
  f <- set_at f index (ms_msgLength s) ;;
  let index := index + 1 in
  f <- copy_at f index (index + ms_msgLength s) (ms_content s) ;;
  let index := index + ms_msgLength s in
  f <- copy_at f index (index + 8) (ms_reserve s) ;;
  let index := index + 8 in
  match ms_tlv s with
  | None => Ok f
  | Some tl =>
    match TlvWrite tl with
    | (b, None) => copy_at f index (zlen f) b
    | (_, Some _) => Ok []
    end
  end.

(** codec/smgp/submit.go:178-181 *)
Fixpoint get_terms (f : bytes) (index : Z) (n : nat) : res (list bytes * Z) :=
  match n with
  | O => Ok ([], index)
  | S k => p <- slice f index (index + 21) ;;
           '(r, i) <- get_terms f (index + 21) k ;;
           Ok (TrimStr p :: r, i)
  end.
(** codec/smgp/submit.go:185-187: the long-message header is cut off, nothing is transcoded *)
Definition cut_udh (content : bytes) : res bytes :=
  b0 <- at_ content 0 ;;
  if b0 =? 5 then
    b1 <- at_ content 1 ;;
    if b1 =? 0 then
      b2 <- at_ content 2 ;;
      if b2 =? 3 then slice content 6 (zlen content) else Ok content
    else Ok content
  else Ok content.
Definition of_opt (o : option bytes) : bytes := match o with Some b => b | None => [] end.
(** codec/smgp/submit.go:146-198 Decode; [ver] = Version of the object.  Line 189 drops the
    error (nil content); line 193 compares the body offset with the packet length. *)
Definition MSubmit_Decode (gbd : bytes -> option bytes) (ver seq : Z) (f : bytes) : res msubmit :=
  let len := 12 + zlen f in
  mt <- at_ f 0 ;;
  nr <- at_ f 1 ;;
  pr <- at_ f 2 ;;
  sid <- slice f 3 13 ;;
  ft <- slice f 13 15 ;;
  fc <- slice f 15 21 ;;
  ff <- slice f 21 27 ;;
  mf <- at_ f 27 ;;
  vt <- slice f 28 45 ;;
  att <- slice f 45 62 ;;
  src <- slice f 62 83 ;;
  ch <- slice f 83 104 ;;
  n <- at_ f 104 ;;
  '(dst, index) <- get_terms f 105 (Z.to_nat n) ;;
  ml <- at_ f index ;;
  let index := index + 1 in
  content <- slice f index (index + ml) ;;
  content <- cut_udh content ;;
  let index := index + ml in
  rs <- slice f index (index + 8) ;;
  let index := index + 8 in
  tl <- (if index + 5 <? len then b <- slice f index (zlen f) ;; Ok (Some (fst (TlvRead b))) else Ok None) ;;
  Ok (MSubmit (CHead len SM_SUBMIT seq) mt nr pr (TrimStr sid) (TrimStr ft) (TrimStr fc) (TrimStr ff) mf (TrimStr vt)
        (TrimStr att) (TrimStr src) (TrimStr ch) n dst ml (of_opt (gbd content)) (TrimStr rs) tl ver).

(** SubmitRsp (submit.go:42-49) and DeliverRsp (deliver.go:35-42) *)
Record mresp := MResp { mr_h : chead; mr_msgId : bytes; mr_status : Z; mr_version : Z }.
(** codec/smgp/submit.go:200-208 ToResponse; [id] = codec.BcdSeq.NextVal() *)
Definition MSubmit_ToResponse (s : msubmit) (code : Z) (id : bytes) : mresp :=
  MResp (CHead 26 (RESP + SM_SUBMIT) (h_seq (ms_h s))) id code (ms_version s).
(** codec/smgp/submit.go:225-232, deliver.go:205-212 Encode *)
Definition mresp_Encode (r : mresp) : res bytes :=
  f <- smhead_Encode (mr_h r) ;;
  f <- copy_at f 12 22 (mr_msgId r) ;;
  put_be 4 f 22 26 (mr_status r).
(** codec/smgp/submit.go:234-242, deliver.go:214-222 Decode *)
Definition mresp_Decode (cmd ver seq : Z) (f : bytes) : res mresp :=
  i <- slice f 0 10 ;;
  s <- get_be 4 f 10 14 ;;
  Ok (MResp (CHead (12 + zlen f) cmd seq) i s ver).

(** ** report.go *)
Record mreport := MReport {
  mp_id : bytes; mp_sub : bytes; mp_dlvrd : bytes; mp_submitDate : bytes; mp_doneDate : bytes; mp_stat : bytes;
  mp_err : bytes; mp_txt : bytes }.
(** fmt %x of bytes *)
Definition hexd (d : Z) : Z := if d <? 10 then 48 + d else 87 + d.
Definition hex_bytes (b : bytes) : bytes := flat_map (fun x => [hexd (x / 16); hexd (x mod 16)]) b.
(** The literals of codec/smgp/report.go:67-70 *)
Definition L_id := [105;100;58]. (* "id:" *)
Definition L_sub := [32;115;117;98;58]. (* " sub:" *)
Definition L_dlvrd := [32;100;108;118;114;100;58]. (* " dlvrd:" *)
Definition L_submit := [32;115;117;98;109;105;116;32;100;97;116;101;58]. (* " submit date:" *)
Definition L_done := [32;100;111;110;101;32;100;97;116;101;58]. (* " done date:" *)
Definition L_stat := [32;115;116;97;116;58]. (* " stat:" *)
Definition L_err := [32;101;114;114;58]. (* " err:" *)
Definition L_text := [32;116;101;120;116;58]. (* " text:" *)
(** codec/smgp/report.go:67-70 String *)
Definition mreport_String (r : mreport) : bytes :=
  L_id ++ hex_bytes (mp_id r) ++ L_sub ++ mp_sub r ++ L_dlvrd ++ mp_dlvrd r ++ L_submit ++ mp_submitDate r ++
  L_done ++ mp_doneDate r ++ L_stat ++ mp_stat r ++ L_err ++ mp_err r ++ L_text ++ hex_bytes (mp_txt r).
(** codec/smgp/report.go:19 RptLen *)
Definition RptLen := 122.
(** codec/smgp/report.go:72-83 Encode *)
Definition mreport_Encode (r : mreport) : res bytes :=
  f <- copy_at (zeros RptLen) 0 3 L_id ;;
  f <- copy_at f 3 13 (mp_id r) ;;
  let str := mreport_String r in
  rest <- slice str 23 (zlen str) ;;
  copy_at f 13 (RptLen - 20) rest.
(** codec/smgp/report.go:85-113 Decode *)
Definition mreport_Decode (f : bytes) : res mreport :=
  id <- slice f 3 13 ;;
  sub <- slice f 18 21 ;;
  dlv <- slice f 28 31 ;;
  sd <- slice f 44 54 ;;
  dd <- slice f 65 75 ;;
  st <- slice f 81 88 ;;
  er <- slice f 93 96 ;;
  Ok (MReport id sub dlv sd dd st er []).
(** codec/smgp/report.go:21-65, 139-152 NewReport; [sec] = time.Now().Unix(), [d1], [d2] the
    two formatted clock readings. *)
Definition stat_of (e : Z) : bytes :=
  if e =? 0 then [68;69;76;73;86;82;68]            (* DELIVRD *)
  else if (e =? 1) || (e =? 2) || (e =? 7) then [69;88;80;73;82;69;68] (* EXPIRED *)
  else [85;78;68;69;76;73;86].                     (* UNDELIV *)
Definition err_of (sec : Z) : Z := let m := Z.rem sec 1000 in if (1 <=? m) && (m <=? 10) then m else 0.
Definition smgp_NewReport (id : bytes) (sec : Z) (d1 d2 : bytes) : mreport :=
  let e := err_of sec in
  MReport id [48;48;49] [48;48;49] d1 d2 (stat_of e) [48; 48 + e / 10; 48 + e mod 10] [].

(** ** deliver.go *)
Record mdeliver := MDeliver {
  md_h : chead; md_msgId : bytes; md_isReport : Z; md_msgFormat : Z; md_recvTime : bytes; md_srcTermID : bytes;
  md_destTermID : bytes; md_msgLength : Z; md_content : bytes; md_bytes : bytes; md_report : option mreport;
  md_reserve : bytes; md_version : Z }.
(** codec/smgp/deliver.go:56-61: at most 70 characters *)
Definition sub_text (txt : bytes) : bytes :=
  if 70 <? zlen (runes txt) then flat_map encode_rune (firstn 70 (runes txt)) else txt.
(** codec/smgp/deliver.go:44-69 NewDeliver; [id] = BcdSeq.NextVal(), [now] the clock (14
    digits).  An encoding error leaves the content empty (line 62). *)
Definition smgp_NewDeliver (gbe : bytes -> option bytes) (ac : authconf) (phone destNo txt : bytes) (seq : Z)
    (id now : bytes) : mdeliver :=
  let msg := of_opt (gbe (sub_text txt)) in
  MDeliver (CHead (89 + u8 (zlen msg)) SM_DELIVER seq) id 0 15 now phone (ac_SmsDisplayNo ac ++ destNo)
    (u8 (zlen msg)) (sub_text txt) msg None [] (ac_Version ac).
(** codec/smgp/deliver.go:71-86 NewDeliveryReport; panics if the submit has no number *)
Definition smgp_NewDeliveryReport (ac : authconf) (mt : msubmit) (seq : Z) (msgId : bytes) (id now : bytes)
    (sec : Z) (d1 d2 : bytes) : res mdeliver :=
  p <- at_ (ms_destTermID mt) 0 ;;
  Ok (MDeliver (CHead (89 + RptLen) SM_DELIVER seq) id 1 0 now p (ms_srcTermID mt) 115 [] []
        (Some (smgp_NewReport msgId sec d1 d2)) [] (ac_Version ac)).
(** codec/smgp/deliver.go:88-109 Encode *)
Definition MDeliver_Encode (d : mdeliver) : res bytes :=
  f <- smhead_Encode (md_h d) ;;
  f <- copy_at f 12 22 (md_msgId d) ;;
  f <- set_at f 22 (md_isReport d) ;;
  f <- set_at f 23 (md_msgFormat d) ;;
  f <- copy_at f 24 38 (md_recvTime d) ;;
  f <- copy_at f 38 59 (md_srcTermID d) ;;
  f <- copy_at f 59 80 (md_destTermID d) ;;
  f <- set_at f 80 (md_msgLength d) ;;
  '(f, index) <- (match (if md_isReport d =? 1 then md_report d else None) with
                  | Some r => b <- mreport_Encode r ;; f <- copy_at f 81 (81 + RptLen) b ;; Ok (f, 81 + RptLen)
                  | None => f <- copy_at f 81 (81 + md_msgLength d) (md_bytes d) ;; Ok (f, 81 + md_msgLength d)
                  end) ;;
  copy_at f index (index + 8) (md_reserve d).
(** codec/smgp/deliver.go:111-145 Decode; a GB18030 error is returned ([Err]) *)
Definition MDeliver_Decode (gbd : bytes -> option bytes) (ver seq : Z) (f : bytes) : res mdeliver :=
  id <- slice f 0 10 ;;
  ir <- at_ f 10 ;;
  mf <- at_ f 11 ;;
  rt <- slice f 12 26 ;;
  src <- slice f 26 47 ;;
  dst <- slice f 47 68 ;;
  ml <- at_ f 68 ;;
  '(c, rp) <- (if ir =? 1 then
                 b <- slice f 69 (69 + RptLen) ;; r <- mreport_Decode b ;; Ok ([], Some r)
               else
                 b <- slice f 69 (69 + ml) ;;
                 match gbd b with Some t => Ok (t, None) | None => Err 1 end) ;;
  Ok (MDeliver (CHead (12 + zlen f) SM_DELIVER seq) id ir mf (TrimStr rt) (TrimStr src) (TrimStr dst) ml c [] rp [] ver).
(** codec/smgp/deliver.go:147-155 ToResponse: [id] is a freshly drawn BcdSeq value *)
Definition MDeliver_ToResponse (d : mdeliver) (code : Z) (id : bytes) : mresp :=
  MResp (CHead 26 (RESP + SM_DELIVER) (h_seq (md_h d))) id code (md_version d).
