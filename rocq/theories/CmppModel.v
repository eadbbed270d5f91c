(** * CmppModel: /repo/codec/packer.go and /repo/codec/cmpp/.
    Decoders are methods on a freshly allocated object (as every caller allocates it); they
    take the object's Version where the code reads it and return the filled object.  The
    buffer given to a decoder has capacity equal to its length (both callers allocate it with
    make: msc_server/server/on_traffic.go:99, msc_client/session/session.go:139). *)
From Verif Require Import Base UtilsModel OptionsModel.

(** codec/packer.go:44-51 UnpackHead *)
Definition UnpackHead (h : bytes) : res (Z * Z * Z) :=
  if 12 <=? zlen h then
    pkl <- get_be 4 h 0 4 ;;
    cmd <- get_be 4 h 4 8 ;;
    seq <- get_be 4 h 8 12 ;;
    Ok (pkl, cmd, seq)
  else Ok (0, 0, 0).

(** ** header.go *)
Record chead := CHead { h_len : Z; h_cmd : Z; h_seq : Z }.

(** codec/cmpp/header.go:17-26 Encode.  The bumped TotalLength is visible in the frame only;
    callers that look at it again (connect.go:60, 153) see [head_len]. *)
Definition head_len (h : chead) : Z := if h_len h <? 12 then 12 else h_len h.
Definition head_Encode (h : chead) : res bytes :=
  let n := head_len h in
  let f := zeros n in
  f <- put_be 4 f 0 4 n ;;
  f <- put_be 4 f 4 8 (h_cmd h) ;;
  put_be 4 f 8 12 (h_seq h).
(** codec/cmpp/header.go:28-33 Decode *)
Definition head_Decode (f : bytes) : res chead :=
  l <- get_be 4 f 0 4 ;;
  c <- get_be 4 f 4 8 ;;
  s <- get_be 4 f 8 12 ;;
  Ok (CHead l c s).

(** ** variables.go *)
(** codec/cmpp/variables.go:29-37 MajorMatch, MajorMatchV *)
Definition major_match (a b : Z) : bool := Z.land a 240 =? Z.land b 240.
Definition is_v3 (v : Z) : bool := major_match 48 v.
(** codec/cmpp/variables.go:40-54: request ids; responses have bit 31 set. *)
Definition CONNECT := 1. Definition TERMINATE := 2. Definition SUBMIT := 4.
Definition DELIVER := 5. Definition ACTIVE_TEST := 8.
Definition RESP := 2147483648.

(** ** connect.go *)
Record connect := Connect {
  cn_h : chead; cn_sourceAddr : bytes; cn_auth : bytes; cn_version : Z; cn_timestamp : Z;
  cn_secret : bytes }.
Record connect_resp := ConnectResp {
  cr_h : chead; cr_status : Z; cr_auth : bytes; cr_version : Z }.

(** codec/cmpp/connect.go:39-56 NewConnect.  [md5] stands for crypto/md5; [ts],[tsn] are the
    two results of utils.Now (the clock as 10 digits and as a number). *)
Definition NewConnect (md5 : bytes -> bytes) (ac : authconf) (seq : Z) (ts : bytes) (tsn : Z) : connect :=
  Connect (CHead 39 CONNECT seq) (ac_ClientId ac)
    (md5 (ac_ClientId ac ++ zeros 9 ++ ac_SharedSecret ac ++ ts)) (ac_Version ac) tsn [].

(** codec/cmpp/connect.go:58-68 Encode: nil unless the length is 39. *)
Definition Connect_Encode (c : connect) : res bytes :=
  f <- head_Encode (cn_h c) ;;
  if (zlen f =? 39) && (head_len (cn_h c) =? 39) then
    f <- copy_at f 12 18 (cn_sourceAddr c) ;;
    f <- copy_at f 18 34 (cn_auth c) ;;
    f <- set_at f 34 (cn_version c) ;;
    put_be 4 f 35 39 (cn_timestamp c)
  else Ok [].

(** codec/cmpp/connect.go:70-79 Decode *)
Definition Connect_Decode (seq : Z) (f : bytes) : res connect :=
  a <- slice f 0 6 ;;
  au <- slice f 6 22 ;;
  v <- at_ f 22 ;;
  ts <- get_be 4 f 23 27 ;;
  Ok (Connect (CHead 39 CONNECT seq) (TrimStr a) au v ts []).

(** codec/cmpp/connect.go:91-114 Check: the status and the request with its secret set
    (SetSecret) when accepted.  [None] = nil account. *)
Definition Connect_Check (md5 : bytes -> bytes) (c : connect) (ac : option authconf) : Z * connect :=
  match ac with
  | None => (2, c)
  | Some ac =>
    if negb (major_match (cn_version c) (ac_Version ac)) then (4, c)
    else
      let m := md5 (ac_ClientId ac ++ zeros 9 ++ ac_SharedSecret ac ++ TimeStamp2Str (cn_timestamp c)) in
      if beqb (cn_auth c) m
      then (0, Connect (cn_h c) (cn_sourceAddr c) (cn_auth c) (cn_version c) (cn_timestamp c) (ac_SharedSecret ac))
      else (3, c)
  end.

(** codec/cmpp/connect.go:116-146 ToResponse *)
Definition Connect_ToResponse (md5 : bytes -> bytes) (c : connect) (code : Z) : connect_resp :=
  let v3 := is_v3 (cn_version c) in
  let status := u8 code in
  let bs := if v3 then [0; 0; 0; status] else [status] in
  ConnectResp (CHead (if v3 then 33 else 30) (RESP + CONNECT) (h_seq (cn_h c))) status
    (if status =? 0 then md5 (bs ++ cn_sourceAddr c ++ cn_secret c) else zeros 16)
    (cn_version c).

(** codec/cmpp/connect.go:150-167 ConnectResp.Encode *)
Definition ConnectResp_Encode (r : connect_resp) : res bytes :=
  f <- head_Encode (cr_h r) ;;
  if zlen f =? head_len (cr_h r) then
    let index := 12 in
    '(f, index) <- (if is_v3 (cr_version r)
                    then f <- put_be 4 f index (index + 4) (cr_status r) ;; Ok (f, index + 4)
                    else f <- set_at f index (u8 (cr_status r)) ;; Ok (f, index + 1)) ;;
    f <- copy_at f index (index + 16) (cr_auth r) ;;
    let index := index + 16 in
    set_at f index (cr_version r)
  else Ok f.

(** codec/cmpp/connect.go:169-189 ConnectResp.Decode; [ver] = the object's Version before. *)
Definition ConnectResp_Decode (ver seq : Z) (f : bytes) : res connect_resp :=
  let index := if is_v3 ver then 3 else 0 in
  st <- at_ f index ;;
  let index := index + 1 in
  au <- slice f index (index + 16) ;;
  let index := index + 16 in
  v <- at_ f index ;;
  Ok (ConnectResp (CHead (if is_v3 ver then 33 else 30) (RESP + CONNECT) seq) st au v).

(** ** submit.go *)
Record submit := Submit {
  sb_h : chead; sb_msgId : Z; sb_pkTotal : Z; sb_pkNumber : Z; sb_registeredDel : Z; sb_msgLevel : Z;
  sb_serviceId : bytes; sb_feeUsertype : Z; sb_feeTerminalId : bytes; sb_feeTerminalType : Z;
  sb_tpPid : Z; sb_tpUdhi : Z; sb_msgFmt : Z; sb_msgSrc : bytes; sb_feeType : bytes; sb_feeCode : bytes;
  sb_validTime : bytes; sb_atTime : bytes; sb_srcId : bytes; sb_destUsrTl : Z; sb_destTerminalId : bytes;
  sb_termIds : bytes; sb_destTerminalType : Z; sb_msgLength : Z; sb_msgContent : bytes; sb_linkID : bytes;
  sb_version : Z }.

Definition opt_num (o acv : Z) : Z := if negb (o =? 15) then o else acv.
Definition opt_txt (o acv : bytes) : bytes := match o with [] => acv | _ => o end.

(** strings.Join(phones, ",") *)
Fixpoint join_comma (l : list bytes) : bytes :=
  match l with
  | [] => []
  | [x] => x
  | x :: r => x ++ 44 :: join_comma r
  end.

(** codec/cmpp/submit.go:71-73: copy(termIds[i*idLen:(i+1)*idLen], p) for each number. *)
Fixpoint put_ids (idLen : Z) (i : Z) (phones : list bytes) (t : bytes) : res bytes :=
  match phones with
  | [] => Ok t
  | p :: r => t <- copy_at t (i * idLen) ((i + 1) * idLen) p ;; put_ids idLen (i + 1) r t
  end.

(** codec/cmpp/submit.go:52-107 NewSubmit with setOptions 494-565 inlined in the record.
    [validDefault] = FormatTime(now + ac.MtValidDuration), [g] = the clock byte of
    ToTPUDHISlices, [nxt i] = the B32Seq value drawn for part [i] (i > 0). *)
Definition cmpp_part (base : Z) (s0 : submit) (nids total udhi num seq : Z) (content : bytes) : submit :=
  let '(Submit h mid _ _ rd ml si fu fi ft tp _ mf ms fty fc vt atm src du di ti dt _ _ li v) := s0 in
  Submit (CHead (u32 (base + nids + zlen content)) (h_cmd h) seq) mid total num rd ml si fu fi ft tp udhi mf ms
    fty fc vt atm src du di ti dt (u8 (zlen content)) content li v.
Fixpoint cmpp_parts (base : Z) (s0 : submit) (nids total : Z) (nxt : Z -> Z) (i : Z) (parts : list bytes) : list submit :=
  match parts with
  | [] => []
  | b :: r =>
      cmpp_part base s0 nids total 1 (u8 (i + 1)) (if i =? 0 then h_seq (sb_h s0) else nxt i) b
      :: cmpp_parts base s0 nids total nxt (i + 1) r
  end.
Definition NewSubmit (ac : authconf) (phones : list bytes) (content : bytes) (seq : Z) (ops : list mtopt)
    (validDefault : bytes) (g : Z) (nxt : Z -> Z) : res (list submit) :=
  let o := LoadMtOptions ops in
  let v3 := is_v3 (ac_Version ac) in
  let base := if v3 then 163 else 138 in
  let fmt := MsgFmt content in
  let n := u8 (zlen phones) in
  let idLen := if v3 then 32 else 21 in
  ids <- put_ids idLen 0 phones (zeros (idLen * n)) ;;
  let s0 := Submit (CHead base SUBMIT seq) 0 0 0
    (opt_num (o_NeedReport o) (ac_NeedReport ac)) (opt_num (o_MsgLevel o) (ac_DefaultMsgLevel ac))
    (opt_txt (o_ServiceId o) (ac_ServiceId ac)) (opt_num (o_FeeUsertype o) (ac_FeeUserType ac))
    (opt_txt (o_FeeTerminalId o) (ac_FeeTerminalId ac)) (opt_num (o_FeeTerminalType o) (ac_FeeTerminalType ac))
    0 0 fmt (ac_SmsDisplayNo ac) (opt_txt (o_FeeType o) (ac_FeeType ac)) (opt_txt (o_FeeCode o) (ac_FeeCode ac))
    (opt_txt (o_ValidTime o) validDefault) (o_AtTime o) (ac_SmsDisplayNo ac ++ o_SpSubNo o) n
    (join_comma phones) ids 0 0 [] (opt_txt (o_LinkID o) (ac_LinkId ac)) (ac_Version ac) in
  parts <- MsgSlices g fmt content ;;
  match parts with
  | [b] => Ok [cmpp_part base s0 (zlen ids) 1 0 1 seq b]
  | _ => Ok (cmpp_parts base s0 (zlen ids) (u8 (zlen parts)) nxt 0 parts)
  end.

(** codec/cmpp/submit.go:109-161 Encode *)
Definition Submit_Encode (s : submit) : res bytes :=
  let v3 := is_v3 (sb_version s) in
  f <- head_Encode (sb_h s) ;;
  f <- set_at f 20 (sb_pkTotal s) ;;
  f <- set_at f 21 (sb_pkNumber s) ;;
  f <- set_at f 22 (sb_registeredDel s) ;;
  f <- set_at f 23 (sb_msgLevel s) ;;
  f <- copy_at f 24 34 (sb_serviceId s) ;;
  f <- set_at f 34 (sb_feeUsertype s) ;;
  let index := 35 in
  '(f, index) <- (if v3
    then f <- copy_at f index (index + 32) (sb_feeTerminalId s) ;;
         f <- set_at f (index + 32) (sb_feeTerminalType s) ;; Ok (f, index + 32 + 1)
    else f <- copy_at f index (index + 21) (sb_feeTerminalId s) ;; Ok (f, index + 21)) ;;
  f <- set_at f index (sb_tpPid s) ;;
  let index := index + 1 in
  f <- set_at f index (sb_tpUdhi s) ;;
  let index := index + 1 in
  f <- set_at f index (sb_msgFmt s) ;;
  let index := index + 1 in
  f <- copy_at f index (index + 6) (sb_msgSrc s) ;;
  let index := index + 6 in
  f <- copy_at f index (index + 2) (sb_feeType s) ;;
  let index := index + 2 in
  f <- copy_at f index (index + 6) (sb_feeCode s) ;;
  let index := index + 6 in
  f <- copy_at f index (index + 17) (sb_validTime s) ;;
  let index := index + 17 in
  f <- copy_at f index (index + 17) (sb_atTime s) ;;
  let index := index + 17 in
  f <- copy_at f index (index + 21) (sb_srcId s) ;;
  let index := index + 21 in
  f <- set_at f index (sb_destUsrTl s) ;;
  let index := index + 1 in
  f <- copy_at f index (index + zlen (sb_termIds s)) (sb_termIds s) ;;
  let index := index + zlen (sb_termIds s) in
  '(f, index) <- (if v3
    then f <- set_at f index (sb_destTerminalType s) ;; Ok (f, index + 1)
    else Ok (f, index)) ;;
  f <- set_at f index (sb_msgLength s) ;;
  let index := index + 1 in
  f <- copy_at f index (index + zlen (sb_msgContent s)) (sb_msgContent s) ;;
  let index := index + zlen (sb_msgContent s) in
  if v3 then copy_at f index (index + 20) (sb_linkID s) else Ok f.

(** codec/cmpp/submit.go:224-229: the content bytes; a concatenation header is stripped and
    the rest transcoded.  [&&] stops at the first mismatch, so content[1] and content[2] are
    read only if needed. *)
Definition strip_udh (content : bytes) : res bytes :=
  b0 <- at_ content 0 ;;
  if b0 =? 5 then
    b1 <- at_ content 1 ;;
    if b1 =? 0 then
      b2 <- at_ content 2 ;;
      if b2 =? 3 then c <- slice content 6 (zlen content) ;; Ok (Ucs2ToUtf8 c) else Ok content
    else Ok content
  else Ok content.

(** codec/cmpp/submit.go:163-235 Decode (object: &Submit with Version = ver) *)
Definition Submit_Decode (ver seq : Z) (f : bytes) : res submit :=
  let v3 := is_v3 ver in
  let index := 8 in
  pkTotal <- at_ f index ;;
  let index := index + 1 in
  pkNumber <- at_ f index ;;
  let index := index + 1 in
  regDel <- at_ f index ;;
  let index := index + 1 in
  level <- at_ f index ;;
  let index := index + 1 in
  serviceId <- slice f index (index + 10) ;;
  let index := index + 10 in
  feeUsertype <- at_ f index ;;
  let index := index + 1 in
  '(feeTerminalId, feeTerminalType, index) <- (if v3
    then a <- slice f index (index + 32) ;; b <- at_ f (index + 32) ;; Ok (a, b, index + 32 + 1)
    else a <- slice f index (index + 21) ;; Ok (a, 0, index + 21)) ;;
  tpPid <- at_ f index ;;
  let index := index + 1 in
  tpUdhi <- at_ f index ;;
  let index := index + 1 in
  msgFmt <- at_ f index ;;
  let index := index + 1 in
  msgSrc <- slice f index (index + 6) ;;
  let index := index + 6 in
  feeType <- slice f index (index + 2) ;;
  let index := index + 2 in
  feeCode <- slice f index (index + 6) ;;
  let index := index + 6 in
  validTime <- slice f index (index + 17) ;;
  let index := index + 17 in
  atTime <- slice f index (index + 17) ;;
  let index := index + 17 in
  srcId <- slice f index (index + 21) ;;
  let index := index + 21 in
  destUsrTl <- at_ f index ;;
  let index := index + 1 in
  let l := if v3 then destUsrTl * 32 else u8 (destUsrTl * 21) in
  termIds <- slice f index (index + l) ;;
  let index := index + l in
  '(destTerminalType, index) <- (if v3 then b <- at_ f index ;; Ok (b, index + 1) else Ok (0, index)) ;;
  msgLength <- at_ f index ;;
  let index := index + 1 in
  content <- slice f index (index + msgLength) ;;
  msgContent <- strip_udh content ;;
  let index := index + msgLength in
  linkID <- (if v3 then l <- slice f index (index + 20) ;; Ok (TrimStr l) else Ok []) ;;
  Ok (Submit (CHead (12 + zlen f) SUBMIT seq) 0 pkTotal pkNumber regDel level (TrimStr serviceId) feeUsertype
        (TrimStr feeTerminalId) feeTerminalType tpPid tpUdhi msgFmt (TrimStr msgSrc) (TrimStr feeType)
        (TrimStr feeCode) (TrimStr validTime) (TrimStr atTime) (TrimStr srcId) destUsrTl (TrimStr termIds)
        termIds destTerminalType msgLength msgContent linkID ver).

(** SubmitRsp (submit.go:237-244) and DeliveryRsp (delivery.go:263-270) have the same fields. *)
Record cresp := CResp { rs_h : chead; rs_msgId : Z; rs_result : Z; rs_version : Z }.

(** codec/cmpp/submit.go:246-260 ToResponse; [nid] = the B64Seq value drawn when result = 0. *)
Definition Submit_ToResponse (s : submit) (result : Z) (nid : Z) : cresp :=
  CResp (CHead (if is_v3 (sb_version s) then 24 else 21) (RESP + SUBMIT) (h_seq (sb_h s)))
    (if result =? 0 then u64 nid else 0) result (sb_version s).

(** codec/cmpp/submit.go:286-295 and delivery.go:272-281 Encode (identical bodies) *)
Definition cresp_Encode (r : cresp) : res bytes :=
  f <- head_Encode (rs_h r) ;;
  f <- put_be 8 f 12 20 (rs_msgId r) ;;
  if is_v3 (rs_version r) then put_be 4 f 20 24 (rs_result r) else set_at f 20 (u8 (rs_result r)).

(** codec/cmpp/submit.go:296-307 and delivery.go:283-295 Decode ([cmd] is the response id the
    method writes) *)
Definition cresp_Decode (cmd ver seq : Z) (f : bytes) : res cresp :=
  mid <- get_be 8 f 0 8 ;;
  result <- (if is_v3 ver then get_be 4 f 8 12 else at_ f 8) ;;
  Ok (CResp (CHead (12 + zlen f) cmd seq) mid result ver).

(** ** report.go *)
Record creport := CReport {
  rp_msgId : Z; rp_stat : bytes; rp_submitTime : bytes; rp_doneTime : bytes;
  rp_destTerminalId : bytes; rp_smscSequence : Z }.

(** codec/cmpp/report.go:28-51: the simulated status by the last two digits. *)
Definition stat_of (r : Z) : bytes :=
  if r =? 99 then [82;69;74;69;67;84;68]         (* REJECTD *)
  else if r =? 88 then [85;78;75;78;79;87;78]    (* UNKNOWN *)
  else if r =? 77 then [65;67;67;69;80;84;68]    (* ACCEPTD *)
  else if r =? 66 then [85;78;68;69;76;73;86]    (* UNDELIV *)
  else if r =? 55 then [68;69;76;69;84;69;68]    (* DELETED *)
  else if r =? 44 then [69;88;80;73;82;69;68]    (* EXPIRED *)
  else if r =? 33 then [77;65;58;48;48;48;48]    (* MA:0000 *)
  else if r =? 22 then [77;66;58;48;48;48;48]    (* MB:0000 *)
  else if r =? 11 then [67;65;58;48;48;48;48]    (* CA:0000 *)
  else if r =? 10 then [67;66;58;48;48;48;48]    (* CB:0000 *)
  else [68;69;76;73;86;82;68].                   (* DELIVRD *)
(** codec/cmpp/report.go:24-53 NewReport; [nseq] = the B32Seq value drawn. *)
Definition NewReport (msgId : Z) (dest sub done : bytes) (nseq : Z) : creport :=
  CReport msgId (stat_of (u32 nseq mod 100)) sub done dest (u32 nseq).

(** codec/cmpp/report.go:55-64 Encode *)
Definition Report_Encode (r : creport) : res bytes :=
  f <- put_be 8 (zeros 60) 0 8 (rp_msgId r) ;;
  f <- copy_at f 8 15 (rp_stat r) ;;
  f <- copy_at f 15 25 (rp_submitTime r) ;;
  f <- copy_at f 25 35 (rp_doneTime r) ;;
  f <- copy_at f 35 56 (rp_destTerminalId r) ;;
  put_be 4 f 56 60 (rp_smscSequence r).

(** codec/cmpp/report.go:66-74 Decode.  Only slice expressions are used, so the bound that
    counts is the capacity of the argument; [f] is the argument extended to its capacity. *)
Definition Report_Decode (f : bytes) : res creport :=
  mid <- get_be 8 f 0 8 ;;
  stat <- slice f 8 15 ;;
  sub <- slice f 15 25 ;;
  done <- slice f 25 35 ;;
  dest <- slice f 35 56 ;;
  seq <- get_be 4 f 56 60 ;;
  Ok (CReport mid (TrimStr stat) (TrimStr sub) (TrimStr done) (TrimStr dest) seq).

(** ** delivery.go *)
Record delivery := Delivery {
  dl_h : chead; dl_msgId : Z; dl_destId : bytes; dl_serviceId : bytes; dl_tpPid : Z; dl_tpUdhi : Z;
  dl_msgFmt : Z; dl_srcTerminalId : bytes; dl_srcTerminalType : Z; dl_registeredDelivery : Z;
  dl_msgLength : Z; dl_msgContent : bytes; dl_report : option creport; dl_linkID : bytes; dl_version : Z }.

(** codec/cmpp/delivery.go:158-179 setMsgContent: format, length and (cut) text.
    string(rs[:70]) re-encodes the runes. *)
Definition setMsgContent (msg : bytes) : Z * Z * bytes :=
  let fmt := MsgFmt msg in
  if fmt =? 8 then
    let l := 2 * zlen (runes msg) in
    if 140 <? l then (fmt, u8 140, flat_map encode_rune (firstn 70 (runes msg)))
    else (fmt, u8 l, msg)
  else
    let l := zlen msg in
    if 160 <? l then (fmt, u8 160, firstn 160 msg) else (fmt, u8 l, msg).

(** codec/cmpp/delivery.go:36-57 NewDelivery; [nid] = the B64Seq value drawn. *)
Definition NewDelivery (ac : authconf) (phone msg dest serviceId : bytes) (seq nid : Z) : delivery :=
  let '(fmt, l, text) := setMsgContent msg in
  let base := if is_v3 (ac_Version ac) then 109 else 85 in
  Delivery (CHead (base + l) DELIVER seq) (u64 nid) (ac_SmsDisplayNo ac ++ dest)
    (opt_txt serviceId (ac_ServiceId ac)) 0 0 fmt phone 0 0 l text None [] (ac_Version ac).

(** codec/cmpp/submit.go:262-284 ToDeliveryReport; [nseq],[nid],[nrep] are the sequence values
    drawn, [sub],[done] the formatted times. *)
Definition ToDeliveryReport (s : submit) (msgId nseq nid nrep : Z) (sub done : bytes) : delivery :=
  Delivery (CHead (if is_v3 (sb_version s) then 169 else 145) DELIVER (u32 nseq)) (u64 nid) (sb_srcId s)
    (sb_serviceId s) 0 0 0 (sb_destTerminalId s) (sb_destTerminalType s) 1 60 []
    (Some (NewReport msgId (sb_destTerminalId s) sub done nrep)) [] (sb_version s).

(** codec/cmpp/delivery.go:60-99 Encode.  [g] = clock byte of MsgSlices. A report flag without
    a report object is a nil dereference. *)
Definition Delivery_Encode (g : Z) (d : delivery) : res bytes :=
  let v3 := is_v3 (dl_version d) in
  f <- head_Encode (dl_h d) ;;
  f <- put_be 8 f 12 20 (dl_msgId d) ;;
  f <- copy_at f 20 41 (dl_destId d) ;;
  f <- copy_at f 41 51 (dl_serviceId d) ;;
  f <- set_at f 51 (dl_tpPid d) ;;
  f <- set_at f 52 (dl_tpUdhi d) ;;
  f <- set_at f 53 (dl_msgFmt d) ;;
  let index := 54 in
  '(f, index) <- (if v3
    then f <- copy_at f index (index + 32) (dl_srcTerminalId d) ;;
         f <- set_at f (index + 32) (dl_srcTerminalType d) ;; Ok (f, index + 32 + 1)
    else f <- copy_at f index (index + 21) (dl_srcTerminalId d) ;; Ok (f, index + 21)) ;;
  f <- set_at f index (dl_registeredDelivery d) ;;
  let index := index + 1 in
  f <- set_at f index (dl_msgLength d) ;;
  let index := index + 1 in
  let l := dl_msgLength d in
  f <- (if dl_registeredDelivery d =? 1
        then match dl_report d with
             | Some r => b <- Report_Encode r ;; copy_at f index (index + l) b
             | None => Panic
             end
        else parts <- MsgSlices g (dl_msgFmt d) (dl_msgContent d) ;;
             b <- at_ parts 0 ;;
             copy_at f index (index + l) b) ;;
  let index := index + l in
  if v3 then copy_at f index (index + 20) (dl_linkID d) else Ok f.

(** codec/cmpp/delivery.go:101-141 Decode.  Line 107 overwrites destId with the service-id
    field; serviceId is never set.  The report is decoded from frame[index:index+l], whose
    capacity reaches to the end of the frame. *)
Definition Delivery_Decode (ver seq : Z) (f : bytes) : res delivery :=
  let v3 := is_v3 ver in
  mid <- get_be 8 f 0 8 ;;
  _d0 <- slice f 8 29 ;;
  destId <- slice f 29 39 ;;
  tpPid <- at_ f 39 ;;
  tpUdhi <- at_ f 40 ;;
  msgFmt <- at_ f 41 ;;
  let index := 42 in
  '(srcId, srcType, index) <- (if v3
    then a <- slice f index (index + 32) ;; b <- at_ f (index + 32) ;; Ok (a, b, index + 32 + 1)
    else a <- slice f index (index + 21) ;; Ok (a, 0, index + 21)) ;;
  regD <- at_ f index ;;
  let index := index + 1 in
  msgLength <- at_ f index ;;
  let index := index + 1 in
  let l := msgLength in
  body <- slice f index (index + l) ;;
  '(content, report) <- (if regD =? 1
    then ext <- slice f index (zlen f) ;; r <- Report_Decode ext ;; Ok ([], Some r)
    else Ok (TrimStr body, None)) ;;
  let index := index + l in
  linkID <- (if v3 then k <- slice f index (index + 20) ;; Ok (TrimStr k) else Ok []) ;;
  Ok (Delivery (CHead (12 + zlen f) DELIVER seq) mid (TrimStr destId) [] tpPid tpUdhi msgFmt (TrimStr srcId) srcType
        regD msgLength content report linkID ver).

(** codec/cmpp/delivery.go:143-156 ToResponse *)
Definition Delivery_ToResponse (d : delivery) (code : Z) : cresp :=
  CResp (CHead (if is_v3 (dl_version d) then 24 else 21) (RESP + DELIVER) (h_seq (dl_h d)))
    (dl_msgId d) code (dl_version d).

(** ** active.go, terminate.go: bare headers *)
(** codec/cmpp/active.go:13-15, terminate.go:13-15 New* *)
Definition NewActiveTest (seq : Z) : chead := CHead 12 ACTIVE_TEST seq.
Definition NewTerminate (seq : Z) : chead := CHead 12 TERMINATE seq.
(** codec/cmpp/active.go:21-26, 46-51, terminate.go:21-26, 44-49: Decode ignores the body. *)
Definition ActiveTest_Decode (seq : Z) (f : bytes) : res chead := Ok (CHead 12 ACTIVE_TEST seq).
Definition ActiveTestRsp_Decode (seq : Z) (f : bytes) : res chead := Ok (CHead 13 (RESP + ACTIVE_TEST) seq).
Definition Terminate_Decode (seq : Z) (f : bytes) : res chead := Ok (CHead 12 TERMINATE seq).
Definition TerminateRsp_Decode (seq : Z) (f : bytes) : res chead := Ok (CHead 12 (RESP + TERMINATE) seq).
(** codec/cmpp/active.go:28-34, terminate.go:28-34 ToResponse *)
Definition ActiveTest_ToResponse (h : chead) : chead := CHead 13 (RESP + ACTIVE_TEST) (h_seq h).
Definition Terminate_ToResponse (h : chead) : chead := CHead 12 (RESP + TERMINATE) (h_seq h).
(** codec/cmpp/active.go:40-44 ActiveTestRsp.Encode *)
Definition ActiveTestRsp_Encode (h : chead) : res bytes :=
  f <- head_Encode h ;; set_at f 12 0.
