(** * RecvModel: the client side of a connection: reading packets (msc_client/session/session.go
    startReceiver) and logging in (NewSession, login).

    A TCP connection hands its byte stream over in pieces: a Read returns some bytes, at most as
    many as the buffer holds, possibly fewer.  [rd] lists what the connection has for the following
    Reads: [Data b] = bytes that are there together, [Fail] = the read returns an error (end of
    stream, reset).  Every behaviour of Read on a stream is given by some such list; the empty list
    is a read that blocks. *)
From Verif Require Import Base UtilsModel OptionsModel CmppModel SgipModel SmgpModel FrameModel ClientModel.

Inductive rd := Data (b : bytes) | Fail.
Inductive got := Blocked | Failed | Bytes (b : bytes).
(** net.Conn Read into a buffer of [n] > 0 bytes *)
Definition Read (n : Z) (st : list rd) : got * list rd :=
  match st with
  | [] => (Blocked, [])
  | Fail :: _ => (Failed, st)
  | Data b :: r => if zlen b <=? n then (Bytes b, r) else (Bytes (firstn (Z.to_nat n) b), Data (skipn (Z.to_nat n) b) :: r)
  end.

(** ** startReceiver *)
Inductive rstat := RWaiting | RStopped | RClosed | RPanic.
(** session.go:119-148, one round of the loop after the check of line 115: wait, close the session,
    or hand (command, sequence, body) to onTraffic. *)
Inductive rone := OneWait | OneClose | OnePanic | OnePass (p : packet) (rest : list rd).
Definition receive_one (st : list rd) : rone :=
  match Read 12 st with
  | (Blocked, _) => OneWait
  | (Failed, _) => OneClose
  | (Bytes head, st1) =>
    if negb (zlen head =? 12) then OneClose                               (* line 121 *)
    else match UnpackHead head with
         | Ok (pkl, cmd, seq) =>
           if (PacketMax <? pkl) || (pkl <? HeadLen) then OneClose          (* line 129 *)
           else if 0 <? pkl - 12 then
             match Read (pkl - 12) st1 with
             | (Blocked, _) => OneWait
             | (Failed, _) => OneClose
             | (Bytes b, st2) => if negb (zlen b =? pkl - 12) then OneClose (* line 141 *)
                               else OnePass (Packet cmd seq b) st2
             end
           else OnePass (Packet cmd seq []) st1                           (* buff = nil *)
         | _ => OnePanic
         end
  end.
(** session.go:107-151: the loop.  [hd] stands for onTraffic: it changes what it likes ([St]) and
    leaves the session healthy or not (lines 110 and 115: the loop ends); None = a panic.  At most
    [fuel] packets are handled. *)
Fixpoint receive {St : Type} (hd : St -> packet -> option (St * bool)) (fuel : nat) (s : St) (st : list rd) (done : list packet) : list packet * St * rstat * list rd :=
  match fuel with
  | O => (done, s, RWaiting, st)
  | S k =>
    match receive_one st with
    | OneWait => (done, s, RWaiting, st)
    | OneClose => (done, s, RClosed, st)
    | OnePanic => (done, s, RPanic, st)
    | OnePass p rest =>
      match hd s p with
      | None => (done ++ [p], s, RPanic, rest)
      | Some (s1, true) => receive hd k s1 rest (done ++ [p])
      | Some (s1, false) => (done ++ [p], s1, RStopped, rest)
      end
    end
  end.

(** ** login, NewSession *)
(** codec/sgip/bind.go:13, codec/cmpp/connect.go ConnectRspPktLenV3/V2, codec/smgp/login.go:18 *)
Definition resp_len (p : proto) (ver : Z) : Z :=
  match p with P_SGIP => 21 | P_CMPP => if is_v3 ver then 33 else 30 | P_SMGP => 33 end.
(** session.go:168-192: the login packet; [q], [sq]: sequence values, [ts], [tsn] = utils.Now() *)
Definition login_packet (md5 : bytes -> bytes) (p : proto) (ac : authconf) (sq : Z) (q : seq3) (ts : bytes) (tsn : Z) : res bytes :=
  match p with
  | P_SGIP => Bind_Encode (NewBind ac 1 q)
  | P_CMPP => Connect_Encode (NewConnect md5 ac (u32 sq) ts tsn)
  | P_SMGP => Login_Encode (NewLogin md5 ac (u32 sq) ts tsn)
  end.
(** session.go:204-257 of an answer of the full length: None = an error, otherwise logged in.
    The status of SMGP is a uint32, of CMPP and SGIP a byte. *)
Definition login_answer (p : proto) (ver : Z) (data : bytes) : res bool :=
  pkl <- get_be 4 data 0 4 ;;
  if negb (pkl =? zlen data) then Ok false
  else
    cmd <- get_be 4 data 4 8 ;;
    seq <- get_be 4 data 8 12 ;;
    body <- slice data 12 (zlen data) ;;
    match p with
    | P_SGIP => if negb (cmd =? 2147483649) then Ok false
                else r <- srsp_Decode 2147483649 seq body ;; Ok (sr_status r =? 0)
    | P_CMPP => if negb (cmd =? 2147483649) then Ok false
                else r <- ConnectResp_Decode ver seq body ;; Ok (cr_status r =? 0)
    | P_SMGP => if negb (cmd =? 2147483649) then Ok false
                else r <- LoginRsp_Decode seq body ;; Ok (lr_status r =? 0)
    end.
(** What NewSession gives: nothing yet (the read blocks), nil, or a session. *)
Inductive made := MBlocked | MNil | MSess (s : csess) (rest : list rd).
(** session.go:47-59 NewSession with login 167-261 inlined; [wok]: the write succeeded; [now] for
    the clock.  Line 200: a short answer without an error returns a nil error, the session keeps
    the status "connect".  On an error the connection is left open.  The receiver that is started
    is [receive] (it ends at once unless the session is healthy). *)
Definition NewSession (p : proto) (ac : authconf) (wok : bool) (st : list rd) (now : Z) : res made :=
  if negb wok then Ok MNil
  else
    let n := resp_len p (ac_Version ac) in
    match Read n st with
    | (Blocked, _) => Ok MBlocked
    | (Failed, _) => Ok MNil
    | (Bytes data, rest) =>
      if negb (zlen data =? n) then Ok (MSess (CSess p CConnect true (Some ac) 0 now) rest)
      else
        ok <- login_answer p (ac_Version ac) data ;;
        if ok then Ok (MSess (CSess p CLogin true (Some ac) 0 now) rest) else Ok MNil
    end.
