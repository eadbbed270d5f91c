(** * FrameModel: how the server cuts the byte stream of a connection into packets and
    dispatches them: /repo/msc_server/server/on_traffic.go and chain_*_handler.go. *)
From Coq Require Import String.
From Verif Require Import Base CmppModel.
Local Open Scope string_scope.
Local Open Scope list_scope.
Local Open Scope Z_scope.

(** msc_server/server/server.go:23-25: the three servers differ by name. *)
Inductive proto := P_CMPP | P_SGIP | P_SMGP.

(** codec/cmpp/variables.go:59-86, codec/sgip/variables.go:49-68, codec/smgp/variables.go:83-104:
    CommandId.String().  (The index id-1 or id-0x80000001 is always inside the table.) *)
Definition cmd_table (p : proto) : list string :=
  match p with
  | P_CMPP => ["CMPP_CONNECT"; "CMPP_TERMINATE"; "CMPP_UNKNOWN"; "CMPP_SUBMIT"; "CMPP_DELIVER"; "CMPP_QUERY";
               "CMPP_CANCEL"; "CMPP_ACTIVE_TEST"; "CMPP_FWD"]
  | P_SGIP => ["SGIP_BIND"; "SGIP_UNBIND"; "SGIP_SUBMIT"; "SGIP_DELIVER"; "SGIP_REPORT"]
  | P_SMGP => ["SMGP_LOGIN"; "SMGP_SUBMIT"; "SMGP_DELIVER"; "SMGP_ACTIVE_TEST"; "UNKNOWN"; "SMGP_EXIT"]
  end.
Definition resp_table (p : proto) : list string :=
  match p with
  | P_CMPP => ["CMPP_CONNECT_RESP"; "CMPP_TERMINATE_RESP"; "CMPP_UNKNOWN"; "CMPP_SUBMIT_RESP"; "CMPP_DELIVER_RESP";
               "CMPP_QUERY_RESP"; "CMPP_CANCEL_RESP"; "CMPP_ACTIVE_TEST_RESP"; "CMPP_FWD_RESP"]
  | P_SGIP => ["SGIP_BIND_RESP"; "SGIP_UNBIND_RESP"; "SGIP_SUBMIT_RESP"; "SGIP_DELIVER_RESP"; "SGIP_REPORT_RESP"]
  | P_SMGP => ["SMGP_LOGIN_RESP"; "SMGP_SUBMIT_RESP"; "SMGP_DELIVER_RESP"; "SMGP_ACTIVE_TEST_RESP"; "UNKNOWN";
               "SMGP_EXIT_RESP"]
  end.
(** X_REQUEST_MAX (cmpp/variables.go:52 = 10, sgip:46 = 6, smgp:80 = 7) *)
Definition req_max (p : proto) : Z := match p with P_CMPP => 10 | P_SGIP => 6 | P_SMGP => 7 end.
Definition cmd_String (p : proto) (id : Z) : string :=
  if (0 <? id) && (id <? req_max p) then nth (Z.to_nat (id - 1)) (cmd_table p) ""
  else if (RESP <? id) && (id <? RESP + req_max p) then nth (Z.to_nat (id - (RESP + 1))) (resp_table p) ""
  else "UNKNOWN".
(** strings.HasSuffix *)
Definition has_suffix (s suf : string) : bool :=
  let n := String.length s in let k := String.length suf in
  if Nat.leb k n then String.eqb (substring (n - k) k s) suf else false.

Definition unknown_suffix : string := "UNKNOWN".

(** ** The connection's input buffer (gnet v2.1.0, not part of the repository).
    [Peek] shows the first [n] bytes without consuming them, [Discard] consumes them.  What
    they do for n <= 0 is the parameter [drain]: true = "everything buffered" (what the
    library's documentation says), false = "nothing". *)
Definition Peek (drain : bool) (n : Z) (buf : bytes) : bytes :=
  if n <=? 0 then (if drain then buf else []) else if zlen buf <? n then [] else firstn (Z.to_nat n) buf.
Definition Discard (drain : bool) (n : Z) (buf : bytes) : bytes :=
  if n <=? 0 then (if drain then [] else buf) else if zlen buf <? n then [] else skipn (Z.to_nat n) buf.

(** codec/packer.go:13-14 HeadLen, PacketMax *)
Definition HeadLen := 12. Definition PacketMax := 5120.

Record packet := Packet { pk_cmd : Z; pk_seq : Z; pk_body : bytes }.
Inductive frame_out :=
| FWait                                  (* gnet.None, false *)
| FClose                                 (* gnet.Close, false *)
| FPass (p : packet) (rest : bytes).     (* command, sequence, body; what stays buffered *)

(** on_traffic.go:55-106 DecodeAndCheckHeader (logging left out).  [pkl] is unsigned, so
    [pkl - 12] does not wrap once the length check has passed. *)
Definition DecodeAndCheckHeader (p : proto) (drain : bool) (buf : bytes) : res frame_out :=
  if zlen buf <? 12 then Ok FWait
  else
    '(pkl, cmd, seq) <- UnpackHead (Peek drain 12 buf) ;;
    if (PacketMax <? pkl) || (pkl <? HeadLen) then Ok FClose
    else if has_suffix (cmd_String p cmd) unknown_suffix then Ok FClose
    else if zlen buf <? pkl then Ok FWait
    else
      let buf1 := Discard drain 12 buf in
      let body := Peek drain (pkl - 12) buf1 in
      Ok (FPass (Packet cmd seq body) (Discard drain (pkl - 12) buf1)).

(** ** Dispatch *)
Inductive action := ANone | AClose.      (* gnet.None, gnet.Close *)
Inductive hkind := HSubmit | HActive | HActiveResp | HDeliverResp | HLogin | HTerminate | HTerminateResp.
(** chain_cmpp_handler.go:3-13, chain_sgip_handler.go:3-10, chain_smgp_handler.go:3-13 *)
Definition handlers (p : proto) : list hkind :=
  match p with
  | P_SGIP => [HSubmit; HLogin; HTerminate; HTerminateResp]
  | _ => [HSubmit; HActive; HActiveResp; HDeliverResp; HLogin; HTerminate; HTerminateResp]
  end.
(** The command each handler compares with first: cmpp_submit.go:18, cmpp_active.go:14,
    cmpp_active_resp.go:14, cmpp_delivery_resp.go:14, cmpp_connect.go:14, cmpp_terminate.go:13,
    cmpp_terminate_resp.go:13 and the same lines of the sgip_ and smgp_ files. *)
Definition handler_cmd (p : proto) (h : hkind) : Z :=
  match p, h with
  | P_CMPP, HSubmit => 4 | P_CMPP, HActive => 8 | P_CMPP, HActiveResp => RESP + 8 | P_CMPP, HDeliverResp => RESP + 5
  | P_CMPP, HLogin => 1 | P_CMPP, HTerminate => 2 | P_CMPP, HTerminateResp => RESP + 2
  | P_SGIP, HSubmit => 3 | P_SGIP, HLogin => 1 | P_SGIP, HTerminate => 2 | P_SGIP, HTerminateResp => RESP + 2
  | P_SGIP, _ => -1
  | P_SMGP, HSubmit => 2 | P_SMGP, HActive => 4 | P_SMGP, HActiveResp => RESP + 4 | P_SMGP, HDeliverResp => RESP + 3
  | P_SMGP, HLogin => 1 | P_SMGP, HTerminate => 6 | P_SMGP, HTerminateResp => RESP + 6
  end.
(** A handler answers whether the next one is to be tried, and the action.  [act h] is what
    handler [h] does with a packet that is its own. *)
Definition handler {S} (p : proto) (act : hkind -> packet -> S -> res (action * S)) (h : hkind)
  (k : packet) (s : S) : res (bool * action * S) :=
  if negb (handler_cmd p h =? pk_cmd k) then Ok (true, ANone, s)
  else '(a, s') <- act h k s ;; Ok (false, a, s').
(** on_traffic.go:42-53 ExecuteChain (the inner [action] shadows the result: when no handler
    takes the packet the result is gnet.None) *)
Fixpoint ExecuteChain {S} (p : proto) (act : hkind -> packet -> S -> res (action * S)) (hs : list hkind)
  (k : packet) (s : S) : res (action * S) :=
  match hs with
  | [] => Ok (ANone, s)
  | h :: r =>
    '(next, a, s') <- handler p act h k s ;;
    if next : bool then ExecuteChain p act r k s' else Ok (a, s')
  end.
(** on_traffic.go:20-33 OnTraffic on a connection with input buffer [buf] and session [s];
    result: action, buffer, session *)
Definition OnTraffic {S} (p : proto) (drain : bool) (act : hkind -> packet -> S -> res (action * S))
  (buf : bytes) (s : S) : res (action * bytes * S) :=
  fo <- DecodeAndCheckHeader p drain buf ;;
  match fo with
  | FWait => Ok (ANone, buf, s)
  | FClose => Ok (AClose, buf, s)
  | FPass k rest => '(a, s') <- ExecuteChain p act (handlers p) k s ;; Ok (a, rest, s')
  end.

(** ** One connection's input side: gnet calls OnTraffic once for every segment read, with the
    bytes left over from before in front; action Close ends the connection. *)
Record fconn := FConn { fc_buf : bytes; fc_open : bool; fc_got : list packet }.
Definition fconn0 : fconn := FConn [] true [].
(** [fc_got]: the packets handed to the handler chain so far. *)
Definition recv (p : proto) (drain : bool) (c : fconn) (seg : bytes) : res fconn :=
  if negb (fc_open c) then Ok c
  else
    fo <- DecodeAndCheckHeader p drain (fc_buf c ++ seg) ;;
    match fo with
    | FWait => Ok (FConn (fc_buf c ++ seg) true (fc_got c))
    | FClose => Ok (FConn (fc_buf c ++ seg) false (fc_got c))
    | FPass k rest => Ok (FConn rest true (fc_got c ++ [k]))
    end.
Fixpoint recv_all (p : proto) (drain : bool) (c : fconn) (segs : list bytes) : res fconn :=
  match segs with [] => Ok c | s :: r => c' <- recv p drain c s ;; recv_all p drain c' r end.
