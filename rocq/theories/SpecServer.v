(** * SpecServer: what a genuine login is, on the bytes of the packet, and how observations are
    counted.  Independent of the server's code. *)
From Verif Require Import Base UtilsModel OptionsModel FrameModel SpecText PropCmpp.

(** The login packet [k] carries the credentials of account [a], the one stored under the name in
    the packet. *)
Definition genuine (p : proto) (md5 : bytes -> bytes) (find : bytes -> option authconf) (k : packet) (a : authconf) : Prop :=
  let f := pk_body k in
  pk_cmd k = 1 /\
  match p with
  | P_CMPP =>
    find (TrimStr (firstn 6 f)) = Some a /\
    Z.land (nth 22 f 0) 240 = Z.land (ac_Version a) 240 /\
    exists ts, ten_digits ts (unbe (firstn 4 (skipn 23 f))) /\
      firstn 16 (skipn 6 f) = md5 (ac_ClientId a ++ repeat 0 9 ++ ac_SharedSecret a ++ ts)
  | P_SMGP =>
    find (firstn 8 f) = Some a /\
    Z.land (nth 29 f 0) 240 = Z.land (ac_Version a) 240 /\
    exists ts, ten_digits ts (unbe (firstn 4 (skipn 25 f))) /\
      firstn 16 (skipn 8 f) = md5 (ac_ClientId a ++ repeat 0 7 ++ ac_SharedSecret a ++ ts)
  | P_SGIP =>
    find (TrimStr (firstn 16 (skipn 9 f))) = Some a /\
    ac_LoginName a = TrimStr (firstn 16 (skipn 9 f)) /\ ac_SharedSecret a = TrimStr (firstn 16 (skipn 25 f))
  end.
(** How many elements of a list pass a test. *)
Definition count {A} (f : A -> bool) (l : list A) : Z := Z.of_nat (length (filter f l)).

(** The bytes [b] are a response to the submit packet [k] with result [code]: the right length and
    command, the request's sequence number, and the result field. *)
Definition submit_answer (p : proto) (k : packet) (code : Z) (b : bytes) : Prop :=
  match p with
  | P_CMPP => firstn 12 b = be 4 (zlen b) ++ [128; 0; 0; 4] ++ be 4 (pk_seq k) /\
              (zlen b = 24 /\ skipn 20 b = be 4 code \/ zlen b = 21 /\ skipn 20 b = [code])
  | P_SMGP => firstn 12 b = be 4 26 ++ [128; 0; 0; 2] ++ be 4 (pk_seq k) /\ zlen b = 26 /\ skipn 22 b = be 4 code
  | P_SGIP => firstn 12 b = be 4 29 ++ [128; 0; 0; 3] ++ be 4 (pk_seq k) /\ firstn 8 (skipn 12 b) = firstn 8 (pk_body k) /\
              zlen b = 29 /\ nth 20 b 0 = code
  end.

(** ** Timelines, for the ticker *)
(** What happens to a connection that matters for its being idle: a heartbeat is sent, the peer's
    answer to one is handled, or something else counts as use. *)
Inductive mark := MHeart | MAnswer (t : Z) | MUse (t : Z).
(** Heartbeats sent since the last answer. *)
Definition unanswered (l : list mark) : Z :=
  fold_left (fun n m => match m with MHeart => n + 1 | MAnswer _ => 0 | MUse _ => n end) l 0.
(** Time of the last use; the connection was opened at [t0]. *)
Definition last_use (t0 : Z) (l : list mark) : Z :=
  fold_left (fun t m => match m with MHeart => t | MAnswer t' | MUse t' => t' end) l t0.
(** A connection is to be terminated: idle for too long, or three heartbeats unanswered. *)
Definition overdue (t0 force now : Z) (l : list mark) : Prop := last_use t0 l + force < now \/ 3 <= unanswered l.

(** The packet that asks the peer to disconnect, and the heartbeat. *)
Definition terminate_packet (p : proto) (b : bytes) : Prop :=
  match p with
  | P_CMPP => exists seq, b = be 4 12 ++ [0; 0; 0; 2] ++ be 4 seq
  | P_SMGP => exists seq, b = be 4 12 ++ [0; 0; 0; 6] ++ be 4 seq
  | P_SGIP => exists x y z, b = be 4 20 ++ [0; 0; 0; 2] ++ be 4 x ++ be 4 y ++ be 4 z
  end.
Definition heartbeat_packet (p : proto) (b : bytes) : Prop :=
  match p with
  | P_CMPP => exists seq, b = be 4 12 ++ [0; 0; 0; 8] ++ be 4 seq
  | P_SMGP => exists seq, b = be 4 12 ++ [0; 0; 0; 4] ++ be 4 seq
  | P_SGIP => False
  end.

(** The bytes [b] are a response to the login packet [k] with status [code]. *)
Definition login_reply (p : proto) (k : packet) (code : Z) (b : bytes) : Prop :=
  match p with
  | P_CMPP => firstn 12 b = be 4 (zlen b) ++ [128; 0; 0; 1] ++ be 4 (pk_seq k) /\
              (zlen b = 33 /\ firstn 4 (skipn 12 b) = be 4 code \/ zlen b = 30 /\ nth 12 b 0 = code)
  | P_SMGP => firstn 12 b = be 4 33 ++ [128; 0; 0; 1] ++ be 4 (pk_seq k) /\ zlen b = 33 /\ firstn 4 (skipn 12 b) = be 4 code
  | P_SGIP => firstn 12 b = be 4 21 ++ [128; 0; 0; 1] ++ be 4 (pk_seq k) /\ firstn 8 (skipn 12 b) = firstn 8 (pk_body k) /\
              zlen b = 21 /\ nth 20 b 0 = code
  end.
