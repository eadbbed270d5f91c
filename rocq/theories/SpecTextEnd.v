(** * SpecTextEnd: what it means that a server's request is the message a client was asked to send.
    Only the records of the two programs' data are used, none of their functions. *)
From Verif Require Import Base SpecText SpecWire OptionsModel CmppModel SgipModel SmgpModel FrameModel ServerModel ClientModel.

(** The sends the client application asked for, in order: text, options, numbers (a send without
    numbers does nothing). *)
Definition begun (es : list cevent) : list (bytes * list mtopt * list bytes) :=
  flat_map (fun e => match e with CBegin _ m o (p :: ps) => [(m, o, p :: ps)] | _ => [] end) es.
(** The request has exactly one recipient, this number. *)
Definition addressed (r : request) (phone : bytes) : Prop :=
  match r with
  | QCmpp s => sb_destUsrTl s = 1 /\ sb_destTerminalId s = phone
  | QSgip s => ss_UserNumber s = [phone]
  | QSmgp s => ms_destTermID s = [phone]
  end.
(** The request carries this text (UTF-8): as it is under format 0, in UTF-16 under format 8; an
    SMGP request holds the text already converted from GB18030. *)
Definition carries (fmt : Z) (content msg : bytes) : Prop :=
  fmt = 0 /\ content = msg \/ fmt = 8 /\ exists cs, utf8_text cs msg /\ utf16be_text cs content.
Definition reads (r : request) (msg : bytes) : Prop :=
  match r with
  | QCmpp s => carries (sb_msgFmt s) (sb_msgContent s) msg
  | QSgip s => carries (ss_Coding s) (ss_Content s) msg
  | QSmgp s => ms_content s = msg
  end.
(** Not empty, and not beginning with the header of a long message (or a prefix of one). *)
Definition headless (c : bytes) : Prop := c <> [] /\ firstn 3 c <> firstn (length (firstn 3 c)) [5; 0; 3].
(** Texts that go into one packet: less than 160 bytes of ASCII, less than 140 bytes of UTF-16 for
    other texts of CMPP and SGIP; less than 140 bytes of GB18030 for SMGP, when the server's decoder
    undoes the client's encoder. *)
Definition short (p : proto) (gbe gbd : bytes -> option bytes) (msg : bytes) : Prop :=
  match p with
  | P_SMGP => exists data, gbe msg = Some data /\ gbd data = Some msg /\ zlen data < 140 /\ headless data
  | _ => exists cs, utf8_text cs msg /\
      ((forall c, In c cs -> c < 128) /\ zlen msg < 160 /\ headless msg \/
       (exists c, In c cs /\ 128 <= c) /\ forall u, utf16be_text cs u -> zlen u < 140 /\ headless u)
  end.

(** ** Texts that fit into the packets' fields *)
Definition opt_fits (display : bytes) (o : mtopt) : Prop :=
  match o with
  | OLinkID s => fits 20 s
  | OSpSubNo s => fits 21 (display ++ s)
  | OAtTime s => fits 12 s
  | OAtTimeStr s => ~ In 0 s
  | OValidTime s => fits 16 s
  | OFeeCode s => fits 6 s
  | OFeeTerminalId s => fits 21 s
  | OServiceId s => fits 10 s
  | OFeeTerminalType t | OFeeUsertype t | ONeedReport t | OMsgLevel t => is_byte t
  | OFeeType _ | OWith _ => True
  end.
Definition account_fits (p : proto) (ac : authconf) : Prop :=
  fits (match p with P_CMPP => 6 | _ => 21 end) (ac_SmsDisplayNo ac) /\ fits 10 (ac_ServiceId ac) /\ fits 21 (ac_FeeTerminalId ac) /\
  fits 2 (ac_FeeType ac) /\ fits 6 (ac_FeeCode ac) /\ fits 6 (ac_FixedFee ac) /\ fits 20 (ac_LinkId ac) /\ fits 10 (ac_ClientId ac) /\
  is_byte (ac_Version ac) /\ is_byte (ac_NeedReport ac) /\ is_byte (ac_DefaultMsgLevel ac) /\ is_byte (ac_FeeUserType ac) /\ is_byte (ac_FeeTerminalType ac).
(** Everything a client with this account is given fits: options, numbers, the formatted times. *)
Definition given_fits (display : bytes) (es : list cevent) : Prop :=
  Forall (fun e => match e with
    | CBegin _ _ ops phones => Forall (opt_fits display) ops /\ Forall (fits 21) phones
    | CPick _ _ d _ => fits 16 (d_valid d) /\ fits 16 (d_now d)
    | _ => True
    end) es.
