(** * SpecCmpp: the CMPP 2.x / 3.x field tables (packet bodies and heads). *)
From Verif Require Import Base SpecWire CmppModel.

(** The 3.x layouts apply when the major version (high four bits) is 3. *)
Definition v3 (v : Z) : Prop := Z.shiftr v 4 mod 16 = 3.

Definition head_wf (h : chead) : Prop :=
  12 <= h_len h < 2 ^ 32 /\ 0 <= h_cmd h < 2 ^ 32 /\ 0 <= h_seq h < 2 ^ 32.

Definition connect_layout (c : connect) : list field :=
  head 39 1 (h_seq (cn_h c)) ++
  [T 6 (cn_sourceAddr c); R (cn_auth c); U 1 (cn_version c); U 4 (cn_timestamp c)].

Definition connect_resp_layout (three : bool) (r : connect_resp) : list field :=
  head (if three then 33 else 30) 2147483649 (h_seq (cr_h r)) ++
  [U (if three then 4 else 1) (cr_status r); R (cr_auth r); U 1 (cr_version r)].

(** CMPP_SUBMIT body: fields in protocol order. 2.x ends with 8 reserved bytes, 3.x with the
    link id. *)
Definition submit_body (three : bool) (s : submit) : list field :=
  [U 8 0; U 1 (sb_pkTotal s); U 1 (sb_pkNumber s); U 1 (sb_registeredDel s); U 1 (sb_msgLevel s);
   T 10 (sb_serviceId s); U 1 (sb_feeUsertype s)]
  ++ (if three then [T 32 (sb_feeTerminalId s); U 1 (sb_feeTerminalType s)] else [T 21 (sb_feeTerminalId s)])
  ++ [U 1 (sb_tpPid s); U 1 (sb_tpUdhi s); U 1 (sb_msgFmt s); T 6 (sb_msgSrc s); T 2 (sb_feeType s);
      T 6 (sb_feeCode s); T 17 (sb_validTime s); T 17 (sb_atTime s); T 21 (sb_srcId s); U 1 (sb_destUsrTl s);
      R (sb_termIds s)]
  ++ (if three then [U 1 (sb_destTerminalType s)] else [])
  ++ [U 1 (sb_msgLength s); R (sb_msgContent s)]
  ++ (if three then [T 20 (sb_linkID s)] else [U 8 0]).

(** The destination field: one fixed-width slot per number. *)
Definition ids_field (three : bool) (phones : list bytes) : list field :=
  map (T (if three then 32%nat else 21%nat)) phones.

Definition resp_body (three : bool) (r : cresp) : list field :=
  [U 8 (rs_msgId r); U (if three then 4 else 1) (rs_result r)].

Definition report_body (r : creport) : list field :=
  [U 8 (rp_msgId r); T 7 (rp_stat r); T 10 (rp_submitTime r); T 10 (rp_doneTime r);
   T 21 (rp_destTerminalId r); U 4 (rp_smscSequence r)].

(** CMPP_DELIVER body around the content bytes [content]. *)
Definition delivery_body (three : bool) (d : delivery) (content : bytes) : list field :=
  [U 8 (dl_msgId d); T 21 (dl_destId d); T 10 (dl_serviceId d); U 1 (dl_tpPid d); U 1 (dl_tpUdhi d);
   U 1 (dl_msgFmt d)]
  ++ (if three then [T 32 (dl_srcTerminalId d); U 1 (dl_srcTerminalType d)] else [T 21 (dl_srcTerminalId d)])
  ++ [U 1 (dl_registeredDelivery d); U 1 (dl_msgLength d); R content]
  ++ (if three then [T 20 (dl_linkID d)] else [U 8 0]).
