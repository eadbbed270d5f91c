(** * SpecSmgp: the SMGP field tables. *)
From Coq Require Import String.
From Verif Require Import Base SpecWire SpecReport SmgpModel.

Definition login_body (l : login) : list field :=
  [T 8 (lg_clientID l); R (lg_auth l); U 1 (lg_mode l); U 4 (lg_timestamp l); U 1 (lg_version l)].
Definition login_rsp_body (r : login_rsp) : list field :=
  [U 4 (lr_status r); R (lr_auth r); U 1 (lr_version r)].
(** Submit; [opts] are the rendered optional parameters. *)
Definition msubmit_body (s : msubmit) (opts : bytes) : list field :=
  [U 1 (ms_msgType s); U 1 (ms_needReport s); U 1 (ms_priority s); T 10 (ms_serviceID s); T 2 (ms_feeType s);
   T 6 (ms_feeCode s); T 6 (ms_fixedFee s); U 1 (ms_msgFormat s); T 17 (ms_validTime s); T 17 (ms_atTime s);
   T 21 (ms_srcTermID s); T 21 (ms_chargeTermID s); U 1 (ms_count s)]
  ++ map (T 21) (ms_destTermID s)
  ++ [U 1 (ms_msgLength s); R (ms_content s); T 8 (ms_reserve s); R opts].
Definition mresp_body (r : mresp) : list field := [R (mr_msgId r); U 4 (mr_status r)].
(** The content of a status report: labels and fixed width values, 122 bytes; the last 20
    bytes (text) stay empty. *)
Local Open Scope string_scope.
Definition mreport_body (r : mreport) : list field :=
  [R (chars "id:"); R (mp_id r); R (chars " sub:"); R (mp_sub r); R (chars " dlvrd:"); R (mp_dlvrd r);
   R (chars " submit date:"); R (mp_submitDate r); R (chars " done date:"); R (mp_doneDate r);
   R (chars " stat:"); R (mp_stat r); R (chars " err:"); R (mp_err r); R (chars " text:"); T 20 []].
Local Close Scope string_scope.
(** Deliver with content bytes [c]. *)
Definition mdeliver_body (d : mdeliver) (c : bytes) : list field :=
  [R (md_msgId d); U 1 (md_isReport d); U 1 (md_msgFormat d); T 14 (md_recvTime d); T 21 (md_srcTermID d);
   T 21 (md_destTermID d); U 1 (md_msgLength d); R c; T 8 (md_reserve d)].
