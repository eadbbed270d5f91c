(** * SpecSgip: the SGIP field tables. *)
From Verif Require Import Base SpecWire SgipModel.

(** 20 byte head: length, command, three-part sequence number. *)
Definition head20 (len cmd : Z) (q : seq3) : list field :=
  let '(a, b, c) := q in [U 4 len; U 4 cmd; U 4 a; U 4 b; U 4 c].
Definition seq_wf (q : seq3) : Prop :=
  let '(a, b, c) := q in 0 <= a < 2 ^ 32 /\ 0 <= b < 2 ^ 32 /\ 0 <= c < 2 ^ 32.

Definition bind_body (b : bindp) : list field := [U 1 (bd_type b); T 16 (bd_name b); T 16 (bd_pwd b); T 8 []].
Definition bindrsp_body (r : srsp) : list field := [U 1 (sr_status r)].
Definition srsp_body (r : srsp) : list field := [U 1 (sr_status r); T 8 []].

Definition ssubmit_body (s : ssubmit) : list field :=
  [T 21 (ss_SPNumber s); T 21 (ss_ChargeNumber s); U 1 (ss_UserCount s)]
  ++ map (T 21) (ss_UserNumber s)
  ++ [T 5 (ss_CorpId s); T 10 (ss_ServiceType s); U 1 (ss_FeeType s); T 6 (ss_FeeValue s); T 6 (ss_GivenValue s);
      U 1 (ss_AgentFlag s); U 1 (ss_Morelate s); U 1 (ss_Priority s); T 16 (ss_ExpireTime s); T 16 (ss_ScheduleTime s);
      U 1 (ss_ReportFlag s); U 1 (ss_TpPid s); U 1 (ss_TpUdhi s); U 1 (ss_Coding s); U 1 (ss_MessageType s);
      U 4 (ss_MessageLength s); R (ss_Content s); T 8 (ss_Reserve s)].

Definition sdeliver_body (d : sdeliver) : list field :=
  [T 21 (sd_UserNumber d); T 21 (sd_SPNumber d); U 1 (sd_TpPid d); U 1 (sd_TpUdhi d); U 1 (sd_Coding d);
   U 4 (sd_MessageLength d); R (sd_Content d); T 8 (sd_Reserve d)].

Definition sreport_body (r : sreport) : list field :=
  map (U 4) (st_MtSequence r)
  ++ [U 1 (st_ReportType r); T 21 (st_UserNumber r); U 1 (st_State r); U 1 (st_ErrorCode r); T 8 (st_Reserve r)].
