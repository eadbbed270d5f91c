(** * OptionsModel: /repo/codec/options_mt.go and /repo/codec/auth_conf.go. *)
From Verif Require Import Base.

(** codec/auth_conf.go:10-31 AuthConf. Strings are byte strings; MtValidDuration is kept in
    nanoseconds. *)
Record authconf := AuthConf {
  ac_ISP : bytes; ac_ClientId : bytes; ac_LoginName : bytes; ac_SharedSecret : bytes;
  ac_Version : Z; ac_NeedReport : Z; ac_SmsDisplayNo : bytes; ac_ServiceId : bytes;
  ac_DefaultMsgLevel : Z; ac_FeeUserType : Z; ac_FeeTerminalType : Z; ac_FeeTerminalId : bytes;
  ac_FeeType : bytes; ac_FeeCode : bytes; ac_FixedFee : bytes; ac_LinkId : bytes;
  ac_MtValidDuration : Z; ac_MaxConns : Z; ac_MtWindowSize : Z; ac_Throughput : Z }.

(** codec/options_mt.go:22-35 MtOptions *)
Record mtopts := MtOpts {
  o_NeedReport : Z; o_MsgLevel : Z; o_FeeUsertype : Z; o_FeeTerminalType : Z;
  o_ServiceId : bytes; o_FeeTerminalId : bytes; o_FeeType : bytes; o_FeeCode : bytes;
  o_ValidTime : bytes; o_AtTime : bytes; o_SpSubNo : bytes; o_LinkID : bytes }.

(** codec/options_mt.go:9-15: 0xf marks "unspecified"; strings start empty. *)
Definition mt_default : mtopts := MtOpts 15 15 15 15 [] [] [] [] [] [] [] [].

(** The option constructors, codec/options_mt.go:38-163.  [OAtTime s]: [s] is the 12-digit
    result of t.Format("060102150405") (computed in TimeModel). *)
Inductive mtopt :=
| OWith (o : mtopts)            (* 38-42 *)
| OFeeTerminalType (t : Z)      (* 45-52 *)
| OFeeUsertype (t : Z)          (* 59-66 *)
| OLinkID (s : bytes)           (* 69-73 *)
| OSpSubNo (s : bytes)          (* 76-80 *)
| OAtTime (s : bytes)           (* 83-88 *)
| OAtTimeStr (s : bytes)        (* 91-98 *)
| OValidTime (s : bytes)        (* 101-105 *)
| OFeeCode (s : bytes)          (* 108-112 *)
| OFeeType (s : bytes)          (* 120-127 *)
| OFeeTerminalId (s : bytes)    (* 130-134 *)
| OServiceId (s : bytes)        (* 137-141 *)
| ONeedReport (t : Z)           (* 144-151 *)
| OMsgLevel (l : Z).            (* 154-161 *)

Definition beqb (a b : bytes) : bool := if list_eq_dec Z.eq_dec a b then true else false.
Definition sfx_032 : bytes := [48; 51; 50; 43].  (* "032+" *)

(** Applying one option (the returned OptionFunc) to the structure.  OWith assigns the
    callee's own copy of the pointer (line 40): nothing changes. *)
Definition apply_opt (r : mtopts) (o : mtopt) : mtopts :=
  let '(MtOpts nr ml fu ft si fi fty fc vt atm sp li) := r in
  match o with
  | OWith _ => r
  | OFeeTerminalType t =>
      let t := if negb (t =? 0) && negb (t =? 1) then 15 else t in MtOpts nr ml fu t si fi fty fc vt atm sp li
  | OFeeUsertype t =>
      let t := if negb (t =? 0) && negb (t =? 1) && negb (t =? 2) && negb (t =? 3) then 15 else t in
      MtOpts nr ml t ft si fi fty fc vt atm sp li
  | OLinkID s => MtOpts nr ml fu ft si fi fty fc vt atm sp s
  | OSpSubNo s => MtOpts nr ml fu ft si fi fty fc vt atm s li
  | OAtTime s => MtOpts nr ml fu ft si fi fty fc vt (s ++ sfx_032) sp li
  | OAtTimeStr s =>
      let s := if 12 <? zlen s then firstn 12 s else s in MtOpts nr ml fu ft si fi fty fc vt (s ++ sfx_032) sp li
  | OValidTime s => MtOpts nr ml fu ft si fi fty fc s atm sp li
  | OFeeCode s => MtOpts nr ml fu ft si fi fty s vt atm sp li
  | OFeeType s =>
      let s := if negb (beqb s [48;49]) && negb (beqb s [48;50]) && negb (beqb s [48;51])
                  && negb (beqb s [48;52]) && negb (beqb s [48;53]) then [] else s in
      MtOpts nr ml fu ft si fi s fc vt atm sp li
  | OFeeTerminalId s => MtOpts nr ml fu ft si s fty fc vt atm sp li
  | OServiceId s => MtOpts nr ml fu ft s fi fty fc vt atm sp li
  | ONeedReport t =>
      let t := if negb (t =? 0) && negb (t =? 1) then 15 else t in MtOpts t ml fu ft si fi fty fc vt atm sp li
  | OMsgLevel l => let l := if 9 <? l then 15 else l in MtOpts nr l fu ft si fi fty fc vt atm sp li
  end.

(** codec/options_mt.go:9-20 LoadMtOptions *)
Definition LoadMtOptions (ops : list mtopt) : mtopts := fold_left apply_opt ops mt_default.
