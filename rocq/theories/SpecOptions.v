(** * SpecOptions: what a list of submit options asks for, independent of how it is applied.
    Each parameter has a "request" function: the value an option asks for, if the option is
    about that parameter.  [last_set] is the last such request in the list. *)
From Verif Require Import Base OptionsModel.

Fixpoint last_set {V} (req : mtopt -> option V) (ops : list mtopt) : option V :=
  match ops with
  | [] => None
  | o :: r => match last_set req r with
              | Some v => Some v
              | None => req o
              end
  end.

Definition req_NeedReport o := match o with ONeedReport t => Some t | _ => None end.
Definition req_MsgLevel o := match o with OMsgLevel t => Some t | _ => None end.
Definition req_FeeUsertype o := match o with OFeeUsertype t => Some t | _ => None end.
Definition req_FeeTerminalType o := match o with OFeeTerminalType t => Some t | _ => None end.
Definition req_ServiceId o := match o with OServiceId s => Some s | _ => None end.
Definition req_FeeTerminalId o := match o with OFeeTerminalId s => Some s | _ => None end.
Definition req_FeeType o := match o with OFeeType s => Some s | _ => None end.
Definition req_FeeCode o := match o with OFeeCode s => Some s | _ => None end.
Definition req_ValidTime o := match o with OValidTime s => Some s | _ => None end.
Definition req_AtTime o :=
  match o with OAtTime s => Some (s ++ [48;51;50;43]) | OAtTimeStr s => Some (firstn 12 s ++ [48;51;50;43]) | _ => None end.
Definition req_SpSubNo o := match o with OSpSubNo s => Some s | _ => None end.
Definition req_LinkID o := match o with OLinkID s => Some s | _ => None end.

(** A range-checked numeric parameter: the last request if it is in range, else the marker
    15 = "unspecified". *)
Definition ranged (ok : Z -> Prop) (x : Z) (v : option Z) : Prop :=
  match v with
  | None => x = 15
  | Some t => (ok t -> x = t) /\ (~ ok t -> x = 15)
  end.
(** A free text parameter: the last request, else empty = "unspecified". *)
Definition text_or_empty (v : option bytes) : bytes := match v with Some s => s | None => [] end.
