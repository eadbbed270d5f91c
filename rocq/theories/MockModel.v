(** * MockModel: the simulator's dice and its simulated incoming messages.
    /repo/utils/utils.go:226-233, /repo/msc_server/server/on_tick.go:113-165. *)
From Coq Require Import Floats.SpecFloat.
From Verif Require Import Base UtilsModel OptionsModel FrameModel CmppModel SmgpModel.

(** float64 of a whole number, and division of two of them: IEEE 754 binary64, round to
    nearest even (Coq's executable specification of it). *)
Definition f64 (z : Z) : spec_float := binary_normalize 53 1024 z 0 false.
Definition fdiv (x y : spec_float) : spec_float := SFdiv 53 1024 x y.

(** utils/utils.go:231-233 DiceCheck; [r] = rand.Intn(10000) *)
Definition DiceCheck (r : Z) (prob : spec_float) : bool := SFltb prob (fdiv (f64 r) (f64 10000)).

(** utils/utils.go:226-228 RandNum; rand.Intn panics unless its argument is positive; [d] =
    what it draws *)
Definition RandNum (min max d : Z) : res Z := if max - min <=? 0 then Panic else Ok (d + min).

(** strings.Split for a separator that is not empty *)
Fixpoint starts (sep s : bytes) : option bytes :=
  match sep, s with
  | [], _ => Some s
  | a :: sep', b :: s' => if a =? b then starts sep' s' else None
  | _ :: _, [] => None
  end.
Fixpoint cut (sep s : bytes) : option (bytes * bytes) :=
  match starts sep s with
  | Some r => Some ([], r)
  | None => match s with
            | [] => None
            | c :: t => match cut sep t with Some (a, b) => Some (c :: a, b) | None => None end
            end
  end.
Fixpoint split_fuel (k : nat) (sep s : bytes) : list bytes :=
  match k with
  | O => [s]
  | S k' => match cut sep s with Some (a, b) => a :: split_fuel k' sep b | None => [s] end
  end.
Definition Split (s sep : bytes) : list bytes := split_fuel (length s) sep s.

(** The text _,_ *)
Definition mock_sep : bytes := [95; 44; 95].

(** Server.Mock.Delivery of the configuration: Enable, Rate, Contents *)
Record mockconf := MockConf { mk_enable : bool; mk_rate : spec_float; mk_contents : list bytes }.
(** What the random source and the generators give: the dice, the index, B32Seq, B64Seq,
    BcdSeq, the clock (14 digits), the clock byte of MsgSlices. *)
Record mockorc := MockOrc { mo_dice : Z; mo_pick : Z; mo_seq : Z; mo_b64 : Z; mo_bcd : bytes; mo_now : bytes; mo_g : Z }.

(** on_tick.go:114-139: number suffix and text, if a message is to be simulated.  This part
    runs on the event loop. *)
Definition mock_entry (cf : mockconf) (o : mockorc) (cli : option authconf) : res (option (bytes * bytes)) :=
  if negb (mk_enable cf) then Ok None
  else if DiceCheck (mo_dice o) (mk_rate cf) then Ok None
  else match cli with
       | None => Ok None
       | Some _ =>
         match mk_contents cf with
         | [] => Ok None
         | _ =>
           k <- RandNum 0 (zlen (mk_contents cf)) (mo_pick o) ;;
           content <- (match nth_error (mk_contents cf) (Z.to_nat k) with
                       | Some x => if k <? 0 then Panic else Ok x
                       | None => Panic end) ;;
           match Split content mock_sep with
           | subNo :: text :: _ => Ok (Some (subNo, text))
           | _ => Ok None
           end
         end
       end.
(** The senders of line 145 and line 149. *)
Definition mock_from_cmpp : bytes := [49;56;54;48;48;48;48;49;49;49;49].
Definition mock_from_smgp : bytes := [49;51;51;48;48;48;48;49;49;49;49].
(** on_tick.go:140-155: the packet written, in the pool; nothing for SGIP *)
Definition mock_packet (gbe : bytes -> option bytes) (p : proto) (o : mockorc) (cli : authconf) (subNo text : bytes) : option (res bytes) :=
  match p with
  | P_CMPP => Some (Delivery_Encode (mo_g o) (NewDelivery cli mock_from_cmpp text subNo (ac_ServiceId cli) (u32 (mo_seq o)) (mo_b64 o)))
  | P_SGIP => None
  | P_SMGP => Some (MDeliver_Encode (smgp_NewDeliver gbe cli mock_from_smgp subNo text (u32 (mo_seq o)) (mo_bcd o) (mo_now o)))
  end.
(** on_tick.go:114-165 mockDelivery: the packet handed to AsyncWrite, if any. *)
Definition mockDelivery (gbe : bytes -> option bytes) (cf : mockconf) (p : proto) (o : mockorc) (cli : option authconf) : res (option (res bytes)) :=
  e <- mock_entry cf o cli ;;
  match e, cli with
  | Some (subNo, text), Some ac => Ok (mock_packet gbe p o ac subNo text)
  | _, _ => Ok None
  end.
