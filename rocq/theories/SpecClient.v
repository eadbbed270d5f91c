(** * SpecClient: what the client's results must show, told from the log of what happened outside. *)
From Verif Require Import Base SpecText ClientModel FrameModel.

(** ** Packets on the wire *)
(** The number that identifies a submit packet in its protocol: the sequence field of the header
    (CMPP, SMGP: bytes 8-11; SGIP: the last two of its three fields, bytes 12-19). *)
Definition wire_key (p : proto) (b : bytes) : Z :=
  match p with P_SGIP => unbe (firstn 8 (skipn 12 b)) | _ => unbe (firstn 4 (skipn 8 b)) end.

(** ** What the log tells *)
(** The packets whose results were recorded, oldest first: sender, number, wire key. *)
Definition recs (log : list cobs) : list (nat * bytes * Z) :=
  flat_map (fun o => match o with ORec t p phone b => [(t, phone, wire_key p b)] | _ => [] end) log.
(** An SGIP submit answer: the three numbers and the result code. *)
Record sganswer := SGAnswer { sa_a : Z; sa_b : Z; sa_c : Z; sa_code : Z }.
Definition sg_answer (o : cobs) : option sganswer :=
  match o with
  | OGotP _ P_SGIP cmd seq body =>
    if (cmd =? 2147483651) && (9 <=? zlen body)
    then Some (SGAnswer seq (unbe (firstn 4 body)) (unbe (firstn 4 (skipn 4 body))) (nth 8 body 0)) else None
  | _ => None
  end.
Definition sa_key (a : sganswer) : Z := sa_b a * 2 ^ 32 + sa_c a.
(** The last answer to packet k that came after its result was recorded. *)
Definition la_step (k : Z) (x : option sganswer) (o : cobs) : option sganswer :=
  match o with
  | ORec _ p _ b => if wire_key p b =? k then None else x
  | _ => match sg_answer o with Some a => if sa_key a =? k then Some a else x | None => x end
  end.
Definition last_answer (log : list cobs) (k : Z) : option sganswer := fold_left (la_step k) log None.

(** ** What a result must show *)
(** Decimal digits; the value of a text of digits. *)
Definition dec_value (t : bytes) : Z := fold_left (fun a d => a * 10 + (d - 48)) t 0.
Definition all_digits (t : bytes) : Prop := Forall (fun d => 48 <= d <= 57) t.
(** The text of an SGIP message id: two numbers of ten decimal digits and one of eight hexadecimal digits. *)
Definition sg_text (a : sganswer) (t : bytes) : Prop :=
  exists x y z, t = x ++ y ++ z /\ zlen x = 10 /\ zlen y = 10 /\ zlen z = 8
    /\ all_digits x /\ all_digits y /\ dec_value x = sa_a a /\ dec_value y = sa_b a /\ hex_value z = Some (sa_c a).
Definition shows (r : result) (x : option sganswer) : Prop :=
  match x with
  | Some a => rt_result r = sa_code a /\ sg_text a (rt_msgid r)
  | None => rt_result r = 0 /\ rt_msgid r = [] /\ rt_resp r = 0
  end.

(** ** What a send must return *)
(** The packets whose results send t collects: all recorded, except those of a number one of whose
    writes failed. *)
Definition hv_step (t : nat) (x : list (bytes * Z) * list (bytes * Z)) (o : cobs) : list (bytes * Z) * list (bytes * Z) :=
  let '(fin, cur) := x in
  match o with
  | OPick t' _ => if (t' =? t)%nat then (fin ++ cur, []) else x
  | ORec t' p phone b => if (t' =? t)%nat then (fin, cur ++ [(phone, wire_key p b)]) else x
  | OBroke t' _ => if (t' =? t)%nat then (fin, []) else x
  | _ => x
  end.
Definition harvest (t : nat) (log : list cobs) : list (bytes * Z) :=
  let '(fin, cur) := fold_left (hv_step t) log ([], []) in fin ++ cur.
