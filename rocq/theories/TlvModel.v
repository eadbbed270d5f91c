(** * TlvModel: model of /repo/utils/tlv.go.  The reader is a bytes.Buffer, as in the only
    caller (codec/smgp/submit.go); the list is container/list used front to back. *)
From Verif Require Import Base.

(** utils/tlv.go:19-23 object. *)
Record tlv := Tlv { t_typ : Z; t_len : Z; t_val : bytes }.

(** utils/tlv.go:45-58 Equal on two non-nil objects. *)
Definition tlv_equal (a b : tlv) : bool :=
  (t_typ a =? t_typ b) && (t_len a =? t_len b)
  && (if list_eq_dec Z.eq_dec (t_val a) (t_val b) then true else false).

(** utils/tlv.go:70-77 New: the length is uint16(len(val)) and the value is cut to it. *)
Definition tlv_New (typ : Z) (val : bytes) : tlv :=
  let n := u16 (zlen val) in Tlv typ n (firstn (Z.to_nat n) val).

(** Error values: io.EOF, io.ErrUnexpectedEOF, ErrTLVRead, ErrTLVWrite, ErrTypeNotFound. *)
Definition E_EOF := 1. Definition E_UNEXP := 2. Definition E_TLVRead := 3.
Definition E_TLVWrite := 4. Definition E_NotFound := 5.

(** binary.Read of a uint16 from a buffer: io.ReadFull semantics (EOF when nothing is left,
    ErrUnexpectedEOF when one byte is left). *)
Definition read_u16 (b : bytes) : res (Z * bytes) :=
  match b with
  | [] => Err E_EOF
  | [_] => Err E_UNEXP
  | x :: y :: r => Ok (x * 256 + y, r)
  end.

(** bytes.Buffer.Read into a slice of [n] bytes: an empty slice reads 0 bytes without
    error; an exhausted buffer gives io.EOF; otherwise as many bytes as available. *)
Definition buf_read (n : Z) (b : bytes) : res (bytes * bytes) :=
  if n =? 0 then Ok ([], b)
  else match b with
       | [] => Err E_EOF
       | _ => Ok (firstn (Z.to_nat n) b, skipn (Z.to_nat n) b)
       end.

(** utils/tlv.go:94-121 ReadObject. *)
Definition ReadObject (b : bytes) : res (tlv * bytes) :=
  '(typ, b1) <- read_u16 b ;;
  '(len, b2) <- read_u16 b1 ;;
  '(v, b3) <- buf_read len b2 ;;
  if negb (u16 (zlen v) =? len) then Err E_TLVRead
  else Ok (Tlv typ len v, b3).

(** utils/tlv.go:124-147 WriteObject, as the bytes appended and the returned error. *)
Definition WriteObject (o : tlv) : bytes * option Z :=
  (be 2 (t_typ o) ++ be 2 (t_len o) ++ t_val o,
   if u16 (zlen (t_val o)) =? t_len o then None else Some E_TLVWrite).

(** utils/tlv.go:162-164 Length. *)
Definition TlvLength (l : list tlv) : Z := i32 (zlen l).

(** utils/tlv.go:168-175 Get. *)
Fixpoint TlvGet (typ : Z) (l : list tlv) : res tlv :=
  match l with
  | [] => Err E_NotFound
  | o :: r => if t_typ o =? typ then Ok o else TlvGet typ r
  end.

(** utils/tlv.go:179-187 GetAll: append in order. *)
Fixpoint TlvGetAll_loop (typ : Z) (l acc : list tlv) : list tlv :=
  match l with
  | [] => acc
  | o :: r => TlvGetAll_loop typ r (if t_typ o =? typ then acc ++ [o] else acc)
  end.
Definition TlvGetAll (typ : Z) (l : list tlv) : list tlv := TlvGetAll_loop typ l [].

(** One pass of the inner loops utils/tlv.go:195-201 and 216-222: delete the first matching
    element, if any. *)
Fixpoint remove_first (f : tlv -> bool) (l : list tlv) : option (list tlv) :=
  match l with
  | [] => None
  | o :: r => if f o then Some r
              else match remove_first f r with Some r' => Some (o :: r') | None => None end
  end.

(** The outer loops utils/tlv.go:193-208 and 214-230; [fuel] = length + 1 suffices. *)
Fixpoint remove_loop (fuel : nat) (f : tlv -> bool) (l : list tlv) (total : Z) : list tlv * Z :=
  match fuel with
  | O => (l, total)
  | S k => match remove_first f l with
           | None => (l, total)
           | Some l' => remove_loop k f l' (total + 1)
           end
  end.

(** utils/tlv.go:191-208 Remove. *)
Definition TlvRemove (typ : Z) (l : list tlv) : list tlv * Z :=
  remove_loop (S (length l)) (fun o => t_typ o =? typ) l 0.
(** utils/tlv.go:212-230 RemoveObject (non-nil argument). *)
Definition TlvRemoveObject (x : tlv) (l : list tlv) : list tlv * Z :=
  remove_loop (S (length l)) (fun o => tlv_equal o x) l 0.

(** utils/tlv.go:233-241 Add, AddObject. *)
Definition TlvAdd (typ : Z) (v : bytes) (l : list tlv) : list tlv := l ++ [tlv_New typ v].
Definition TlvAddObject (o : tlv) (l : list tlv) : list tlv := l ++ [o].

(** utils/tlv.go:244-252 Write: stops at the first error. *)
Fixpoint TlvWrite (l : list tlv) : bytes * option Z :=
  match l with
  | [] => ([], None)
  | o :: r =>
    match WriteObject o with
    | (b, None) => let (b', e) := TlvWrite r in (b ++ b', e)
    | (b, Some e) => (b, Some e)
    end
  end.

(** utils/tlv.go:270-286 Read: objects until an error; io.EOF becomes nil. Every object
    consumes at least 4 bytes, so [fuel] = length + 1 suffices. *)
Fixpoint read_loop (fuel : nat) (b : bytes) : list tlv * option Z :=
  match fuel with
  | O => ([], Some 0)
  | S k => match ReadObject b with
           | Ok (o, b') => let (l, e) := read_loop k b' in (o :: l, e)
           | Err e => ([], Some e)
           | Panic => ([], Some 0)
           end
  end.
Definition TlvRead (b : bytes) : list tlv * option Z :=
  let (l, e) := read_loop (S (length b)) b in
  (l, match e with Some x => if x =? E_EOF then None else Some x | None => None end).
