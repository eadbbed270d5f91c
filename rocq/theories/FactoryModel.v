(** * FactoryModel: the client's session factories (msc_client/session_factory.go): which carrier a
    number goes to, which session is handed out, and the maintenance of the session list.

    Left out: logging, the shutdown hooks, the window channel (made, closed, never used), dialling
    itself.  What the environment answers (dialling, login, accounts, the limiter, the order the
    sort library leaves equal sessions in) comes as a parameter. *)
From Coq Require Import String Ascii.
From Verif Require Import Base UtilsModel OptionsModel FrameModel ClientModel.

(** ** Expressions *)
(** The part of Go's regular expressions that the shipped configuration uses: classes of bytes,
    sequence, alternative.  [rests r s]: what can be left of [s] after a match of [r] at its start.
    (The classes are ASCII, so a match by bytes is a match by characters.) *)
Inductive re := RCls (l : list (Z * Z)) | REps | RSeq (a b : re) | RAlt (a b : re).
Definition in_class (l : list (Z * Z)) (c : Z) : bool := existsb (fun '(a, b) => (a <=? c) && (c <=? b)) l.
Fixpoint rests (r : re) (s : bytes) : list bytes :=
  match r with
  | RCls l => match s with c :: t => if in_class l c then [t] else [] | [] => [] end
  | REps => [s]
  | RSeq a b => flat_map (rests b) (rests a s)
  | RAlt a b => rests a s ++ rests b s
  end.
(** regexp.MatchString of ^r$ *)
Definition MatchWhole (r : re) (s : bytes) : bool := existsb (fun t => match t with [] => true | _ => false end) (rests r s).
(** regexp.Compile on that part: digits, [..] with ranges, (..), |, {n}, between ^ and $.
    None: not of this form. *)
Fixpoint text (s : string) : bytes := match s with EmptyString => [] | String c r => Z.of_nat (nat_of_ascii c) :: text r end.
Definition is_digit (c : Z) : bool := (48 <=? c) && (c <=? 57).
Fixpoint p_class (s : bytes) (acc : list (Z * Z)) : option (re * bytes) :=
  match s with
  | 93 :: r => Some (RCls (rev acc), r)                                     (* ] *)
  | a :: 45 :: b :: r => if is_digit a && is_digit b then p_class r ((a, b) :: acc) else None    (* a-b *)
  | a :: r => if is_digit a then p_class r ((a, a) :: acc) else None
  | [] => None
  end.
Fixpoint times (n : nat) (r : re) : re := match n with O => REps | S k => RSeq r (times k r) end.
Definition p_times (r : re) (s : bytes) : option (re * bytes) :=
  match s with
  | 123 :: d :: 125 :: t => if is_digit d then Some (times (Z.to_nat (d - 48)) r, t) else None   (* {d} *)
  | _ => Some (r, s)
  end.
Fixpoint p_alt (fuel : nat) (s : bytes) : option (re * bytes) :=
  match fuel with
  | O => None
  | S k =>
    match p_seq k s REps with
    | Some (a, 124 :: r) => match p_alt k r with Some (b, t) => Some (RAlt a b, t) | None => None end   (* | *)
    | o => o
    end
  end
with p_seq (fuel : nat) (s : bytes) (acc : re) : option (re * bytes) :=
  match fuel with
  | O => None
  | S k =>
    let atom := match s with
                | 40 :: r => match p_alt k r with Some (a, 41 :: t) => Some (Some (a, t)) | _ => Some None end   (* ( ) *)
                | 91 :: r => Some (p_class r [])                                                               (* [ *)
                | c :: r => if is_digit c then Some (Some (RCls [(c, c)], r)) else None
                | [] => None
                end in
    match atom with
    | None => Some (acc, s)
    | Some None => None
    | Some (Some (a, t)) => match p_times a t with Some (a', t') => p_seq k t' (RSeq acc a') | None => None end
    end
  end.
Definition Compile (s : bytes) : option re :=
  match s with
  | 94 :: r => match p_alt (4 * length r) r with Some (a, [36]) => Some a | _ => None end   (* ^ $ *)
  | _ => None
  end.
(** msc_client/config/config.yaml:27, 37, 47 *)
Definition segment_of (p : proto) : bytes :=
  text (match p with
        | P_CMPP => "^1(((3[56789]|47|5[012789]|65|7[28]|8[23478]|9[578])[0-9])|34[0-8]|705)[0-9]{7}$"
        | P_SGIP => "^1(((3[012]|4[56]|5[56]|6[67]|7[156]|8[56]|9[6])[0-9])|709)[0-9]{7}$"
        | P_SMGP => "^1(((33|49|53|62|7[347]|8[019]|9[139])[0-9])|349|700)[0-9]{7}$"
        end)%string.

(** ** SelectSession *)
(** One factory, as far as choosing goes: its expression; None = the expression did not compile
    (session_factory.go:97-100: the error is logged, the nil expression kept). *)
Definition factory := option (bytes -> bool).
(** session_factory.go:47-62 and 71-76: the three places in the order of ISPS (line 361); [mk i] =
    what creating the factory gives (None: account not found, line 79), kept at line 139.  A nil
    expression panics at line 57. *)
Fixpoint select (mk : nat -> option factory) (phone : bytes) (i : nat) (fs : list (option factory)) : res (option nat * list (option factory)) :=
  match fs with
  | [] => Ok (None, [])
  | f :: r =>
    let f1 := match f with Some x => Some x | None => mk i end in
    match f1 with
    | None => '(o, r1) <- select mk phone (S i) r ;; Ok (o, None :: r1)
    | Some None => Panic
    | Some (Some m) => if m phone then Ok (Some i, Some (Some m) :: r) else '(o, r1) <- select mk phone (S i) r ;; Ok (o, Some (Some m) :: r1)
    end
  end.
(** session_factory.go:144-161 PeekSession.  [allow]: the limiter; [views]: what the loop finds after
    each sleep: all sessions by number and the head of the list.  Lines 149-151 never return: they
    ask a nil session for its health. *)
Inductive peeked := PeekNil | PeekWait | PeekGot (i : nat).
Fixpoint peek_loop (ret : option nat) (views : list ((nat -> csess) * option nat)) : peeked :=
  match views with
  | [] => PeekWait
  | (w, head) :: r =>
    let ret1 := match head with Some h => Some h | None => ret end in
    match ret1 with
    | Some i => if HealthCheck (w i) then PeekGot i else peek_loop ret1 r
    | None => peek_loop None r
    end
  end.
Definition PeekSession (allow : bool) (views : list ((nat -> csess) * option nat)) : peeked := if allow then peek_loop None views else PeekNil.

(** ** lruSort *)
(** session.go:78-84; uint64 *)
Definition LruPriority (s : csess) : Z := if HealthCheck s then u64 (10000000000 - cs_pcnt s) else 0.
(** session_factory.go:320-328 (the index checks never matter: sort passes indices below Len) *)
Definition Less (a b : csess) : bool := LruPriority b <? LruPriority a.
(** session.go:61-63 *)
Definition ResetCounter (s : csess) : csess := CSess (cs_p s) (cs_stat s) (cs_con s) (cs_ac s) 0 (cs_active s).
(** session_factory.go:291-300 on the sorted list: the sessions kept and the ones closed. A session
    carries its number. *)
Definition numbered := (nat * csess)%type.
Fixpoint keep_healthy (l : list numbered) : res (list numbered * list numbered) :=
  match l with
  | [] => Ok ([], [])
  | (i, s) :: r =>
    if HealthCheck s then '(k, c) <- keep_healthy r ;; Ok ((i, ResetCounter s) :: k, c)
    else s1 <- Close s ;; '(k, c) <- keep_healthy r ;; Ok (k, (i, s1) :: c)
  end.
(** session_factory.go:303-313: connect until there are enough; [tries] = what the following
    rounds of the loop meet: the shutdown signal, no session, or a new session. *)
Inductive try := TCancel | TNone | TMade (s : numbered).
Inductive filled := FillDone (l : list numbered) | FillStopped (l : list numbered) | FillGoesOn (l : list numbered).
Fixpoint fill (max : Z) (l : list numbered) (tries : list try) : filled :=
  if max <=? zlen l then FillDone l
  else match tries with
       | [] => FillGoesOn l
       | TCancel :: _ => FillStopped l
       | TNone :: r => fill max l r
       | TMade s :: r => fill max (l ++ [s]) r
       end.
(** session_factory.go:281-314 lruSort; [conf] = the configured max-conns, [sorted] = what sort.Sort
    left. *)
Definition lruSort (conf : Z) (sorted : list numbered) (tries : list try) : res (filled * list numbered) :=
  let max := if conf <=? 0 then 2 else conf in
  '(k, c) <- keep_healthy sorted ;; Ok (fill max k tries, c).
