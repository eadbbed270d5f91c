(** * ShareModel: the identifier generators used by many goroutines, statement by statement.
    /repo/utils/cycle_sequence.go:31-37, utils/snowflake/snowflake.go:35-62, utils/snowflake32/snowflake32.go:36-58,
    utils/bcd_sequence.go:37-53, codec/sgip/sequence.go:27-52.

    SeqModel has a whole NextVal as one step; here a NextVal is Lock, its statements one by one on the generator's
    fields, Unlock, with those of any number of goroutines in any order.  sync.Mutex: one holder at a time, whoever
    waits may be next. *)
From Verif Require Import Base UtilsModel SeqModel.

Section Shared.
Context {St Lo C R : Type}.
(** A statement: it changes the fields and goes on, reads the clock, or returns. *)
Inductive act := Go (s : St) (l : Lo) | Ask (k : C -> St * Lo) | Ret (s : St) (r : R).
Inductive who := Idle | Wants | Runs (l : Lo) | Leaves (r : R).
Record shared := Sh { sh_obj : St; sh_lock : option nat; sh_th : list who; sh_log : list (nat * R) }.
Inductive shev := Call (t : nat) | Move (t : nat) (now : C).
Definition put (l : list who) (t : nat) (w : who) : list who := firstn t l ++ [w] ++ skipn (S t) l.
(** [code]: the statements of NextVal, [l0]: its first one. *)
Definition sh_step (code : St -> Lo -> act) (l0 : Lo) (g : shared) (e : shev) : shared :=
  match e with
  | Call t => match nth_error (sh_th g) t with Some Idle => Sh (sh_obj g) (sh_lock g) (put (sh_th g) t Wants) (sh_log g) | _ => g end
  | Move t now =>
    match nth_error (sh_th g) t with
    | Some Wants => match sh_lock g with None => Sh (sh_obj g) (Some t) (put (sh_th g) t (Runs l0)) (sh_log g) | Some _ => g end
    | Some (Runs l) =>
      match code (sh_obj g) l with
      | Go s l1 => Sh s (sh_lock g) (put (sh_th g) t (Runs l1)) (sh_log g)
      | Ask k => let '(s, l1) := k now in Sh s (sh_lock g) (put (sh_th g) t (Runs l1)) (sh_log g)
      | Ret s r => Sh s (sh_lock g) (put (sh_th g) t (Leaves r)) (sh_log g)
      end
    | Some (Leaves r) => Sh (sh_obj g) None (put (sh_th g) t Idle) (sh_log g ++ [(t, r)])
    | _ => g
    end
  end.
Definition sh_run (code : St -> Lo -> act) (l0 : Lo) (g : shared) (es : list shev) : shared := fold_left (sh_step code l0) es g.
Definition sh_start (n : nat) (s : St) : shared := Sh s None (repeat Idle n) [].
End Shared.
Arguments act : clear implicits.
Arguments who : clear implicits.
Arguments shared : clear implicits.
Arguments shev : clear implicits.

(** cycle_sequence.go:34-36 *)
Definition cyc_code (s : cyc) (pc : nat) : act cyc nat unit Z :=
  match pc with
  | O => Go (Cyc (cy_dc s) (cy_worker s) (Z.land (i32 (cy_seq s + 1)) 67108863)) 1%nat
  | _ => Ret s (Z.lor (Z.lor (shl32 (cy_dc s) 31) (shl32 (cy_worker s) 28)) (cy_seq s))
  end.
(** snowflake.go:38-61; a loop of the wait is one reading *)
Inductive sf_pc := FNow | FSame (now : Z) | FInc (now : Z) | FFull (now : Z) | FWait (now : Z) | FMax (now : Z) | FRet (t : Z).
Definition sf_code (s : sf) (l : sf_pc) : act sf sf_pc Z Z :=
  let seq_to q := Sf (sf_ts s) (sf_worker s) (sf_dc s) q in
  match l with
  | FNow => Ask (fun now => (s, FSame now))
  | FSame now => if sf_ts s =? now then Go s (FInc now) else Go (seq_to 0) (FMax now)
  | FInc now => Go (seq_to (Z.land (sf_seq s + 1) sf_sequenceMask)) (FFull now)
  | FFull now => if sf_seq s =? 0 then Go s (FWait now) else Go s (FMax now)
  | FWait now => if now <=? sf_ts s then Ask (fun n => (s, FWait n)) else Go s (FMax now)
  | FMax now => if sf_timestampMax <? now - sf_epoch then Ret s 0 else Go (Sf now (sf_worker s) (sf_dc s) (sf_seq s)) (FRet (now - sf_epoch))
  | FRet t => Ret s (sf_pack t (sf_dc s) (sf_worker s) (sf_seq s))
  end.
(** snowflake32.go:39-57 *)
Definition s32_code (s : sf32) (l : sf_pc) : act sf32 sf_pc Z Z :=
  let seq_to q := Sf32 (s32_sec s) (s32_dc s) (s32_worker s) q in
  match l with
  | FNow => Ask (fun now => (s, FSame now))
  | FSame now => if s32_sec s =? now then Go s (FInc now) else Go (seq_to 0) (FMax now)
  | FInc now => Go (seq_to (Z.land (s32_seq s + 1) 511)) (FFull now)
  | FFull now => if s32_seq s =? 0 then Go s (FWait now) else Go s (FMax now)
  | FWait now => if now <=? s32_sec s then Ask (fun n => (s, FWait n)) else Go s (FMax now)
  | FMax now => Go (Sf32 now (s32_dc s) (s32_worker s) (s32_seq s)) (FRet now)
  | FRet t => Ret s (s32_pack (s32_sec s) (s32_dc s) (s32_worker s) (s32_seq s))
  end.
(** bcd_sequence.go:40-52; the reading is the minute as a number MMDDHHMM *)
Inductive bcd_pc := BNow | BSame (mi : bytes) | BStamp (mi : bytes) | BRet.
Definition bcd_code (s : bcdseq) (l : bcd_pc) : act bcdseq bcd_pc Z (res bytes) :=
  match l with
  | BNow => Ask (fun m => (s, BSame (minute_str m)))
  | BSame mi => Go (Bcd (bcd_worker s) (bcd_ts s) (if bytes_eqb (bcd_ts s) mi then (bcd_seq s + 1) mod 1000000 else 0)) (BStamp mi)
  | BStamp mi => Go (Bcd (bcd_worker s) mi (bcd_seq s)) BRet
  | BRet => Ret s (f1 <- copy_at (zeros 10) 0 3 (bcd_worker s) ;; f2 <- copy_at f1 3 7 (StoBcd (bcd_ts s)) ;;
                   sq <- IntToFixStr (bcd_seq s) 6 ;; copy_at f2 7 10 (StoBcd sq))
  end.
(** sgip/sequence.go:30-42 *)
Inductive sg_pc := GSeq | GNow | GAdd (k : nat) (t : tod).
Definition sg_code (s : sgseq) (l : sg_pc) : act sgseq sg_pc tod (Z * Z * Z) :=
  let ts_to v := SgSeq (sg_node s) v (sg_seq s) in
  match l with
  | GSeq => Go (SgSeq (sg_node s) (sg_ts s) (Z.land (u32 (sg_seq s + 31)) 4294967295)) GNow
  | GNow => Ask (fun t => (s, GAdd 0 t))
  | GAdd 0 t => Go (ts_to (u32 (t_mon t * 100000000))) (GAdd 1 t)
  | GAdd 1 t => Go (ts_to (u32 (sg_ts s + u32 (t_day t * 1000000)))) (GAdd 2 t)
  | GAdd 2 t => Go (ts_to (u32 (sg_ts s + u32 (t_hour t * 10000)))) (GAdd 3 t)
  | GAdd 3 t => Go (ts_to (u32 (sg_ts s + u32 (t_min t * 100)))) (GAdd 4 t)
  | GAdd 4 t => Go (ts_to (u32 (sg_ts s + u32 (t_sec t)))) (GAdd 5 t)
  | GAdd _ t => Ret s (sg_node s, sg_ts s, sg_seq s)
  end.
(** sgip/sequence.go:45-51 CurVal: without the lock; simplified: the three reads at one moment *)
Definition CurVal (s : sgseq) : Z * Z * Z := (sg_node s, sg_ts s, sg_seq s).
