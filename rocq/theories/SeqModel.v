(** * SeqModel: the identifier generators.
    /repo/utils/cycle_sequence.go, /repo/utils/snowflake/snowflake.go,
    /repo/utils/snowflake32/snowflake32.go, /repo/utils/bcd_sequence.go,
    /repo/codec/sgip/sequence.go.

    Every NextVal runs under the generator's mutex, so a concurrent execution is some
    sequence of whole NextVal calls; the models are functions of that sequence (ShareModel and
    PropShare prove this from the statements).
    The clock is an oracle: a list of readings, consumed one per time.Now() call. *)
From Verif Require Import Base UtilsModel.

(** Go shifts on int32 / int64: result wrapped to the type's width. *)
Definition shl32 (x : Z) (n : Z) : Z := i32 (Z.shiftl x n).
Definition shl64 (x : Z) (n : Z) : Z := i64 (Z.shiftl x n).

(** Outputs of [n] consecutive calls of a clock-less generator. *)
Fixpoint run_gen {S A} (next : S -> S * A) (n : nat) (s : S) : list A :=
  match n with
  | O => []
  | S k => let (s', a) := next s in a :: run_gen next k s'
  end.

(** ** CycleSequence *)

(** utils/cycle_sequence.go:11-16 *)
Record cyc := Cyc { cy_dc : Z; cy_worker : Z; cy_seq : Z }.

(** utils/cycle_sequence.go:27-29 NewCycleSequence *)
Definition NewCycle (d w : Z) : cyc := Cyc d w 0.

(** utils/cycle_sequence.go:31-37 NextVal; constants lines 18-24:
    sequenceMask = 0x03ffffff, workerShift = 28, datacenterShift = 31.
    [Z.lor]/[Z.land] on [Z] are two's-complement, as on int32. *)
Definition cyc_next (s : cyc) : cyc * Z :=
  let q := Z.land (i32 (cy_seq s + 1)) 67108863 in
  let r := Z.lor (Z.lor (shl32 (cy_dc s) 31) (shl32 (cy_worker s) 28)) q in
  (Cyc (cy_dc s) (cy_worker s) q, r).

(** ** Snowflake, 64 bit *)

Definition sf_epoch : Z := 1577808000000.       (* snowflake.go:12 *)
Definition sf_timestampMax : Z := 2199023255551. (* snowflake.go:17, 2^41-1 *)
Definition sf_sequenceMask : Z := 4095.          (* snowflake.go:18 *)

(** snowflake.go:24-30 *)
Record sf := Sf { sf_ts : Z; sf_worker : Z; sf_dc : Z; sf_seq : Z }.

(** snowflake.go:32-34 NewSnowflake *)
Definition NewSnowflake (d w : Z) : sf := Sf 0 w d 0.

(** snowflake.go:45-48 and snowflake32.go:46-49, the wait loop
    [for now <= timestamp { sleep; now = clock }]: first later reading that exceeds the
    bound, with the readings left; [None] when the given readings run out first (the call
    has not returned yet). *)
Fixpoint spin (bound : Z) (clk : list Z) : option (Z * list Z) :=
  match clk with
  | [] => None
  | now :: rest => if now <=? bound then spin bound rest else Some (now, rest)
  end.

(** snowflake.go:60 the id. *)
Definition sf_pack (t d w q : Z) : Z :=
  Z.lor (Z.lor (Z.lor (shl64 t 22) (shl64 d 19)) (shl64 w 12)) q.

(** snowflake.go:35-62 NextVal; [clk] are the successive readings of
    time.Now().UnixNano()/1000000.  [None]: the call has not returned within [clk]. *)
Definition sf_next (s : sf) (clk : list Z) : option (sf * Z * list Z) :=
  match clk with
  | [] => None
  | now0 :: rest =>
    let finish (now q : Z) (rest : list Z) :=
      let t := now - sf_epoch in
      if sf_timestampMax <? t
      then Some (Sf (sf_ts s) (sf_worker s) (sf_dc s) q, 0, rest)
      else Some (Sf now (sf_worker s) (sf_dc s) q, sf_pack t (sf_dc s) (sf_worker s) q, rest) in
    if sf_ts s =? now0 then
      let q := Z.land (sf_seq s + 1) sf_sequenceMask in
      if q =? 0 then
        match spin (sf_ts s) rest with
        | None => None
        | Some (now, rest') => finish now q rest'
        end
      else finish now0 q rest
    else finish now0 0 rest
  end.

(** snowflake.go:84-91 Parse. *)
Definition sf_parse (x : Z) : sf :=
  Sf (Z.shiftr x 22 + sf_epoch) (Z.land (Z.shiftr x 12) 127) (Z.land (Z.shiftr x 19) 7)
     (Z.land x 4095).

(** ** Snowflake, 32 bit *)

Record sf32 := Sf32 { s32_sec : Z; s32_dc : Z; s32_worker : Z; s32_seq : Z }.

(** snowflake32.go:32-34 NewSnowflake *)
Definition NewSnowflake32 (d w : Z) : sf32 := Sf32 0 d w 0.

(** snowflake32.go:56 *)
Definition s32_pack (t d w q : Z) : Z :=
  Z.lor (Z.lor (Z.lor (shl32 t 14) (shl32 d 12)) (shl32 w 9)) q.

(** snowflake32.go:36-58 NextVal; [clk] are the successive results of passedSeconds()
    (lines 89-92), i.e. seconds since local midnight. *)
Definition s32_next (s : sf32) (clk : list Z) : option (sf32 * Z * list Z) :=
  match clk with
  | [] => None
  | now0 :: rest =>
    let finish (now q : Z) (rest : list Z) :=
      Some (Sf32 now (s32_dc s) (s32_worker s) q, s32_pack now (s32_dc s) (s32_worker s) q, rest) in
    if s32_sec s =? now0 then
      let q := Z.land (s32_seq s + 1) 511 in
      if q =? 0 then
        match spin (s32_sec s) rest with
        | None => None
        | Some (now, rest') => finish now q rest'
        end
      else finish now0 q rest
    else finish now0 0 rest
  end.

(** snowflake32.go:60-67 Parse. *)
Definition s32_parse (x : Z) : sf32 :=
  Sf32 (Z.shiftr x 14) (Z.land (Z.shiftr x 12) 3) (Z.land (Z.shiftr x 9) 7) (Z.land x 511).

(** A sequence of [n] calls against one clock trace: the ids returned by the calls that
    completed (the last call may still be waiting when the trace ends). *)
Fixpoint run_clk {S} (next : S -> list Z -> option (S * Z * list Z)) (n : nat) (s : S)
         (clk : list Z) : list Z :=
  match n with
  | O => []
  | Datatypes.S k => match next s clk with
           | None => []
           | Some (s', v, rest) => v :: run_clk next k s' rest
           end
  end.

(** ** BcdSequence *)

(** utils/bcd_sequence.go:12-17 *)
Record bcdseq := Bcd { bcd_worker : bytes; bcd_ts : bytes; bcd_seq : Z }.

(** utils/bcd_sequence.go:21-35 NewBcdSequence: the check ranges over runes and tests
    byte(rune). *)
Definition NewBcdSequence (w : bytes) : res bcdseq :=
  let bad := existsb (fun r => (57 <? u8 r) || (u8 r <? 48)) (runes w) in
  let w1 := if bad then repeat 48 6 else w in
  let w2 := repeat 48 6 ++ w1 in
  w3 <- slice w2 (zlen w2 - 6) (zlen w2) ;;
  Ok (Bcd (StoBcd w3) [] 0).

Definition bytes_eqb (a b : bytes) : bool :=
  if list_eq_dec Z.eq_dec a b then true else false.

(** utils/bcd_sequence.go:37-53 NextVal; [mi] is time.Now().Format("01021504"). *)
Definition bcd_next (s : bcdseq) (mi : bytes) : res (bcdseq * bytes) :=
  let q := if bytes_eqb (bcd_ts s) mi then (bcd_seq s + 1) mod 1000000 else 0 in
  f0 <- Ok (zeros 10) ;;
  f1 <- copy_at f0 0 3 (bcd_worker s) ;;
  f2 <- copy_at f1 3 7 (StoBcd mi) ;;
  sq <- IntToFixStr q 6 ;;
  f3 <- copy_at f2 7 10 (StoBcd sq) ;;
  Ok (Bcd (bcd_worker s) mi q, f3).

(** time.Now().Format("01021504") for the minute [m] = MMDDHHMM as a decimal number. *)
Definition minute_str (m : Z) : bytes := match IntToFixStr m 8 with Ok s => s | _ => [] end.

(** Calls at the given minutes, in order. *)
Fixpoint bcd_run (s : bcdseq) (clk : list Z) : res (list bytes) :=
  match clk with
  | [] => Ok []
  | m :: rest =>
    '(s', v) <- bcd_next s (minute_str m) ;;
    r <- bcd_run s' rest ;;
    Ok (v :: r)
  end.

(** ** SGIP sequence numbers *)

(** codec/sgip/sequence.go:11-16 *)
Record sgseq := SgSeq { sg_node : Z; sg_ts : Z; sg_seq : Z }.

(** A clock reading: month, day, hour, minute, second. *)
Record tod := Tod { t_mon : Z; t_day : Z; t_hour : Z; t_min : Z; t_sec : Z }.

(** codec/sgip/sequence.go:27-43 NextVal: three uint32. *)
Definition sg_next (s : sgseq) (t : tod) : sgseq * (Z * Z * Z) :=
  let q := Z.land (u32 (sg_seq s + 31)) 4294967295 in
  let ts := u32 (u32 (u32 (u32 (u32 (t_mon t * 100000000) + u32 (t_day t * 1000000))
              + u32 (t_hour t * 10000)) + u32 (t_min t * 100)) + u32 (t_sec t)) in
  (SgSeq (sg_node s) ts q, (sg_node s, ts, q)).

Fixpoint sg_run (s : sgseq) (clk : list tod) : list (Z * Z * Z) :=
  match clk with
  | [] => []
  | t :: rest => let (s', v) := sg_next s t in v :: sg_run s' rest
  end.
