(** * BootModel: how a process sets up its identifier generators when it starts.
    /repo/msc_server/bootstrap.go:113-125 and /repo/msc_client/bootstrap.go:120-132 (the
    same function in both programs), /repo/codec/sgip/sequence.go:18-25. *)
From Verif Require Import Base UtilsModel SeqModel.

(** The "Snowflake" block of config.yaml as the YAML library hands it over: whole numbers
    for the node numbers, the text of the BCD worker.  Reading the file itself is not
    modelled; a missing number reads as 0. *)
Record settings := Settings {
  cf_b64_dc : Z; cf_b64_worker : Z;   (* Snowflake.B64.DC, Snowflake.B64.worker *)
  cf_b32_dc : Z; cf_b32_worker : Z;   (* Snowflake.B32.DC, Snowflake.B32.worker *)
  cf_bcd : bytes;                     (* Snowflake.BCD *)
  cf_sgip : Z }.                      (* Snowflake.SGIP *)

(** The generators of one process: codec.B64Seq, codec.B32Seq, codec.BcdSeq
    (codec/sequence.go) and sgip.Sequencer. *)
Record gens := Gens { g_b64 : sf; g_b32 : cyc; g_bcd : bcdseq; g_sgip : sgseq }.

(** codec/sgip/sequence.go:18-25 NewSequencer: sync.Once, so a sequencer that exists
    stays. *)
Definition NewSequencer (old : option sgseq) (node worker : Z) : sgseq :=
  match old with Some s => s | None => SgSeq node 0 worker end.

(** bootstrap.go SeqInit.  GetInt64 and GetInt32 convert to int64 and int32 with
    wrap-around; b32dc and b32worker are read from the B64 keys (lines 116-117 of the
    server, 123-124 of the client). *)
Definition SeqInit (old : option sgseq) (c : settings) : res gens :=
  let b64dc := i64 (cf_b64_dc c) in
  let b64worker := i64 (cf_b64_worker c) in
  let b32dc := i64 (cf_b64_dc c) in
  let b32worker := i64 (cf_b64_worker c) in
  let node := i32 (cf_sgip c) in
  b <- NewBcdSequence (cf_bcd c) ;;
  Ok (Gens (NewSnowflake b64dc b64worker)
           (NewCycle (i32 b32dc) (i32 b32worker))
           b
           (NewSequencer old (u32 node) (u32 (i64 (8 * b32dc + b32worker))))).
