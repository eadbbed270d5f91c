(** * UtilsModel: model of /repo/utils/utils.go and the string helpers of
    /repo/utils/bcd_sequence.go.  Strings are byte lists. *)
From Verif Require Import Base.

(* ------------------------------------------------------------------ *)
(** ** UTF-8 as the Go runtime decodes it *)

Definition rune_error : Z := 65533. (* utf8.RuneError = U+FFFD *)

Definition in_rng (lo hi b : Z) : bool := (lo <=? b) && (b <=? hi).

(** Go standard library [utf8.DecodeRune] (also the decoding behind
    [[]rune(s)], [range s] and [utf8.ValidString], used by utils/utils.go:45,54 and
    utils/bcd_sequence.go:23).  Returns the rune and the number of bytes consumed;
    a malformed prefix yields ([rune_error], 1).  Model of a library function,
    part of the trusted base. *)
Definition decode_rune (s : bytes) : Z * nat :=
  match s with
  | [] => (rune_error, 0%nat)
  | b0 :: t =>
    if in_rng 0 127 b0 then (b0, 1%nat)
    else if in_rng 194 223 b0 then
      match t with
      | b1 :: _ => if in_rng 128 191 b1
                   then ((b0 - 192) * 64 + (b1 - 128), 2%nat) else (rune_error, 1%nat)
      | _ => (rune_error, 1%nat)
      end
    else if in_rng 224 239 b0 then
      match t with
      | b1 :: b2 :: _ =>
        let lo := if b0 =? 224 then 160 else 128 in
        let hi := if b0 =? 237 then 159 else 191 in
        if in_rng lo hi b1 && in_rng 128 191 b2
        then ((b0 - 224) * 4096 + (b1 - 128) * 64 + (b2 - 128), 3%nat) else (rune_error, 1%nat)
      | _ => (rune_error, 1%nat)
      end
    else if in_rng 240 244 b0 then
      match t with
      | b1 :: b2 :: b3 :: _ =>
        let lo := if b0 =? 240 then 144 else 128 in
        let hi := if b0 =? 244 then 143 else 191 in
        if in_rng lo hi b1 && in_rng 128 191 b2 && in_rng 128 191 b3
        then ((b0 - 240) * 262144 + (b1 - 128) * 4096 + (b2 - 128) * 64 + (b3 - 128), 4%nat)
        else (rune_error, 1%nat)
      | _ => (rune_error, 1%nat)
      end
    else (rune_error, 1%nat)
  end.

(** Decoded (rune, size) pairs of a string; [fuel] = length suffices because every
    step consumes at least one byte. *)
Fixpoint runes_fuel (fuel : nat) (s : bytes) : list (Z * nat) :=
  match fuel with
  | O => []
  | S k => match s with
           | [] => []
           | _ => let (r, n) := decode_rune s in (r, n) :: runes_fuel k (skipn n s)
           end
  end.
Definition rune_steps (s : bytes) : list (Z * nat) := runes_fuel (length s) s.

(** Go conversion [[]rune(s)]. *)
Definition runes (s : bytes) : list Z := map fst (rune_steps s).

(** Go [utf8.ValidString(s)]: no step decodes to an error of size 1. *)
Definition valid_utf8 (s : bytes) : bool :=
  forallb (fun p => negb ((fst p =? rune_error) && (Nat.eqb (snd p) 1))) (rune_steps s).

(** utils/utils.go:41-51 MsgFmt. *)
Definition MsgFmt (content : bytes) : Z :=
  if zlen content <? 2 then 0
  else if zlen content =? zlen (runes content) then 0 else 8.

(* ------------------------------------------------------------------ *)
(** ** UTF-16BE transcoding (golang.org/x/text/encoding/unicode, BigEndian, IgnoreBOM) *)

(** Go [utf16.EncodeRune] followed by big-endian output, i.e. what the x/text UTF-16
    encoder emits for one rune: 2 bytes below 0x10000, a surrogate pair above. *)
Definition utf16_emit (r : Z) : bytes :=
  if r <? 65536 then be 2 r
  else be 2 (55296 + (r - 65536) / 1024) ++ be 2 (56320 + (r - 65536) mod 1024).

(** utils/utils.go:53-65 Utf8ToUcs2: error on invalid UTF-8, else the encoder output.
    The transform/ioutil plumbing is modelled as "encode all of the input". *)
Definition Utf8ToUcs2 (s : bytes) : res bytes :=
  if valid_utf8 s then Ok (flat_map utf16_emit (runes s)) else Err 1.

(** Go [utf8.EncodeRune]; a rune that is not a Unicode scalar value is written as
    U+FFFD. *)
Definition encode_rune (r : Z) : bytes :=
  let enc c :=
    if c <? 128 then [c]
    else if c <? 2048 then [192 + c / 64; 128 + c mod 64]
    else if c <? 65536 then [224 + c / 4096; 128 + (c / 64) mod 64; 128 + c mod 64]
    else [240 + c / 262144; 128 + (c / 4096) mod 64; 128 + (c / 64) mod 64; 128 + c mod 64] in
  if (r <? 0) || (1114111 <? r) || in_rng 55296 57343 r then enc rune_error else enc r.

(** One step of the x/text UTF-16BE decoder at end of input: the decoded rune (before
    UTF-8 output) and the number of bytes consumed.  A surrogate followed by a low
    surrogate is combined when the first one is a high surrogate (otherwise U+FFFD, 4
    bytes consumed); a surrogate not followed by a low surrogate is U+FFFD with 2 bytes
    consumed; a single trailing byte is U+FFFD. *)
Definition utf16_step (s : bytes) : Z * nat :=
  match s with
  | a :: b :: t =>
    let x := a * 256 + b in
    if in_rng 55296 57343 x then
      match t with
      | c :: d :: _ =>
        let y := c * 256 + d in
        if in_rng 56320 57343 y then
          (if x <? 56320 then 65536 + (x - 55296) * 1024 + (y - 56320) else rune_error, 4%nat)
        else (rune_error, 2%nat)
      | _ => (rune_error, 2%nat)
      end
    else (x, 2%nat)
  | _ => (rune_error, 1%nat)
  end.

Fixpoint utf16_decode_fuel (fuel : nat) (s : bytes) : bytes :=
  match fuel with
  | O => []
  | S k => match s with
           | [] => []
           | _ => let (r, n) := utf16_step s in encode_rune r ++ utf16_decode_fuel k (skipn n s)
           end
  end.

(** utils/utils.go:67-75 Ucs2ToUtf8.  The x/text decoder never fails (bad units become
    U+FFFD), so the error result never occurs. *)
Definition Ucs2ToUtf8 (s : bytes) : bytes := utf16_decode_fuel (length s) s.

(* ------------------------------------------------------------------ *)
(** ** Fixed-width text *)

(** utils/utils.go:101-112 OctetString. A negative width is not used by any caller and
    panics in Go. *)
Definition OctetString (s : bytes) (fixedLength : Z) : res bytes :=
  if zlen s =? fixedLength then Ok s
  else if fixedLength <? zlen s then slice s (zlen s - fixedLength) (zlen s)
  else Ok (s ++ zeros (fixedLength - zlen s)).

(** utils/utils.go:114-125 TrimOctetString, TrimStr: cut at the first NUL. *)
Fixpoint TrimStr (s : bytes) : bytes :=
  match s with
  | [] => []
  | b :: t => if b =? 0 then [] else b :: TrimStr t
  end.

(** utils/utils.go:127 NumTable: '0'..'9','a'..'f'. *)
Definition NumTable : bytes :=
  [48;49;50;51;52;53;54;55;56;57;97;98;99;100;101;102].

(** One loop body of utils/utils.go:133-135 / 143-145:
    NumTable[(i>>shift)&0x0f]. *)
Definition hex_at (i shift : Z) : Z := nth (Z.to_nat (Z.land (Z.shiftr i shift) 15)) NumTable 0.

(** utils/utils.go:129-137 Uint64HexString: shift from 60 down to 0 in steps of 4. *)
Definition Uint64HexString (i : Z) : bytes :=
  map (hex_at i) [60;56;52;48;44;40;36;32;28;24;20;16;12;8;4;0].

(** utils/utils.go:139-147 Uint32HexString. *)
Definition Uint32HexString (i : Z) : bytes :=
  map (hex_at i) [28;24;20;16;12;8;4;0].

(** Decimal digits of a non-negative number, most significant first
    (Go strconv.FormatInt for i >= 0). [fuel] = 20 covers every int64/uint64. *)
Fixpoint dec_fuel (fuel : nat) (n : Z) : bytes :=
  match fuel with
  | O => []
  | S k => if n <? 10 then [48 + n] else dec_fuel k (n / 10) ++ [48 + n mod 10]
  end.
Definition FormatInt (i : Z) : bytes :=
  if i <? 0 then 45 :: dec_fuel 20 (- i) else dec_fuel 20 i.

(** utils/utils.go:29-31 TimeStamp2Str: fmt.Sprintf("%010d", t) for a uint32. *)
Definition TimeStamp2Str (t : Z) : bytes :=
  let d := FormatInt t in repeat 48 (10 - length d) ++ d.

(** utils/bcd_sequence.go:55-69 IntToFixStr. *)
Definition IntToFixStr (i : Z) (l : Z) : res bytes :=
  let si := FormatInt i in
  if zlen si =? l then Ok si
  else
    let sb := repeat 48 (Z.to_nat l) ++ si in
    slice sb (zlen sb - l) (zlen sb).

(* ------------------------------------------------------------------ *)
(** ** BCD *)

(** utils/bcd_sequence.go:77-80 / 83-86: c - '0' in uint8 arithmetic, clamped to 9. *)
Definition bcd_nibble (c : Z) : Z := let h := u8 (c - 48) in if 9 <? h then 9 else h.

(** utils/bcd_sequence.go:71-98 StoBcd: the loop over index and byte with the loop
    variables h, l and the output wb. *)
Fixpoint StoBcd_loop (i : nat) (w : bytes) (h l : Z) (wb : bytes) : bytes :=
  match w with
  | [] => if h =? 0 then wb else wb ++ [u8 (h * 16)]
  | c :: t =>
    if Nat.even i then StoBcd_loop (S i) t (bcd_nibble c) l wb
    else StoBcd_loop (S i) t 0 0 (wb ++ [Z.lor (u8 (h * 16)) (bcd_nibble c)])
  end.
Definition StoBcd (w : bytes) : bytes := StoBcd_loop 0 w 0 0 [].

(** utils/bcd_sequence.go:100-116 BcdToString. *)
Definition bcd_char (n : Z) : Z := (if 9 <? n then 9 else n) + 48.
Definition BcdToString (b : bytes) : bytes :=
  flat_map (fun x => [bcd_char (Z.shiftr x 4); bcd_char (Z.land x 15)]) b.

(* ------------------------------------------------------------------ *)
(** ** Slicing byte strings *)

(** utils/utils.go:161-172 Bytes2StringSlice; [pl] = 0 with non-empty input divides by
    zero (panic). *)
Fixpoint b2ss_loop (inp : bytes) (pl : Z) (i part : nat) : res (list bytes) :=
  match part with
  | O => Ok []
  | S k =>
    s <- slice inp (Z.of_nat i * pl) ((Z.of_nat i + 1) * pl) ;;
    r <- b2ss_loop inp pl (S i) k ;;
    Ok (TrimStr s :: r)
  end.
Definition Bytes2StringSlice (inp : bytes) (pl : Z) : res (list bytes) :=
  if zlen inp <=? pl then Ok [TrimStr inp]
  else if pl =? 0 then Panic
  else b2ss_loop inp pl 0 (Z.to_nat (zlen inp / pl)).

(** utils/utils.go:206-222: the body of the part loop of ToTPUDHISlices for part [i]
    of [parts] ([tailLen], [bodyLen], [pkgLen], [groupId] as in the code). *)
Definition split_part (content : bytes) (pkgLen bodyLen parts tailLen groupId i : Z)
  : res bytes :=
  let last := i =? parts - 1 in
  let part := if last then zeros (6 + tailLen) else zeros pkgLen in
  p1 <- set_at part 0 5 ;;
  p2 <- set_at p1 1 0 ;;
  p3 <- set_at p2 2 3 ;;
  p4 <- set_at p3 3 groupId ;;
  p5 <- set_at p4 4 (u8 parts) ;;
  p6 <- set_at p5 5 (u8 (i + 1)) ;;
  if last then
    src <- slice content 0 tailLen ;;
    copy_at p6 6 (zlen p6) src
  else
    src <- slice content (bodyLen * i) (bodyLen * (i + 1)) ;;
    copy_at p6 6 pkgLen src.

Fixpoint split_loop (content : bytes) (pkgLen bodyLen parts tailLen groupId : Z)
         (i : Z) (n : nat) : res (list bytes) :=
  match n with
  | O => Ok []
  | S k =>
    p <- split_part content pkgLen bodyLen parts tailLen groupId i ;;
    r <- split_loop content pkgLen bodyLen parts tailLen groupId (i + 1) k ;;
    Ok (p :: r)
  end.

(** utils/utils.go:191-224 ToTPUDHISlices.  [groupId] is byte(time.Now().UnixNano()&0xff),
    passed as a parameter (clock oracle).  Callers use pkgLen 140 and 160; a pkgLen of 6
    would divide by zero. *)
Definition ToTPUDHISlices (groupId : Z) (content : bytes) (pkgLen : Z) : res (list bytes) :=
  if zlen content <? pkgLen then Ok [content]
  else
    let bodyLen := pkgLen - 6 in
    if bodyLen =? 0 then Panic else
    let parts0 := zlen content / bodyLen in
    let tailLen := zlen content mod bodyLen in
    let parts := if tailLen =? 0 then parts0 else parts0 + 1 in
    split_loop content pkgLen bodyLen parts tailLen groupId 0 (Z.to_nat parts).

(** utils/utils.go:174-186 MsgSlices: the error of Utf8ToUcs2 is dropped (nil bytes). *)
Definition MsgSlices (groupId : Z) (fmt : Z) (content : bytes) : res (list bytes) :=
  if fmt =? 8 then
    let msgBytes := match Utf8ToUcs2 content with Ok b => b | _ => [] end in
    ToTPUDHISlices groupId msgBytes 140
  else ToTPUDHISlices groupId content 160.
