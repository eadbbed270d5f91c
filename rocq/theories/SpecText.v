(** * SpecText: small independent specifications for text handling.
    Nothing here refers to the models of the Go code. *)
From Verif Require Import Base.

(** ** UTF-8 (RFC 3629, section 3) *)

(** [utf8_char c l]: [l] is the UTF-8 encoding of the Unicode scalar value [c].
    The shape of [l] is the RFC's table; [x], [y], [z], [w] are the payload bits. *)
Inductive utf8_char : Z -> bytes -> Prop :=
| utf8_1 c : 0 <= c <= 127 -> utf8_char c [c]
| utf8_2 x y : 0 <= y < 64 -> 128 <= x * 64 + y <= 2047 ->
    utf8_char (x * 64 + y) [192 + x; 128 + y]
| utf8_3 x y z : 0 <= y < 64 -> 0 <= z < 64 ->
    2048 <= x * 4096 + y * 64 + z <= 65535 ->
    ~ (55296 <= x * 4096 + y * 64 + z <= 57343) ->
    utf8_char (x * 4096 + y * 64 + z) [224 + x; 128 + y; 128 + z]
| utf8_4 x y z w : 0 <= y < 64 -> 0 <= z < 64 -> 0 <= w < 64 ->
    65536 <= x * 262144 + y * 4096 + z * 64 + w <= 1114111 ->
    utf8_char (x * 262144 + y * 4096 + z * 64 + w) [240 + x; 128 + y; 128 + z; 128 + w].

(** [utf8_text cs l]: [l] is the UTF-8 encoding of the character sequence [cs]. *)
Inductive utf8_text : list Z -> bytes -> Prop :=
| utf8_nil : utf8_text [] []
| utf8_cons c cs l m : utf8_char c l -> utf8_text cs m -> utf8_text (c :: cs) (l ++ m).

(** ** UTF-16, big endian (RFC 2781, section 2.1) *)

Inductive utf16be_char : Z -> bytes -> Prop :=
| utf16_1 hi lo : is_byte hi -> is_byte lo -> ~ (216 <= hi <= 223) ->
    utf16be_char (hi * 256 + lo) [hi; lo]
| utf16_2 x y : 0 <= x < 1024 -> 0 <= y < 1024 ->
    utf16be_char (65536 + x * 1024 + y)
      [216 + x / 256; x mod 256; 220 + y / 256; y mod 256].

Inductive utf16be_text : list Z -> bytes -> Prop :=
| utf16_nil : utf16be_text [] []
| utf16_cons c cs l m : utf16be_char c l -> utf16be_text cs m -> utf16be_text (c :: cs) (l ++ m).

(** ** Concatenated short messages (3GPP TS 23.040, 9.2.3.24.1) *)

(** Part [num] of [total] with reference [ref] carrying [body]: user data header
    length 5, information element 0 of length 3. *)
Definition concat_part (ref total num : Z) (body : bytes) : bytes :=
  [5; 0; 3; ref; total; num] ++ body.

(** What a handset reassembles from the parts in order: the bytes after the 6-byte
    header. *)
Definition reassemble (parts : list bytes) : bytes := concat (map (skipn 6) parts).

(** ** Positional notation *)

(** Value of a string of decimal digits. *)
Definition dec_value (s : bytes) : Z := fold_left (fun a c => a * 10 + (c - 48)) s 0.
Definition is_digit (c : Z) : Prop := 48 <= c <= 57.

(** Value of a lower-case hexadecimal digit and of a string of them. *)
Definition hex_digit_value (c : Z) : option Z :=
  if (48 <=? c) && (c <=? 57) then Some (c - 48)
  else if (97 <=? c) && (c <=? 102) then Some (c - 87)
  else None.
Fixpoint hex_value_acc (a : Z) (s : bytes) : option Z :=
  match s with
  | [] => Some a
  | c :: t => match hex_digit_value c with
              | Some d => hex_value_acc (a * 16 + d) t
              | None => None
              end
  end.
Definition hex_value (s : bytes) : option Z := hex_value_acc 0 s.

(** ** Packed decimal: each byte holds two digits, high nibble first. *)
Inductive packed_bcd : bytes -> bytes -> Prop :=
| bcd_nil : packed_bcd [] []
| bcd_cons h l s b : 0 <= h <= 9 -> 0 <= l <= 9 -> packed_bcd s b ->
    packed_bcd (48 + h :: 48 + l :: s) (h * 16 + l :: b).
(** The 64-bit identifiers count milliseconds from 2020-01-01 00:00 (UTC+8), in 41 bits. *)
Definition epoch2020 : Z := (50 * 365 + 12) * 86400000 - 8 * 3600000.
Definition max41 : Z := 2 ^ 41 - 1.
