(** * PropUcs: decoding octets that are no UCS-2 text (C05). *)
From Verif Require Import Base UtilsModel SpecText UtfProofs.

(** ** Specification *)
(** The characters read from any octets: a unit outside the surrogates is a character, a high and a low
    surrogate together are one; everything else is read as U+FFFD: a surrogate that no low surrogate
    follows, two low surrogates in a row (one U+FFFD for both), an octet left over at the end. *)
Definition high (x : Z) : Prop := 55296 <= x <= 56319.
Definition low (x : Z) : Prop := 56320 <= x <= 57343.
Definition low_next (s : bytes) : Prop := exists c d t, s = c :: d :: t /\ low (c * 256 + d).
Inductive ucs_reads : bytes -> list Z -> Prop :=
| ur_nil : ucs_reads [] []
| ur_odd a : ucs_reads [a] [65533]
| ur_char a b t cs : ~ high (a * 256 + b) -> ~ low (a * 256 + b) -> ucs_reads t cs -> ucs_reads (a :: b :: t) (a * 256 + b :: cs)
| ur_pair a b c d t cs : high (a * 256 + b) -> low (c * 256 + d) -> ucs_reads t cs ->
    ucs_reads (a :: b :: c :: d :: t) (65536 + (a * 256 + b - 55296) * 1024 + (c * 256 + d - 56320) :: cs)
| ur_lows a b c d t cs : low (a * 256 + b) -> low (c * 256 + d) -> ucs_reads t cs -> ucs_reads (a :: b :: c :: d :: t) (65533 :: cs)
| ur_lone a b t cs : high (a * 256 + b) \/ low (a * 256 + b) -> ~ low_next t -> ucs_reads t cs -> ucs_reads (a :: b :: t) (65533 :: cs).

(** ** Proofs *)
Lemma encode_char c : 0 <= c <= 1114111 -> ~ high c -> ~ low c -> utf8_char c (encode_rune c).
Proof.
  intros R H L. unfold high, low in *. unfold encode_rune. replace ((c <? 0) || (1114111 <? c) || in_rng 55296 57343 c) with false by (unfold in_rng; lia).
  destruct (c <? 128) eqn:E1; [constructor; lia|]. destruct (c <? 2048) eqn:E2; [|destruct (c <? 65536) eqn:E3].
  - replace c with (c / 64 * 64 + c mod 64) at 1 by lia. constructor; lia.
  - replace c with (c / 4096 * 4096 + (c / 64) mod 64 * 64 + c mod 64) at 1 by lia. constructor; lia.
  - replace c with (c / 262144 * 262144 + (c / 4096) mod 64 * 4096 + (c / 64) mod 64 * 64 + c mod 64) at 1 by lia. constructor; lia.
Qed.
Lemma decode_reads k : forall s, bytes_ok s -> (length s <= k)%nat -> exists cs, ucs_reads s cs /\ utf8_text cs (utf16_decode_fuel k s).
Proof.
  assert (FF : utf8_char 65533 (encode_rune 65533)) by (apply encode_char; unfold high, low; lia).
  induction k as [|k IH]; intros s B L; [destruct s; [|cbn in L; lia]; exists []; split; constructor|]. cbn [utf16_decode_fuel].
  destruct s as [|a s]; [exists []; split; constructor|]. destruct s as [|b t].
  { cbn [utf16_step skipn]. change rune_error with 65533. exists [65533]. split; [constructor|]. apply utf8_cons; [exact FF|]. destruct k; constructor. }
  unfold bytes_ok in B. inversion B as [|x y A B1 E1]; subst. inversion B1 as [|x y A1 B2 E2]; subst. unfold is_byte in A, A1. cbn [length] in L.
  cbn [utf16_step]. destruct (in_rng 55296 57343 (a * 256 + b)) eqn:SU; unfold in_rng in SU.
  2: { cbn [skipn]. destruct (IH t B2 ltac:(lia)) as (cs & R & X). exists (a * 256 + b :: cs). split; [constructor; [unfold high; lia|unfold low; lia|exact R]|]. apply utf8_cons; [apply encode_char; unfold high, low; lia|exact X]. }
  assert (LONE : ~ low_next t -> exists cs, ucs_reads (a :: b :: t) cs /\ utf8_text cs (encode_rune rune_error ++ utf16_decode_fuel k (skipn 2 (a :: b :: t)))).
  { intros N. cbn [skipn]. change rune_error with 65533. destruct (IH t B2 ltac:(lia)) as (cs & R & X). exists (65533 :: cs). split; [apply ur_lone; [unfold high, low; lia|exact N|exact R]|apply utf8_cons; assumption]. }
  destruct t as [|c t]; [apply LONE; intros (? & ? & ? & X & _); discriminate X|]. destruct t as [|d t]; [apply LONE; intros (? & ? & ? & X & _); discriminate X|].
  destruct (in_rng 56320 57343 (c * 256 + d)) eqn:LO; unfold in_rng in LO.
  - inversion B2 as [|x y A2 B3 E3]; subst. inversion B3 as [|x y A3 B4 E4]; subst. cbn [skipn length] in *. destruct (IH t B4 ltac:(lia)) as (cs & R & X). destruct (a * 256 + b <? 56320) eqn:HI.
    + eexists. split; [apply ur_pair; [unfold high; lia|unfold low; lia|exact R]|]. apply utf8_cons; [apply encode_char; unfold high, low; lia|exact X].
    + change rune_error with 65533. exists (65533 :: cs). split; [apply ur_lows; [unfold low; lia|unfold low; lia|exact R]|apply utf8_cons; assumption].
  - apply LONE. intros (c1 & d1 & t1 & X & Y). injection X as <- <- <-. unfold low in Y. lia.
Qed.
Lemma reads_one s cs : ucs_reads s cs -> forall cs', ucs_reads s cs' -> cs' = cs.
Proof.
  induction 1 as [|a|a b t cs N1 N2 R IH|a b c d t cs H L R IH|a b c d t cs H L R IH|a b t cs H N R IH]; intros cs' Q; inversion Q; subst; try reflexivity; try (f_equal; auto; fail); exfalso; unfold high, low in *; try lia;
    match goal with X : ~ low_next (?c :: ?d :: ?t) |- _ => apply X; exists c, d, t; split; [reflexivity|unfold low; lia] end.
Qed.
(** Decoding never fails and never yields broken text: any octets are read as exactly one sequence of
    characters, and the result is the UTF-8 text of that sequence. *)
Theorem C05_any_octets : forall s, bytes_ok s -> exists cs, ucs_reads s cs /\ (forall cs', ucs_reads s cs' -> cs' = cs) /\ utf8_text cs (Ucs2ToUtf8 s).
Proof. intros s B. destruct (decode_reads (length s) s B (le_n _)) as (cs & R & X). exists cs. split; [exact R|]. split; [intros cs' Q; exact (reads_one _ _ R _ Q)|exact X]. Qed.
(** "A", a high surrogate alone, two low surrogates, a left-over octet. *)
Example C05_any_case : Ucs2ToUtf8 [0; 65; 216; 0; 0; 66; 220; 0; 221; 0; 7] = [65; 239; 191; 189; 66; 239; 191; 189; 239; 191; 189]
  /\ ucs_reads [0; 65; 216; 0; 0; 66; 220; 0; 221; 0; 7] [65; 65533; 66; 65533; 65533].
Proof.
  split; [vm_compute; reflexivity|]. apply (ur_char 0 65); [unfold high; lia|unfold low; lia|]. apply ur_lone; [left; unfold high; lia|intros (c & d & t & X & Y); injection X as <- <- <-; unfold low in Y; lia|].
  apply (ur_char 0 66); [unfold high; lia|unfold low; lia|]. apply ur_lows; [unfold low; lia|unfold low; lia|]. constructor.
Qed.
Print Assumptions C05_any_octets.
