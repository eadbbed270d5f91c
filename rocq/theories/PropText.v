(** * PropText: properties C01-C08 (message splitting, text conversion, rendering).
    Specifications: SpecText.v.  Models: UtilsModel.v.  Proofs: UtilsProofs.v, UtfProofs.v. *)
From Verif Require Import Base UtilsModel SpecText UtilsProofs UtfProofs.

(** ** C01 Splitting a long message loses and alters nothing: refuted *)

(** For every package size there is a content that is not restored. *)
Theorem C01_refuted : forall g pkgLen, 6 < pkgLen ->
  exists content parts, ToTPUDHISlices g content pkgLen = Ok parts /\ reassemble parts <> content.
Proof.
  intros g p Hp. exists (repeat 0 (Z.to_nat (7 * (p - 6)))).
  set (c := repeat 0 (Z.to_nat (7 * (p - 6)))).
  destruct (split_never_panics g c p Hp) as (parts & E). exists parts. split; [exact E|].
  assert (L : zlen c = 7 * (p - 6)) by (unfold c; rewrite zlen_repeat; lia).
  intros R. apply (split_lossless_iff g c p parts) in R; auto; [|lia].
  destruct R as [R _]. rewrite L in R. rewrite Z.mod_mul in R by lia. lia.
Qed.

(** Exactly which contents survive: those below the package size (one part, no header) and,
    of the longer ones, only those whose last partial chunk repeats the beginning of the
    message.  (Missing for the full C01: all other contents.) *)
Theorem C01_lossless_iff_partial : forall g content pkgLen parts, 6 < pkgLen ->
  ToTPUDHISlices g content pkgLen = Ok parts ->
  let t := zlen content mod (pkgLen - 6) in
  (zlen content < pkgLen -> parts = [content]) /\
  (pkgLen <= zlen content ->
    (reassemble parts = content
     <-> t <> 0 /\ skipn (Z.to_nat (zlen content - t)) content = firstn (Z.to_nat t) content)).
Proof.
  intros g c p parts Hp E t. split; intros H.
  - rewrite split_short in E by auto. injection E as <-. reflexivity.
  - apply (split_lossless_iff g c p parts); auto.
Qed.

(** All parts but the last carry the right bytes. *)
Theorem C01_all_but_last_partial : forall g content pkgLen parts k p, 6 < pkgLen ->
  pkgLen <= zlen content -> ToTPUDHISlices g content pkgLen = Ok parts ->
  nth_error parts k = Some p -> Z.of_nat k < zlen parts - 1 -> zlen parts <= 255 ->
  skipn 6 p = firstn (Z.to_nat (pkgLen - 6)) (skipn (k * Z.to_nat (pkgLen - 6)) content).
Proof.
  intros g c p parts k q Hp Hl E Hk Hlt H255.
  destruct (split_parts g c p parts Hp Hl E H255 k q Hk) as (body & -> & _ & B).
  destruct (B Hlt) as [-> _]. reflexivity.
Qed.

(** Splitting itself always returns (it never panics) for package sizes above 6. *)
Theorem C01_split_total : forall g content pkgLen, 6 < pkgLen ->
  exists parts, ToTPUDHISlices g content pkgLen = Ok parts.
Proof. exact split_never_panics. Qed.

(** Concretely: 12 bytes in packages of 10: the third chunk [9..12] is lost, the first four
    bytes are sent twice. *)
Example C01_witness :
  ToTPUDHISlices 77 [1;2;3;4;5;6;7;8;9;10;11] 10
  = Ok [[5;0;3;77;3;1;1;2;3;4]; [5;0;3;77;3;2;5;6;7;8]; [5;0;3;77;3;3;1;2;3]].
Proof. vm_compute. reflexivity. Qed.
Example C01_survivor :
  exists parts, ToTPUDHISlices 77 [1;2;3;4;5;6;7;8;1;2] 10 = Ok parts
  /\ reassemble parts = [1;2;3;4;5;6;7;8;1;2].
Proof. eexists; split; vm_compute; reflexivity. Qed.
Print Assumptions C01_refuted.
Print Assumptions C01_lossless_iff_partial.
Print Assumptions C01_all_but_last_partial.
Print Assumptions C01_split_total.

(** ** C02 Every part of a split message is well formed *)

Theorem C02_parts_well_formed : forall g content pkgLen parts, 6 < pkgLen ->
  pkgLen <= zlen content -> ToTPUDHISlices g content pkgLen = Ok parts -> zlen parts <= 255 ->
  forall k p, nth_error parts k = Some p ->
    (exists body, p = concat_part g (zlen parts) (Z.of_nat k + 1) body) /\ zlen p <= pkgLen.
Proof.
  intros g c p parts Hp Hl E H255 k q Hk.
  destruct (split_parts g c p parts Hp Hl E H255 k q Hk) as (body & ? & ? & _). eauto.
Qed.

(** The number of parts is the least number of (pkgLen-6)-byte bodies that can hold the
    content. *)
Theorem C02_least_parts : forall g content pkgLen parts, 6 < pkgLen ->
  pkgLen <= zlen content -> ToTPUDHISlices g content pkgLen = Ok parts ->
  zlen content <= (pkgLen - 6) * zlen parts
  /\ forall m, zlen content <= (pkgLen - 6) * m -> zlen parts <= m.
Proof.
  intros g c p parts Hp Hl E. rewrite (split_zlen g c p parts Hp Hl E).
  pose proof (nparts_bounds (zlen c) (p - 6) ltac:(lia) ltac:(lia)). split; [lia|]. intros. nia.
Qed.

Example C02_case : exists parts,
  ToTPUDHISlices 9 (repeat 65 300) 160 = Ok parts /\ zlen parts = 2
  /\ nth_error parts 1 = Some (concat_part 9 2 2 (repeat 65 146)).
Proof. eexists; split; [vm_compute; reflexivity|]. split; vm_compute; reflexivity. Qed.
Print Assumptions C02_parts_well_formed.
Print Assumptions C02_least_parts.

(** ** C03 A message that fits into one package is one unmodified package: refuted at the
    boundary *)

(** Every content of exactly the package size is cut in two or more. *)
Theorem C03_refuted : forall g content pkgLen, 6 < pkgLen -> zlen content = pkgLen ->
  exists p1 p2 rest, ToTPUDHISlices g content pkgLen = Ok (p1 :: p2 :: rest).
Proof.
  intros g c p Hp L. destruct (split_never_panics g c p Hp) as (parts & E).
  pose proof (split_zlen g c p parts Hp ltac:(lia) E) as Z1.
  pose proof (nparts_bounds (zlen c) (p - 6) ltac:(lia) ltac:(lia)) as Z2.
  destruct parts as [|p1 [|p2 rest]]; [unfold zlen in *; cbn [length] in *; nia..|]. eauto.
Qed.

Theorem C03_below_partial : forall g content pkgLen, zlen content < pkgLen ->
  ToTPUDHISlices g content pkgLen = Ok [content].
Proof. exact split_short. Qed.

Example C03_case : ToTPUDHISlices 1 (repeat 65 159) 160 = Ok [repeat 65 159].
Proof. vm_compute. reflexivity. Qed.
Example C03_boundary : exists a b, ToTPUDHISlices 1 (repeat 65 160) 160 = Ok [a; b]
  /\ skipn 6 b = repeat 65 6.
Proof. do 2 eexists. split; vm_compute; reflexivity. Qed.
Print Assumptions C03_refuted.
Print Assumptions C03_below_partial.

(** ** C04 Message format selection *)

Theorem C04_format : forall cs s, utf8_text cs s ->
  ((exists c, In c cs /\ 128 <= c) -> MsgFmt s = 8) /\
  ((forall c, In c cs -> c <= 127) -> MsgFmt s = 0).
Proof.
  intros cs s H. destruct (MsgFmt_text cs s H) as [A B]. split; [apply A|].
  intros N. destruct B as [B|B]; auto. apply A in B as (c & Hc & Hl). specialize (N c Hc). lia.
Qed.

(* "Ax" and "A" + U+4F60 *)
Example C04_case_ascii : utf8_text [65; 120] [65; 120] /\ MsgFmt [65; 120] = 0.
Proof. split; [|reflexivity]. apply (utf8_cons 65 [120] [65] [120]); [constructor; lia|].
  apply (utf8_cons 120 [] [120] []); constructor; lia. Qed.
Example C04_case_ucs2 : utf8_text [65; 20320] [65; 228; 189; 160] /\ MsgFmt [65; 228; 189; 160] = 8.
Proof. split; [|reflexivity]. apply (utf8_cons 65 [20320] [65] [228; 189; 160]); [constructor; lia|].
  apply (utf8_cons 20320 [] [228; 189; 160] []); [apply (utf8_3 4 61 32); lia|constructor]. Qed.
Print Assumptions C04_format.

(** ** C05 UTF-8 to UCS-2 *)

Theorem C05_lossless : forall cs s, utf8_text cs s ->
  exists u, Utf8ToUcs2 s = Ok u /\ utf16be_text cs u /\ Ucs2ToUtf8 u = s.
Proof. intros cs s H. exists (flat_map utf16_emit cs). apply Utf8ToUcs2_text; auto. Qed.

Theorem C05_rejects_invalid : forall s, (forall cs, ~ utf8_text cs s) -> exists e, Utf8ToUcs2 s = Err e.
Proof. intros s H. exists 1. apply Utf8ToUcs2_invalid; auto. Qed.

Example C05_case : Utf8ToUcs2 [65; 240; 159; 152; 128] = Ok [0; 65; 216; 61; 222; 0]
  /\ Ucs2ToUtf8 [0; 65; 216; 61; 222; 0] = [65; 240; 159; 152; 128].
Proof. split; vm_compute; reflexivity. Qed.
(** 0xff never starts a character. *)
Example C05_invalid_case : (forall cs, ~ utf8_text cs [255]) /\ Utf8ToUcs2 [255] = Err 1.
Proof.
  split; [|reflexivity]. intros cs H. inversion H as [|c cs' l m Hc Ht E1 E2]. subst.
  inversion Hc; subst; cbn in E2; inversion E2; lia.
Qed.
Print Assumptions C05_lossless.
Print Assumptions C05_rejects_invalid.

(** ** C06 Fixed-width string fields *)

Theorem C06_width : forall s w, 0 <= w -> exists r, OctetString s w = Ok r /\ zlen r = w.
Proof. intros s w H. destruct (OctetString_spec s w H) as (r & ? & ? & _). eauto. Qed.

Theorem C06_round_trip : forall s w r, ~ In 0 s -> zlen s <= w -> OctetString s w = Ok r ->
  TrimStr r = s.
Proof. intros s w r H1 H2 E. apply (OctetString_trim s w r H1 H2 E). Qed.

(** Trimming keeps exactly the bytes before the first NUL. *)
Theorem C06_trim : forall s,
  ~ In 0 (TrimStr s) /\ (TrimStr s = s \/ exists r, s = TrimStr s ++ 0 :: r)
  /\ TrimStr (TrimStr s) = TrimStr s.
Proof. intros s. split; [apply TrimStr_out|]. split; [apply TrimStr_prefix|apply TrimStr_idem]. Qed.

(** Over-long text keeps its last [w] bytes. *)
Theorem C06_overlong : forall s w r, 0 <= w < zlen s -> OctetString s w = Ok r ->
  exists front, s = front ++ r.
Proof.
  intros s w r H E. destruct (OctetString_spec s w ltac:(lia)) as (r' & E' & _ & _ & T).
  rewrite E in E'. injection E' as <-. rewrite T by lia. eexists. symmetry. apply firstn_skipn.
Qed.

Example C06_case : OctetString [49;48;54] 6 = Ok [49;48;54;0;0;0] /\ TrimStr [49;48;54;0;0;0] = [49;48;54]
  /\ OctetString [49;48;54] 2 = Ok [48;54].
Proof. repeat split; reflexivity. Qed.
Print Assumptions C06_width.
Print Assumptions C06_round_trip.
Print Assumptions C06_trim.
Print Assumptions C06_overlong.

(** ** C07 BCD conversion *)

Theorem C07_round_trip : forall s n, length s = (2 * n)%nat -> Forall is_digit s ->
  packed_bcd s (StoBcd s) /\ BcdToString (StoBcd s) = s.
Proof.
  intros s n L D. destruct (packed_exists n s L D) as (b & P & _).
  rewrite (StoBcd_packed s b P). split; auto. apply BcdToString_packed; auto.
Qed.

(** Whatever the input, every byte of the result is two decimal nibbles. *)
Theorem C07_only_decimal : forall s x, In x (StoBcd s) ->
  exists h l, 0 <= h <= 9 /\ 0 <= l <= 9 /\ x = h * 16 + l.
Proof. intros s x H. pose proof (StoBcd_nibbles s) as F. rewrite Forall_forall in F. exact (F x H). Qed.

(** Unpacking any bytes gives two decimal digits per byte, each the nibble or 9. *)
Theorem C07_unpack : forall b, bytes_ok b ->
  length (BcdToString b) = (2 * length b)%nat /\ Forall is_digit (BcdToString b) /\
  forall i, (i < length b)%nat -> nth (2 * i) (BcdToString b) 0 = 48 + Z.min 9 (nth i b 0 / 16) /\ nth (2 * i + 1) (BcdToString b) 0 = 48 + Z.min 9 (nth i b 0 mod 16).
Proof.
  assert (N : forall n, 0 <= n <= 255 -> bcd_char n = 48 + Z.min 9 n) by (intros n H; unfold bcd_char; destruct (9 <? n) eqn:E; lia).
  induction b as [|x b IH]; intros H.
  - split; [reflexivity|]. split; [constructor|]. intros i L. cbn in L. lia.
  - inversion H as [|? ? Hx Hb]; subst. destruct (IH Hb) as (L & D & P). unfold is_byte in Hx.
    assert (E : BcdToString (x :: b) = (48 + Z.min 9 (x / 16)) :: (48 + Z.min 9 (x mod 16)) :: BcdToString b).
    { unfold BcdToString. cbn [flat_map app]. change 15 with (Z.ones 4). rewrite Z.land_ones, Z.shiftr_div_pow2 by lia. change (2 ^ 4) with 16. rewrite !N by lia. reflexivity. }
    rewrite E. split; [cbn [length]; lia|]. split; [repeat constructor; auto; unfold is_digit; lia|]. intros [|i] I; [split; reflexivity|].
    replace (2 * S i)%nat with (S (S (2 * i))) by lia. replace (S (S (2 * i)) + 1)%nat with (S (S (2 * i + 1))) by lia. cbn [nth]. apply P. cbn in I. lia.
Qed.
(** An odd last digit: a zero is dropped, any other one reads back with a zero behind it. *)
Theorem C07_odd : forall s n d, length s = (2 * n)%nat -> Forall is_digit s -> 0 <= d <= 9 ->
  BcdToString (StoBcd (s ++ [48 + d])) = if d =? 0 then s else s ++ [48 + d; 48].
Proof.
  intros s n d L D R. destruct (packed_exists n s L D) as (b & P & _).
  assert (G : forall s b, packed_bcd s b -> forall i wb, Nat.even i = true -> StoBcd_loop i (s ++ [48 + d]) 0 0 wb = wb ++ b ++ if d =? 0 then [] else [u8 (d * 16)]).
  { clear - R. induction 1 as [|h l s b ? ? ? IH]; intros i wb E.
    - cbn [app StoBcd_loop]. rewrite E, bcd_nibble_digit by lia. destruct (d =? 0); [rewrite app_nil_r; reflexivity|reflexivity].
    - cbn [app StoBcd_loop]. rewrite E. rewrite Nat.even_succ, <- Nat.negb_even, E. cbn [negb]. rewrite !bcd_nibble_digit by lia. rewrite lor_nibbles by lia. rewrite IH.
      + rewrite <- app_assoc. reflexivity.
      + rewrite Nat.even_succ, <- Nat.negb_even, Nat.even_succ, <- Nat.negb_even, E. reflexivity. }
  unfold StoBcd. rewrite (G s b P 0%nat []) by reflexivity. cbn [app]. unfold BcdToString. rewrite flat_map_app. fold (BcdToString b). rewrite (BcdToString_packed s b P).
  destruct (d =? 0) eqn:Z; [apply app_nil_r|]. f_equal. cbn [flat_map app]. rewrite u8_small by lia. change 15 with (Z.ones 4). rewrite Z.land_ones, Z.shiftr_div_pow2 by lia. change (2 ^ 4) with 16.
  rewrite Z.div_mul, Z.mod_mul by lia. unfold bcd_char. replace (9 <? d) with false by lia. change (9 <? 0) with false. rewrite (Z.add_comm d 48). reflexivity.
Qed.

Example C07_case : StoBcd [49;50;51;57] = [18; 57] /\ BcdToString [18; 57] = [49;50;51;57]
  /\ StoBcd [97;255;49] = [153; 16] /\ BcdToString [250; 18] = [57;57;49;50] /\ StoBcd [49;50;48] = [18].
Proof. repeat split; reflexivity. Qed.
Print Assumptions C07_round_trip.
Print Assumptions C07_only_decimal.
Print Assumptions C07_unpack.
Print Assumptions C07_odd.

(** ** C08 Numeric rendering *)

Theorem C08_decimal : forall i l, 0 <= i < 2 ^ 64 -> 1 <= l -> i < 10 ^ l ->
  exists s, IntToFixStr i l = Ok s /\ zlen s = l /\ Forall is_digit s /\ dec_value s = i.
Proof.
  intros i l H1 H2 H3. apply IntToFixStr_wide; auto. split; [lia|].
  eapply Z.lt_trans; [apply H1|]. reflexivity.
Qed.
Theorem C08_timestamp : forall t, 0 <= t < 2 ^ 32 ->
  zlen (TimeStamp2Str t) = 10 /\ Forall is_digit (TimeStamp2Str t) /\ dec_value (TimeStamp2Str t) = t.
Proof. exact TimeStamp2Str_spec. Qed.
Theorem C08_hex64 : forall i, 0 <= i < 2 ^ 64 ->
  hex_value (Uint64HexString i) = Some i /\ zlen (Uint64HexString i) = 16.
Proof. exact Uint64HexString_value. Qed.
Theorem C08_hex32 : forall i, 0 <= i < 2 ^ 32 ->
  hex_value (Uint32HexString i) = Some i /\ zlen (Uint32HexString i) = 8.
Proof. exact Uint32HexString_value. Qed.
(** Two different numbers in range never render alike. *)
Theorem C08_injective : forall i j,
  (0 <= i < 2 ^ 64 -> 0 <= j < 2 ^ 64 -> Uint64HexString i = Uint64HexString j -> i = j) /\
  (0 <= i < 2 ^ 32 -> 0 <= j < 2 ^ 32 -> Uint32HexString i = Uint32HexString j -> i = j) /\
  (0 <= i < 2 ^ 32 -> 0 <= j < 2 ^ 32 -> TimeStamp2Str i = TimeStamp2Str j -> i = j) /\
  (forall l, 0 <= i < 2 ^ 64 -> 0 <= j < 2 ^ 64 -> 1 <= l -> i < 10 ^ l -> j < 10 ^ l ->
     IntToFixStr i l = IntToFixStr j l -> i = j).
Proof.
  intros i j. repeat split.
  - intros Hi Hj E. pose proof (C08_hex64 i Hi) as [A _]. pose proof (C08_hex64 j Hj) as [B _]. congruence.
  - intros Hi Hj E. pose proof (C08_hex32 i Hi) as [A _]. pose proof (C08_hex32 j Hj) as [B _]. congruence.
  - intros Hi Hj E. pose proof (C08_timestamp i Hi) as (_ & _ & A). pose proof (C08_timestamp j Hj) as (_ & _ & B). congruence.
  - intros l Hi Hj Hl Li Lj E.
    destruct (C08_decimal i l Hi Hl Li) as (s & Es & _ & _ & V).
    destruct (C08_decimal j l Hj Hl Lj) as (s' & Es' & _ & _ & V'). congruence.
Qed.

Example C08_case : IntToFixStr 42 6 = Ok [48;48;48;48;52;50]
  /\ Uint32HexString 48879 = [48;48;48;48;98;101;101;102]
  /\ TimeStamp2Str 1116000000 = [49;49;49;54;48;48;48;48;48;48].
Proof. repeat split; vm_compute; reflexivity. Qed.
Print Assumptions C08_decimal.
Print Assumptions C08_timestamp.
Print Assumptions C08_hex64.
Print Assumptions C08_hex32.
Print Assumptions C08_injective.
