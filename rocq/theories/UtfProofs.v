(** * UtfProofs: the UTF-8 / UTF-16 model agrees with the RFC specifications. *)
From Verif Require Import Base UtilsModel SpecText.

Ltac rng := unfold in_rng in *; repeat match goal with
  | |- context[if ?b then _ else _] =>
     (replace b with true by lia) || (replace b with false by lia) end.

Lemma decode_utf8_char c l m : utf8_char c l -> decode_rune (l ++ m) = (c, length l).
Proof.
  intros H. inversion H; subst; cbn [app decode_rune length]; cbv zeta.
  - rng. reflexivity.
  - rng. f_equal; lia.
  - destruct (224 + x =? 224) eqn:?; destruct (224 + x =? 237) eqn:?; rng; f_equal; lia.
  - destruct (240 + x =? 240) eqn:?; destruct (240 + x =? 244) eqn:?; rng; f_equal; lia.
Qed.

Lemma utf8_char_len c l : utf8_char c l -> (1 <= length l <= 4)%nat.
Proof. intros H; inversion H; cbn; lia. Qed.

Lemma utf8_char_not_error c l : utf8_char c l ->
  (c =? rune_error) && (Nat.eqb (length l) 1) = false.
Proof.
  intros H; inversion H; subst; cbn [length Nat.eqb]; try (rewrite andb_false_r; reflexivity).
  unfold rune_error. lia.
Qed.

Lemma utf8_char_range c l : utf8_char c l ->
  0 <= c <= 1114111 /\ ~ (55296 <= c <= 57343).
Proof. intros H; inversion H; subst; lia. Qed.

Lemma decode_valid s : s <> [] ->
  let (r, n) := decode_rune s in
  (r =? rune_error) && (Nat.eqb n 1) = false ->
  exists l m, s = l ++ m /\ utf8_char r l /\ n = length l.
Proof.
  intros Hs. destruct s as [|b0 t]; [congruence|]. clear Hs. cbn [decode_rune].
  assert (Herr : (rune_error =? rune_error) && Nat.eqb 1 1 = false ->
     exists l m, b0 :: t = l ++ m /\ utf8_char rune_error l /\ 1%nat = length l) by discriminate.
  destruct (in_rng 0 127 b0) eqn:E0.
  { intros _. exists [b0], t. repeat split; auto. constructor. unfold in_rng in *; lia. }
  destruct (in_rng 194 223 b0) eqn:E1.
  { destruct t as [|b1 t]; auto. destruct (in_rng 128 191 b1) eqn:F1; auto.
    intros _. exists [b0; b1], t. repeat split; auto.
    replace b0 with (192 + (b0 - 192)) at 2 by lia.
    replace b1 with (128 + (b1 - 128)) at 2 by lia.
    constructor; unfold in_rng in *; lia. }
  destruct (in_rng 224 239 b0) eqn:E2.
  { destruct t as [|b1 [|b2 t]]; auto.
    destruct (in_rng _ _ b1 && in_rng 128 191 b2) eqn:F; auto.
    intros _. exists [b0; b1; b2], t. repeat split; auto.
    replace b0 with (224 + (b0 - 224)) at 2 by lia.
    replace b1 with (128 + (b1 - 128)) at 2 by lia.
    replace b2 with (128 + (b2 - 128)) at 2 by lia.
    unfold in_rng in *. destruct (b0 =? 224) eqn:?; destruct (b0 =? 237) eqn:?; constructor; lia. }
  destruct (in_rng 240 244 b0) eqn:E3; auto.
  destruct t as [|b1 [|b2 [|b3 t]]]; auto.
  destruct (in_rng _ _ b1 && in_rng 128 191 b2 && in_rng 128 191 b3) eqn:F; auto.
  intros _. exists [b0; b1; b2; b3], t. repeat split; auto.
  replace b0 with (240 + (b0 - 240)) at 2 by lia.
  replace b1 with (128 + (b1 - 128)) at 2 by lia.
  replace b2 with (128 + (b2 - 128)) at 2 by lia.
  replace b3 with (128 + (b3 - 128)) at 2 by lia.
  unfold in_rng in *. destruct (b0 =? 240) eqn:?; destruct (b0 =? 244) eqn:?; constructor; lia.
Qed.

Lemma skipn_app_exact {A} (l m : list A) : skipn (length l) (l ++ m) = m.
Proof. rewrite skipn_app, skipn_all, Nat.sub_diag. reflexivity. Qed.

Lemma runes_fuel_text cs s : utf8_text cs s -> forall k, (length s <= k)%nat ->
  map fst (runes_fuel k s) = cs
  /\ forallb (fun p => negb ((fst p =? rune_error) && (Nat.eqb (snd p) 1))) (runes_fuel k s) = true.
Proof.
  induction 1 as [|c cs l m Hc Ht IH]; intros k Hk.
  - destruct k; auto.
  - pose proof (utf8_char_len _ _ Hc). rewrite app_length in Hk.
    destruct k; [lia|]. cbn [runes_fuel].
    destruct (l ++ m) eqn:E; [apply app_eq_nil in E as [-> _]; cbn in *; lia|].
    rewrite <- E. rewrite (decode_utf8_char c l m Hc). rewrite skipn_app_exact.
    destruct (IH k ltac:(lia)) as [I1 I2].
    cbn [map fst forallb snd]. rewrite I1, I2, (utf8_char_not_error _ _ Hc). auto.
Qed.

Lemma runes_text cs s : utf8_text cs s -> runes s = cs.
Proof. intros H. apply (runes_fuel_text cs s H (length s)). lia. Qed.

Lemma valid_of_text cs s : utf8_text cs s -> valid_utf8 s = true.
Proof. intros H. apply (runes_fuel_text cs s H (length s)). lia. Qed.

Lemma text_of_valid_fuel : forall k s, (length s <= k)%nat ->
  forallb (fun p => negb ((fst p =? rune_error) && (Nat.eqb (snd p) 1))) (runes_fuel k s) = true ->
  exists cs, utf8_text cs s.
Proof.
  induction k; intros s Hk H.
  - destruct s; [exists []; constructor|cbn in Hk; lia].
  - cbn [runes_fuel] in H. destruct s as [|b t] eqn:Es; [exists []; constructor|].
    rewrite <- Es in *. pose proof (decode_valid s ltac:(congruence)) as D.
    destruct (decode_rune s) as [r n].
    cbn [forallb fst snd] in H. apply andb_true_iff in H as [H1 H2].
    apply negb_true_iff in H1. destruct (D H1) as (l & m & E & Hc & Hn).
    pose proof (utf8_char_len _ _ Hc). subst n. rewrite E in H2. rewrite skipn_app_exact in H2.
    assert (length s = length l + length m)%nat by (rewrite E, app_length; auto).
    destruct (IHk m ltac:(lia) H2) as [cs Hcs].
    exists (r :: cs). rewrite E. constructor; auto.
Qed.

Lemma valid_utf8_iff s : valid_utf8 s = true <-> exists cs, utf8_text cs s.
Proof.
  split.
  - apply text_of_valid_fuel. lia.
  - intros [cs H]. eapply valid_of_text; eauto.
Qed.

(** ** MsgFmt *)

Lemma text_len cs s : utf8_text cs s ->
  zlen cs <= zlen s /\ (zlen s = zlen cs <-> Forall (fun c => c <= 127) cs).
Proof.
  induction 1 as [|c cs l m Hc Ht IH].
  - split; [cbn; lia|]. split; auto.
  - rewrite zlen_app, zlen_cons. destruct IH as [I1 I2].
    assert (L : 1 <= zlen l /\ (zlen l = 1 <-> c <= 127)).
    { inversion Hc; subst; unfold zlen; cbn [length]; lia. }
    split; [lia|]. split.
    + intros E. constructor; [lia|]. apply I2. lia.
    + intros F. inversion F; subst. assert (zlen m = zlen cs) by (apply I2; auto). lia.
Qed.

Lemma MsgFmt_text cs s : utf8_text cs s ->
  (MsgFmt s = 8 <-> exists c, In c cs /\ 128 <= c) /\ (MsgFmt s = 0 \/ MsgFmt s = 8).
Proof.
  intros H. unfold MsgFmt. rewrite (runes_text cs s H). pose proof (text_len cs s H) as [L1 L2].
  pose proof (zlen_nonneg cs).
  assert (N : ~ Forall (fun c => c <= 127) cs <-> exists c, In c cs /\ 128 <= c).
  { split.
    - intros N. destruct (Exists_dec (fun c => 128 <= c) cs) as [E|E].
      { intros x. destruct (Z_le_gt_dec 128 x); [left|right]; lia. }
      + apply Exists_exists in E. auto.
      + exfalso. apply N. apply Forall_forall. intros x Hx.
        destruct (Z_le_gt_dec 128 x); [|lia]. exfalso. apply E. apply Exists_exists. eauto.
    - intros (c & Hc & Hge) F. rewrite Forall_forall in F. specialize (F c Hc). lia. }
  destruct (zlen s <? 2) eqn:E2.
  - split; [|auto]. split; [discriminate|]. intros HE. exfalso. apply N in HE. apply HE. apply L2.
    destruct H as [|c cs l m Hc Ht]; [reflexivity|].
    pose proof (utf8_char_len _ _ Hc). pose proof (text_len cs m Ht). pose proof (zlen_nonneg cs).
    rewrite zlen_app, zlen_cons in *. unfold zlen in *. lia.
  - destruct (zlen s =? zlen cs) eqn:E3.
    + split; [|auto]. split; [discriminate|]. intros HE. exfalso. apply N in HE. apply HE. apply L2. lia.
    + split; [|auto]. split; auto. intros _. apply N. rewrite <- L2. lia.
Qed.

(** ** UTF-16 *)

Lemma utf16_emit_spec c l : utf8_char c l -> utf16be_char c (utf16_emit c).
Proof.
  intros H. apply utf8_char_range in H. unfold utf16_emit.
  destruct (c <? 65536) eqn:E.
  - cbn [be app]. replace c with (c / 256 * 256 + c mod 256) at 1 by lia.
    replace (c / 256 mod 256) with (c / 256) by lia.
    constructor; unfold is_byte; lia.
  - cbn [be app]. set (x := (c - 65536) / 1024). set (y := (c - 65536) mod 1024).
    replace c with (65536 + x * 1024 + y) by (unfold x, y; lia).
    replace ((55296 + x) / 256 mod 256) with (216 + x / 256) by (unfold x; lia).
    replace ((55296 + x) mod 256) with (x mod 256) by (unfold x; lia).
    replace ((56320 + y) / 256 mod 256) with (220 + y / 256) by (unfold y; lia).
    replace ((56320 + y) mod 256) with (y mod 256) by (unfold y; lia).
    constructor; unfold x, y; lia.
Qed.

Lemma encode_rune_spec c l : utf8_char c l -> encode_rune c = l.
Proof.
  intros H. pose proof (utf8_char_range _ _ H). unfold encode_rune.
  replace ((c <? 0) || (1114111 <? c) || in_rng 55296 57343 c) with false by (unfold in_rng; lia).
  inversion H; subst; rng; try reflexivity.
  - f_equal; [lia|]. f_equal; lia.
  - f_equal; [lia|]. f_equal; [lia|]. f_equal; lia.
  - f_equal; [lia|]. f_equal; [lia|]. f_equal; [lia|]. f_equal; lia.
Qed.

Lemma utf16_step_emit c l m : utf16be_char c l -> utf16_step (l ++ m) = (c, length l).
Proof.
  intros H. inversion H as [hi lo H1 H2 H3|x y Hx Hy]; subst; cbn [app utf16_step length].
  - unfold is_byte in *. replace (in_rng 55296 57343 (hi * 256 + lo)) with false; [reflexivity|].
    unfold in_rng. lia.
  - replace (in_rng 55296 57343 ((216 + x / 256) * 256 + x mod 256)) with true by (unfold in_rng; lia).
    replace (in_rng 56320 57343 ((220 + y / 256) * 256 + y mod 256)) with true by (unfold in_rng; lia).
    replace ((216 + x / 256) * 256 + x mod 256 <? 56320) with true by lia.
    f_equal. lia.
Qed.

Lemma utf16_emit_len c : (2 <= length (utf16_emit c) <= 4)%nat.
Proof. unfold utf16_emit. destruct (c <? 65536); cbn; lia. Qed.

Lemma utf16_decode_text cs s : utf8_text cs s -> forall k,
  (length (flat_map utf16_emit cs) <= k)%nat ->
  utf16_decode_fuel k (flat_map utf16_emit cs) = s.
Proof.
  induction 1 as [|c cs l m Hc Ht IH]; intros k Hk.
  - destruct k; reflexivity.
  - cbn [flat_map] in *. pose proof (utf16_emit_spec c l Hc) as He. rewrite app_length in Hk.
    pose proof (utf16_emit_len c).
    destruct k; [lia|]. cbn [utf16_decode_fuel].
    destruct (utf16_emit c ++ flat_map utf16_emit cs) eqn:E.
    { apply app_eq_nil in E as [E _]. rewrite E in *. cbn [length] in *; lia. }
    rewrite <- E. rewrite (utf16_step_emit c (utf16_emit c) _ He).
    rewrite skipn_app_exact, IH by lia. rewrite (encode_rune_spec c l Hc). reflexivity.
Qed.

Lemma Utf8ToUcs2_text cs s : utf8_text cs s ->
  Utf8ToUcs2 s = Ok (flat_map utf16_emit cs)
  /\ utf16be_text cs (flat_map utf16_emit cs)
  /\ Ucs2ToUtf8 (flat_map utf16_emit cs) = s.
Proof.
  intros H. unfold Utf8ToUcs2. rewrite (valid_of_text cs s H), (runes_text cs s H).
  split; [reflexivity|]. split.
  - induction H as [|c cs l m Hc Ht IH]; cbn [flat_map]; constructor; auto.
    eapply utf16_emit_spec; eauto.
  - unfold Ucs2ToUtf8. apply utf16_decode_text; auto.
Qed.

Lemma Utf8ToUcs2_invalid s : (forall cs, ~ utf8_text cs s) -> Utf8ToUcs2 s = Err 1.
Proof.
  intros H. unfold Utf8ToUcs2. destruct (valid_utf8 s) eqn:E; auto.
  apply valid_utf8_iff in E as [cs Hc]. exfalso; eapply H; eauto.
Qed.

Lemma utf16_emit_ok c : bytes_ok (utf16_emit c).
Proof.
  unfold utf16_emit. destruct (c <? 65536); [apply bytes_ok_be|].
  apply bytes_ok_app; split; apply bytes_ok_be.
Qed.

Lemma Utf8ToUcs2_bytes_ok s u : Utf8ToUcs2 s = Ok u -> bytes_ok u.
Proof.
  unfold Utf8ToUcs2. destruct (valid_utf8 s); intros H; inversion H; subst.
  induction (runes s); cbn; [constructor|]. apply bytes_ok_app; split; auto. apply utf16_emit_ok.
Qed.

(** The UCS-2 form of a non-empty text is non-empty, and an ASCII-only text doubles. *)
Lemma ucs2_len cs s u : utf8_text cs s -> Utf8ToUcs2 s = Ok u ->
  2 * zlen cs <= zlen u /\ (Forall (fun c => c < 65536) cs -> zlen u = 2 * zlen cs).
Proof.
  intros H E. destruct (Utf8ToUcs2_text cs s H) as (E' & _ & _). rewrite E in E'. injection E' as ->.
  clear. induction cs as [|c cs IH]; [cbn; split; intros; lia|].
  cbn [flat_map]. rewrite zlen_app, zlen_cons. pose proof (utf16_emit_len c).
  split; [unfold zlen in *; lia|]. intros F. inversion F; subst.
  destruct IH as [_ IH]. rewrite IH by auto. unfold utf16_emit.
  replace (c <? 65536) with true by lia. rewrite zlen_be. lia.
Qed.
