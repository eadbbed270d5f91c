(** * PropCmpp2: properties C33-C37 (CMPP packets, continued). *)
From Verif Require Import Base SpecText UtilsModel UtilsProofs UtfProofs OptionsModel SpecWire WireProofs CmppModel SpecCmpp
  CmppProofs CmppSubmitProofs CmppBuildProofs PropCmpp.

(** What the receiving side gets of a sent frame: the bytes behind the 12-byte head. *)
Definition over_wire {A} (enc : res bytes) (dec : bytes -> res A) : res A :=
  f <- enc ;; b <- slice f 12 (zlen f) ;; dec b.
Lemma over_wire_ok {A} len cmd seq body (dec : bytes -> res A) :
  over_wire (Ok (render (head len cmd seq ++ body))) dec = dec (render body).
Proof.
  unfold over_wire. cbn [bind]. rewrite render_app.
  rewrite (slice_at _ (render (head len cmd seq)) (render body) []); [reflexivity| | |].
  - rewrite app_nil_r. reflexivity.
  - rewrite zlen_render. reflexivity.
  - rewrite zlen_app, zlen_render. reflexivity.
Qed.

(** ** C33 CMPP submit survives the wire *)

(** Texts that fit their fields, so that a round trip can be expected at all. *)
Definition submit_fits (s : submit) : Prop :=
  fits 10 (sb_serviceId s) /\ fits (if is_v3 (sb_version s) then 32 else 21) (sb_feeTerminalId s) /\
  fits 6 (sb_msgSrc s) /\ fits 2 (sb_feeType s) /\ fits 6 (sb_feeCode s) /\ fits 17 (sb_validTime s) /\
  fits 17 (sb_atTime s) /\ fits 21 (sb_srcId s) /\ fits 20 (sb_linkID s).

(** [s] is message [k] (from 0) of the [n] that NewSubmit builds, [b] its content bytes. *)
Definition built_part ac phones content seq ops vd g nxt n k s b : Prop :=
  exists msgs parts, NewSubmit ac phones content seq ops vd g nxt = Ok msgs /\
    MsgSlices g (MsgFmt content) content = Ok parts /\ n = length parts /\
    nth_error msgs k = Some s /\ nth_error parts k = Some b /\
    ac_wf ac /\ ops_wf ops /\ 1 <= zlen phones <= 255 /\ 0 <= seq < 2 ^ 32 /\ (forall i, 0 <= nxt i < 2 ^ 32).
Lemma built_part_inv ac phones content seq ops vd g nxt n k s b :
  built_part ac phones content seq ops vd g nxt n k s b ->
  submit_wf s /\ built_from ac phones content ops vd s /\ part_of g content seq nxt n k s b.
Proof.
  intros (msgs & parts & E1 & E2 & -> & Hk & Hb & Hac & Hops & Hph & Hs & Hn).
  destruct (NewSubmit_ok ac phones content seq ops vd g nxt Hac Hops ltac:(lia) Hs Hn) as (m' & p' & E1' & E2' & _ & _ & HP).
  rewrite E1 in E1'. rewrite E2 in E2'. injection E1' as <-. injection E2' as <-. eauto.
Qed.
(** Every message NewSubmit returns is such a part. *)
Lemma built_part_all ac phones content seq ops vd g nxt :
  ac_wf ac -> ops_wf ops -> 1 <= zlen phones <= 255 -> 0 <= seq < 2 ^ 32 -> (forall i, 0 <= nxt i < 2 ^ 32) ->
  exists msgs, NewSubmit ac phones content seq ops vd g nxt = Ok msgs /\ msgs <> [] /\
    forall k s, nth_error msgs k = Some s -> exists b, built_part ac phones content seq ops vd g nxt (length msgs) k s b.
Proof.
  intros Hac Hops Hph Hs Hn.
  destruct (NewSubmit_ok ac phones content seq ops vd g nxt Hac Hops ltac:(lia) Hs Hn) as (msgs & parts & E1 & E2 & EL & Hne & HP).
  exists msgs. split; [auto|]. split.
  { intros ->. destruct parts; [congruence|discriminate]. }
  intros k s Hk. assert (Hlt : (k < length msgs)%nat) by (apply nth_error_Some; congruence).
  destruct (nth_error parts k) as [b|] eqn:Eb; [|apply nth_error_None in Eb; unfold bytes in *; lia].
  exists b, msgs, parts. do 2 (split; [assumption|]). split; [exact EL|]. do 6 (split; [assumption|]). assumption.
Qed.

(** The fields common to a submit and what the other side decodes from it (all but the text). *)
Definition same_fields (s d : submit) : Prop :=
  h_len (sb_h d) = h_len (sb_h s) /\ h_cmd (sb_h d) = h_cmd (sb_h s) /\
  sb_pkTotal d = sb_pkTotal s /\ sb_pkNumber d = sb_pkNumber s /\ sb_registeredDel d = sb_registeredDel s /\
  sb_msgLevel d = sb_msgLevel s /\ sb_serviceId d = sb_serviceId s /\ sb_feeUsertype d = sb_feeUsertype s /\
  sb_feeTerminalId d = sb_feeTerminalId s /\ sb_tpPid d = sb_tpPid s /\ sb_tpUdhi d = sb_tpUdhi s /\
  sb_msgFmt d = sb_msgFmt s /\ sb_msgSrc d = sb_msgSrc s /\ sb_feeType d = sb_feeType s /\
  sb_feeCode d = sb_feeCode s /\ sb_validTime d = sb_validTime s /\ sb_atTime d = sb_atTime s /\
  sb_srcId d = sb_srcId s /\ sb_destUsrTl d = sb_destUsrTl s /\ sb_termIds d = sb_termIds s /\
  sb_msgLength d = sb_msgLength s /\ sb_version d = sb_version s /\
  (is_v3 (sb_version s) = true -> sb_feeTerminalType d = sb_feeTerminalType s /\
     sb_destTerminalType d = sb_destTerminalType s /\ sb_linkID d = sb_linkID s).

Lemma decode_built ac phones content seq ops vd g nxt n k s b seq' :
  built_part ac phones content seq ops vd g nxt n k s b -> submit_fits s ->
  (is_v3 (ac_Version ac) = true \/ zlen phones <= 12) ->
  exists mk, over_wire (Submit_Encode s) (Submit_Decode (sb_version s) seq') = (c <- strip_udh b ;; Ok (mk c)) /\
    forall c, same_fields s (mk c) /\ sb_msgContent (mk c) = c /\ h_seq (sb_h (mk c)) = seq'.
Proof.
  intros Hbp (F1 & F2 & F3 & F4 & F5 & F6 & F7 & F8 & F9) Hn.
  destruct (built_part_inv _ _ _ _ _ _ _ _ _ _ _ _ Hbp) as (W & B & P).
  destruct B as (B1 & _ & _ & B4 & B5 & _). destruct P as (P1 & P2 & P3 & _).
  rewrite Submit_Encode_ok by auto. rewrite over_wire_ok.
  rewrite (Submit_Decode_ok s seq'); auto.
  - rewrite P1. eexists. split; [reflexivity|]. intros c. unfold same_fields. cbn. rewrite P3.
    repeat split; auto; rewrite H; auto.
  - destruct Hbp as (_ & _ & _ & _ & _ & _ & _ & _ & _ & Hph & _).
    rewrite B5, zlen_ids, B4, B1. destruct (is_v3 (ac_Version ac)) eqn:E; [lia|].
    destruct Hn as [Hn|Hn]; [discriminate|]. rewrite u8_small by lia. lia.
  - rewrite P1, P2. reflexivity.
Qed.

Lemma strip_udh_head h1 h2 h3 u : strip_udh ([5; 0; 3; h1; h2; h3] ++ u) = Ok (Ucs2ToUtf8 u).
Proof.
  unfold strip_udh. rewrite (slice_at _ [5;0;3;h1;h2;h3] u []).
  - cbn [app]. rewrite at_here. cbn [bind Z.eqb Pos.eqb].
    rewrite at_cons_r, at_here by lia. cbn [bind Z.eqb].
    rewrite !at_cons_r, at_here by lia. reflexivity.
  - rewrite app_nil_r. reflexivity.
  - reflexivity.
  - rewrite zlen_app. reflexivity.
Qed.

(** Everything but the text survives, with the decoded content given by the part's bytes [b]:
    behind a concatenation header 5,0,3,_,_,_ the rest transcoded from UTF-16 to UTF-8,
    otherwise [b] itself.  (Missing for the full C33: the texts of C33_refuted_*, and 2.x
    submits to 13 or more numbers, see C34.) *)
Lemma strip_udh_plain c : c <> [] -> c <> [5] -> c <> [5; 0] -> firstn 3 c <> [5; 0; 3] -> strip_udh c = Ok c.
Proof.
  intros N0 N1 N2 N3. destruct c as [|b0 c]; [congruence|]. unfold strip_udh. rewrite at_here. cbn [bind].
  destruct (b0 =? 5) eqn:E0; [|auto]. assert (b0 = 5) as -> by lia. destruct c as [|b1 c]; [congruence|].
  rewrite at_cons_r, at_here by lia. cbn [bind]. destruct (b1 =? 0) eqn:E1; [|auto]. assert (b1 = 0) as -> by lia.
  destruct c as [|b2 c]; [congruence|].
  rewrite !at_cons_r, at_here by lia. cbn [bind]. destruct (b2 =? 3) eqn:E2; [|auto]. assert (b2 = 3) as -> by lia.
  contradiction N3. reflexivity.
Qed.
Lemma strip_udh_bad c : c = [] \/ c = [5] \/ c = [5; 0] \/ (firstn 3 c = [5; 0; 3] /\ zlen c < 6) -> strip_udh c = Panic.
Proof.
  intros [->|[->|[->|(H & L)]]]; try reflexivity.
  destruct c as [|b0 [|b1 [|b2 [|b3 [|b4 [|b5 c]]]]]]; try discriminate; injection H as -> -> ->; try reflexivity.
  unfold zlen in L. cbn [length] in L. lia.
Qed.
Theorem C33_fields_partial : forall ac phones content seq ops vd g nxt n k s b seq' c,
  built_part ac phones content seq ops vd g nxt n k s b -> submit_fits s ->
  (is_v3 (ac_Version ac) = true \/ zlen phones <= 12) ->
  ((exists h1 h2 h3 u, b = [5; 0; 3; h1; h2; h3] ++ u /\ c = Ucs2ToUtf8 u) \/
   (b = c /\ b <> [] /\ b <> [5] /\ b <> [5; 0] /\ firstn 3 b <> [5; 0; 3])) ->
  exists d, over_wire (Submit_Encode s) (Submit_Decode (sb_version s) seq') = Ok d /\
    same_fields s d /\ sb_msgContent d = c /\ h_seq (sb_h d) = seq'.
Proof.
  intros ac phones content seq ops vd g nxt n k s b seq' c Hbp Hf Hn Hc.
  destruct (decode_built _ _ _ _ _ _ _ _ _ _ _ _ seq' Hbp Hf Hn) as (mk & E & HM).
  assert (Hst : strip_udh b = Ok c).
  { destruct Hc as [(h1 & h2 & h3 & u & -> & ->)|(-> & N0 & N1 & N2 & N3)].
    - apply strip_udh_head.
    - apply strip_udh_plain; auto. }
  rewrite Hst in E. cbn [bind] in E. destruct (HM c) as (H1 & H2 & H3). eauto.
Qed.

Lemma split_one g c n b : 6 < n -> ToTPUDHISlices g c n = Ok [b] -> b = c.
Proof.
  intros Hn E. destruct (Z_lt_ge_dec (zlen c) n) as [Hs|Hs].
  - rewrite split_short in E by auto. injection E as <-. reflexivity.
  - rewrite split_ok in E by lia. injection E as E. apply (f_equal (@length _)) in E.
    rewrite map_length, seq_length in E. cbn [length] in E.
    pose proof (nparts_bounds (zlen c) (n - 6) ltac:(lia) ltac:(lia)). nia.
Qed.

(** A text sent in one part: the bytes on the wire and the bytes decoded are the text itself
    (format 0) or its UTF-16 form (format 8); the latter transcodes back to the text. *)
Theorem C33_one_part_partial : forall ac phones content cs seq ops vd g nxt s b seq',
  built_part ac phones content seq ops vd g nxt 1 0 s b -> submit_fits s ->
  (is_v3 (ac_Version ac) = true \/ zlen phones <= 12) ->
  utf8_text cs content -> b <> [] -> b <> [5] -> b <> [5; 0] -> firstn 3 b <> [5; 0; 3] ->
  zlen b < (if MsgFmt content =? 8 then 140 else 160) ->
  exists d, over_wire (Submit_Encode s) (Submit_Decode (sb_version s) seq') = Ok d /\ same_fields s d /\
    sb_msgContent d = b /\ (if sb_msgFmt d =? 8 then utf16be_text cs b /\ Ucs2ToUtf8 b = content else b = content).
Proof.
  intros ac phones content cs seq ops vd g nxt s b seq' Hbp Hf Hn Ht N0 N1 N2 H503 Hlen.
  destruct (C33_fields_partial _ _ _ _ _ _ _ _ _ _ _ _ seq' b Hbp Hf Hn) as (d & E & S & C & _).
  { right. auto. }
  exists d. split; [auto|]. split; [auto|]. split; [auto|].
  destruct (built_part_inv _ _ _ _ _ _ _ _ _ _ _ _ Hbp) as (_ & B & _).
  assert (Efm : sb_msgFmt d = MsgFmt content) by (destruct S; destruct B; intuition congruence).
  rewrite Efm. destruct Hbp as (msgs & parts & _ & E2 & En & _ & Hb0 & _).
  destruct parts as [|p [|q r]]; try (cbn in En; lia). injection Hb0 as <-.
  unfold MsgSlices in E2. destruct (MsgFmt content =? 8) eqn:F8.
  - destruct (Utf8ToUcs2_text cs content Ht) as (U1 & U2 & U3). rewrite U1 in E2.
    apply split_one in E2; [|lia]. subst. auto.
  - apply split_one in E2; [|lia]. subst. auto.
Qed.

(** The empty text: the receiving side panics. *)
Theorem C33_refuted_empty : forall ac phones seq ops vd g nxt n k s b seq',
  built_part ac phones [] seq ops vd g nxt n k s b -> submit_fits s ->
  (is_v3 (ac_Version ac) = true \/ zlen phones <= 12) ->
  over_wire (Submit_Encode s) (Submit_Decode (sb_version s) seq') = Panic.
Proof.
  intros ac phones seq ops vd g nxt n k s b seq' Hbp Hf Hn.
  destruct (decode_built _ _ _ _ _ _ _ _ _ _ _ _ seq' Hbp Hf Hn) as (mk & E & _). rewrite E.
  destruct Hbp as (msgs & parts & _ & E2 & _ & _ & Hb & _).
  assert (Ep : MsgSlices g (MsgFmt []) [] = Ok [[]]) by reflexivity. rewrite Ep in E2. injection E2 as <-.
  destruct k; [|destruct k; discriminate]. injection Hb as <-. reflexivity.
Qed.

(** The contents that make the receiving side panic, exactly: the empty one and those that
    break off inside the six bytes 5, 0, 3, ... of a long message's part. *)
Theorem C33_refuted_tiny : forall ac phones content seq ops vd g nxt n k s b seq',
  built_part ac phones content seq ops vd g nxt n k s b -> submit_fits s ->
  (is_v3 (ac_Version ac) = true \/ zlen phones <= 12) ->
  over_wire (Submit_Encode s) (Submit_Decode (sb_version s) seq') = Panic <->
  b = [] \/ b = [5] \/ b = [5; 0] \/ (firstn 3 b = [5; 0; 3] /\ zlen b < 6).
Proof.
  intros ac phones content seq ops vd g nxt n k s b seq' Hbp Hf Hn.
  destruct (decode_built _ _ _ _ _ _ _ _ _ _ _ _ seq' Hbp Hf Hn) as (mk & E & _). rewrite E. split.
  - intros P.
    destruct b as [|b0 b]; [auto|]. right. destruct (list_eq_dec Z.eq_dec (b0 :: b) [5]) as [->|N1]; [auto|].
    right. destruct (list_eq_dec Z.eq_dec (b0 :: b) [5; 0]) as [->|N2]; [auto|]. right.
    destruct (list_eq_dec Z.eq_dec (firstn 3 (b0 :: b)) [5; 0; 3]) as [H|N3].
    + split; auto. destruct (Z_lt_ge_dec (zlen (b0 :: b)) 6) as [L|L]; auto. exfalso.
      destruct b as [|b1 [|b2 [|b3 [|b4 [|b5 c]]]]]; try discriminate; try (vm_compute in L; congruence).
      cbn [firstn] in H. injection H as -> -> ->.
      change (5 :: 0 :: 3 :: b3 :: b4 :: b5 :: c) with ([5; 0; 3; b3; b4; b5] ++ c) in P. rewrite strip_udh_head in P. discriminate.
    + exfalso. rewrite strip_udh_plain in P by (auto; congruence). discriminate.
  - intros H. rewrite (strip_udh_bad b H). reflexivity.
Qed.

(** A long text of ASCII characters (other than NUL): the first part's characters come out
    garbled, the first one is not even ASCII. *)
Theorem C33_refuted_long_ascii : forall ac phones content seq ops vd g nxt n s b seq',
  built_part ac phones content seq ops vd g nxt n 0 s b -> submit_fits s ->
  (is_v3 (ac_Version ac) = true \/ zlen phones <= 12) ->
  Forall (fun c => 1 <= c <= 127) content -> 160 <= zlen content ->
  exists d x r, over_wire (Submit_Encode s) (Submit_Decode (sb_version s) seq') = Ok d /\
    sb_msgContent d = x :: r /\ 194 <= x /\ sb_msgContent d <> firstn 154 content.
Proof.
  intros ac phones content seq ops vd g nxt n s b seq' Hbp Hf Hn HA Hl.
  assert (Ht : utf8_text content content).
  { clear - HA. induction HA as [|c l Hc _ IH]; [constructor|]. apply (utf8_cons c l [c] l); auto. constructor. lia. }
  assert (Hfm : MsgFmt content = 0).
  { destruct (MsgFmt_text content content Ht) as [H1 [H2|H2]]; auto. apply H1 in H2 as (c & Hc & H).
    rewrite Forall_forall in HA. specialize (HA c Hc). lia. }
  destruct (decode_built _ _ _ _ _ _ _ _ _ _ _ _ seq' Hbp Hf Hn) as (mk & E & HM).
  destruct Hbp as (msgs & parts & _ & E2 & _ & _ & Hb & _).
  unfold MsgSlices in E2. rewrite Hfm in E2. cbn [Z.eqb] in E2. rewrite split_ok in E2 by lia.
  cbv zeta in E2.
  pose proof (nparts_bounds (zlen content) (160 - 6) ltac:(lia) ltac:(lia)) as Hnp.
  destruct (Z.to_nat (nparts (zlen content) (160 - 6))) as [|m] eqn:Em; [lia|].
  cbn [List.seq map] in E2. assert (Eq : forall x y : list bytes, Ok x = Ok y -> x = y) by congruence.
  apply Eq in E2. rewrite <- E2 in Hb. cbn [nth_error] in Hb.
  assert (Eq2 : forall x y : bytes, Some x = Some y -> x = y) by congruence. apply Eq2 in Hb. rewrite <- Hb in E.
  assert (Eb : split_body content (160 - 6) (nparts (zlen content) (160 - 6)) (zlen content mod (160 - 6)) (Z.of_nat 0)
     = firstn 154 content).
  { unfold split_body. replace (Z.of_nat 0 =? _) with false by nia. reflexivity. }
  rewrite Eb in E.
  destruct content as [|a [|c rest]]; try (cbn in Hl; lia).
  inversion HA as [|? ? Ha HA1]; subst. inversion HA1 as [|? ? Hc _]; subst.
  set (body := firstn 154 (a :: c :: rest)) in *.
  assert (Est : strip_udh (head6 g (nparts (zlen (a :: c :: rest)) (160 - 6)) (Z.of_nat 0) ++ body) = Ok (Ucs2ToUtf8 body)).
  { apply strip_udh_head. }
  rewrite Est in E. cbn [bind] in E.
  destruct (HM (Ucs2ToUtf8 body)) as (_ & HC & _).
  assert (Hx : exists x r, Ucs2ToUtf8 body = x :: r /\ 194 <= x).
  { unfold body. cbn [firstn]. unfold Ucs2ToUtf8. cbn [length utf16_decode_fuel].
    cbn [utf16_step]. replace (in_rng 55296 57343 (a * 256 + c)) with false by (unfold in_rng; lia).
    unfold encode_rune at 1. replace ((a * 256 + c <? 0) || (1114111 <? a * 256 + c) || in_rng 55296 57343 (a * 256 + c))
      with false by (unfold in_rng; lia).
    replace (a * 256 + c <? 128) with false by lia.
    destruct (a * 256 + c <? 2048) eqn:E1; [|destruct (a * 256 + c <? 65536) eqn:E3].
    - eexists _, _. split; [reflexivity|]. lia.
    - eexists _, _. split; [reflexivity|]. lia.
    - lia. }
  destruct Hx as (x & r & Hx & Hge). exists (mk (Ucs2ToUtf8 body)), x, r.
  split; [auto|]. rewrite HC. split; [auto|]. split; [auto|].
  rewrite Hx. unfold body. cbn [firstn]. intros [= -> _]. lia.
Qed.
Definition submit_demo (v : Z) (phones : list bytes) (content : bytes) : res submit :=
  l <- NewSubmit (let '(AuthConf a b c d _ f g h i j k l m n o p q r s t) := ac_demo in AuthConf a b c d v f g h i j k l m n o p q r s t)
     phones content 7 [ONeedReport 1] [49;48] 200 (fun i => 100 + i) ;;
  at_ l 0.
Example C33_case : (s <- submit_demo 48 [[49;51;56]; [49;51;57]] [72;101;108;108;111] ;;
   d <- over_wire (Submit_Encode s) (Submit_Decode 48 7) ;;
   Ok (sb_msgContent d, sb_registeredDel d, sb_destUsrTl d, sb_serviceId d, sb_validTime d))
  = Ok ([72;101;108;108;111], 1, 2, [77;49], [49;48]).
Proof. vm_compute. reflexivity. Qed.
Print Assumptions C33_fields_partial.
Print Assumptions C33_one_part_partial.
Print Assumptions C33_refuted_empty.
Print Assumptions C33_refuted_tiny.
Print Assumptions C33_refuted_long_ascii.

(** ** C34 CMPP submit to many numbers *)

(** 3.x up to 255 numbers and 2.x up to 12 numbers: the numbers come out of the destination
    field (as the code splits it, submit.go:331 and utils.Bytes2StringSlice).
    Missing: 2.x with 13 or more numbers. *)
Theorem C34_numbers_partial : forall ac phones content seq ops vd g nxt n k s b seq' d,
  built_part ac phones content seq ops vd g nxt n k s b -> submit_fits s ->
  (is_v3 (ac_Version ac) = true \/ zlen phones <= 12) ->
  let w := if is_v3 (ac_Version ac) then 32%nat else 21%nat in
  Forall (fits w) phones ->
  over_wire (Submit_Encode s) (Submit_Decode (sb_version s) seq') = Ok d ->
  sb_destUsrTl d = zlen phones /\ Bytes2StringSlice (sb_termIds d) (Z.of_nat w) = Ok phones.
Proof.
  intros ac phones content seq ops vd g nxt n k s b seq' d Hbp Hf Hn w Hph E.
  destruct (decode_built _ _ _ _ _ _ _ _ _ _ _ _ seq' Hbp Hf Hn) as (mk & E' & HM). rewrite E' in E.
  destruct (built_part_inv _ _ _ _ _ _ _ _ _ _ _ _ Hbp) as (_ & B & _).
  apply bind_ok in E as (c & _ & E). injection E as <-. destruct (HM c) as (S & _).
  unfold same_fields in S. unfold built_from in B.
  assert (E1 : sb_destUsrTl (mk c) = zlen phones) by intuition congruence.
  assert (E2 : sb_termIds (mk c) = render (map (T w) phones)) by (unfold w; intuition congruence).
  split; auto. rewrite E2. destruct Hbp as (_ & _ & _ & _ & _ & _ & _ & _ & _ & Hp & _).
  apply Bytes2StringSlice_ids; auto.
  - unfold w. destruct (is_v3 _); lia.
  - intros ->. cbn in Hp. lia.
Qed.
(** And such a submit does decode, exactly unless its content is one of those of C33. *)
Theorem C34_decodes_partial : forall ac phones content seq ops vd g nxt n k s b seq',
  built_part ac phones content seq ops vd g nxt n k s b -> submit_fits s ->
  (is_v3 (ac_Version ac) = true \/ zlen phones <= 12) ->
  (exists d, over_wire (Submit_Encode s) (Submit_Decode (sb_version s) seq') = Ok d) <->
  ~ (b = [] \/ b = [5] \/ b = [5; 0] \/ (firstn 3 b = [5; 0; 3] /\ zlen b < 6)).
Proof.
  intros ac phones content seq ops vd g nxt n k s b seq' Hbp Hf Hn.
  rewrite <- (C33_refuted_tiny _ _ _ _ _ _ _ _ _ _ _ _ seq' Hbp Hf Hn).
  destruct (decode_built _ _ _ _ _ _ _ _ _ _ _ _ seq' Hbp Hf Hn) as (mk & E & _). rewrite E. split.
  - intros (d & P) Q. congruence.
  - intros P. assert (X : forall c e, strip_udh c <> Err e).
    { clear. assert (A : forall (l : list Z) i e, at_ l i <> Err e).
      { intros l i e. unfold at_. destruct ((0 <=? i) && _); [|discriminate]. destruct (nth_error l _); discriminate. }
      intros c e. unfold strip_udh.
      destruct (at_ c 0) as [b0|e0|] eqn:E0; cbn [bind]; [|destruct (A _ _ _ E0)|discriminate]. destruct (b0 =? 5); [|discriminate].
      destruct (at_ c 1) as [b1|e1|] eqn:E1; cbn [bind]; [|destruct (A _ _ _ E1)|discriminate]. destruct (b1 =? 0); [|discriminate].
      destruct (at_ c 2) as [b2|e2|] eqn:E2; cbn [bind]; [|destruct (A _ _ _ E2)|discriminate]. destruct (b2 =? 3); [|discriminate].
      unfold slice. destruct (_ && _); discriminate. }
    destruct (strip_udh b) as [c|e|] eqn:Eb; [cbn [bind]; eauto|destruct (X _ _ Eb)|]. contradiction P. reflexivity.
Qed.
(** 2.x, 13 to 255 numbers: decoding never yields the numbers that were sent. *)
Theorem C34_refuted : forall ac phones content seq ops vd g nxt n k s b seq' d,
  built_part ac phones content seq ops vd g nxt n k s b ->
  is_v3 (ac_Version ac) = false -> 13 <= zlen phones ->
  over_wire (Submit_Encode s) (Submit_Decode (sb_version s) seq') = Ok d ->
  sb_destUsrTl d = zlen phones /\ zlen (sb_termIds d) < 21 * zlen phones /\
  Bytes2StringSlice (sb_termIds d) 21 <> Ok phones.
Proof.
  intros ac phones content seq ops vd g nxt n k s b seq' d Hbp Hv Hph E.
  destruct (built_part_inv _ _ _ _ _ _ _ _ _ _ _ _ Hbp) as (W & B & _).
  assert (B1 : sb_version s = ac_Version ac) by apply B. assert (B4 : sb_destUsrTl s = zlen phones) by apply B.
  rewrite Submit_Encode_ok in E by auto. rewrite over_wire_ok in E.
  destruct (Submit_Decode_v2_ids s seq' d W) as (D1 & D2); [congruence|auto|].
  destruct Hbp as (_ & _ & _ & _ & _ & _ & _ & _ & _ & Hp & _).
  assert (Hlt : zlen (sb_termIds d) < 21 * zlen phones).
  { rewrite D2, B4. unfold u8. pose proof (Z.mod_pos_bound (zlen phones * 21) 256 ltac:(lia)). lia. }
  split; [congruence|]. split; [auto|].
  unfold Bytes2StringSlice. destruct (zlen (sb_termIds d) <=? 21).
  - intros [= H]. rewrite <- H in Hph. cbn in Hph. lia.
  - cbn [Z.eqb]. intros H.
    assert (HL : forall inp pl m i l, b2ss_loop inp pl i m = Ok l -> length l = m).
    { intros inp pl. induction m as [|m IH]; intros i l; cbn [b2ss_loop]; intros HH.
      - injection HH as <-. reflexivity.
      - apply bind_ok in HH as (x & _ & HH). apply bind_ok in HH as (y & HH2 & HH). injection HH as <-.
        cbn [length]. erewrite IH; eauto. }
    apply HL in H. assert (zlen (sb_termIds d) / 21 < zlen phones) by (apply Z.div_lt_upper_bound; lia).
    pose proof (zlen_nonneg (sb_termIds d)). unfold zlen in *. lia.
Qed.
Example C34_case : (s <- submit_demo 32 (repeat [49;51;56] 13) [72;101;108;108;111] ;;
   over_wire (Submit_Encode s) (Submit_Decode 32 7)) = Panic
  /\ (s <- submit_demo 32 (repeat [49;51;56] 12) [72;101;108;108;111] ;;
   over_wire (Submit_Encode s) (fun b => d <- Submit_Decode 32 7 b ;; Bytes2StringSlice (sb_termIds d) 21)) = Ok (repeat [49;51;56] 12).
Proof. vm_compute. auto. Qed.
Print Assumptions C34_numbers_partial.
Print Assumptions C34_decodes_partial.
Print Assumptions C34_refuted.

(** ** C35 CMPP responses, heartbeat, terminate *)

Definition resp_len (v : Z) : Z := if is_v3 v then 24 else 21.
Theorem C35_responses : forall cmd ver msgId result seq,
  cmd = 2147483652 \/ cmd = 2147483653 -> 0 <= msgId < 2 ^ 64 -> 0 <= seq < 2 ^ 32 ->
  0 <= result < (if is_v3 ver then 2 ^ 32 else 256) ->
  let r := CResp (CHead (resp_len ver) cmd seq) msgId result ver in
  let f := render [U 4 (resp_len ver); U 4 cmd; U 4 seq; U 8 msgId; U (if is_v3 ver then 4 else 1) result] in
  cresp_Encode r = Ok f /\ zlen f = resp_len ver /\ UnpackHead f = Ok (resp_len ver, cmd, seq) /\
  over_wire (cresp_Encode r) (cresp_Decode cmd ver seq) = Ok r.
Proof.
  intros cmd ver msgId result seq Hcmd Hm Hs Hr r f.
  assert (W : cresp_wf cmd r) by (unfold cresp_wf; cbn; auto).
  assert (Ef : cresp_Encode r = Ok (render (head (resp_len ver) cmd seq ++ resp_body (is_v3 ver) r)))
    by (rewrite (cresp_Encode_ok cmd) by auto; reflexivity).
  split; [exact Ef|]. split; [|split].
  - unfold f, resp_len. rewrite zlen_render. destruct (is_v3 ver); reflexivity.
  - unfold f. change (render _) with (render (head (resp_len ver) cmd seq ++ [U 8 msgId; U (if is_v3 ver then 4 else 1) result])).
    rewrite render_app. apply UnpackHead_head; try lia. unfold resp_len. destruct (is_v3 ver); lia.
  - rewrite Ef, over_wire_ok. apply (cresp_Decode_ok cmd r seq W).
Qed.
(** The responses made for a submit and for a delivery are of that form. *)
Theorem C35_made : forall s result nid d code,
  0 <= h_seq (sb_h s) < 2 ^ 32 -> 0 <= h_seq (dl_h d) < 2 ^ 32 ->
  (exists m, Submit_ToResponse s result nid = CResp (CHead (resp_len (sb_version s)) 2147483652 (h_seq (sb_h s))) m result (sb_version s)
     /\ (0 <= m < 2 ^ 64)) /\
  Delivery_ToResponse d code = CResp (CHead (resp_len (dl_version d)) 2147483653 (h_seq (dl_h d))) (dl_msgId d) code (dl_version d).
Proof.
  intros s result nid d code H1 H2. split; [|reflexivity].
  exists (if result =? 0 then u64 nid else 0). split; [reflexivity|].
  destruct (result =? 0); [|lia]. unfold u64. change (2 ^ 64) with 18446744073709551616. apply Z.mod_pos_bound. lia.
Qed.
(** Packets that are a bare head (plus one zero byte in the heartbeat response). *)
Theorem C35_bare : forall seq, 0 <= seq < 2 ^ 32 ->
  let at_ := NewActiveTest seq in let te := NewTerminate seq in
  head_Encode at_ = Ok (render [U 4 12; U 4 8; U 4 seq]) /\
  ActiveTestRsp_Encode (ActiveTest_ToResponse at_) = Ok (render [U 4 13; U 4 2147483656; U 4 seq; U 1 0]) /\
  head_Encode te = Ok (render [U 4 12; U 4 2; U 4 seq]) /\
  head_Encode (Terminate_ToResponse te) = Ok (render [U 4 12; U 4 2147483650; U 4 seq]) /\
  over_wire (head_Encode at_) (ActiveTest_Decode seq) = Ok at_ /\
  over_wire (ActiveTestRsp_Encode (ActiveTest_ToResponse at_)) (ActiveTestRsp_Decode seq) = Ok (ActiveTest_ToResponse at_) /\
  over_wire (head_Encode te) (Terminate_Decode seq) = Ok te /\
  over_wire (head_Encode (Terminate_ToResponse te)) (TerminateRsp_Decode seq) = Ok (Terminate_ToResponse te).
Proof.
  intros seq Hs at_ te.
  assert (E1 : head_Encode at_ = Ok (render (head 12 8 seq ++ []))).
  { unfold at_, NewActiveTest. rewrite head_Encode_ok by (cbn; lia). cbn [h_len h_cmd h_seq]. change ((Z.to_nat 12 - 12)%nat) with 0%nat.
    cbn [repeat]. rewrite !app_nil_r. reflexivity. }
  assert (E2 : head_Encode te = Ok (render (head 12 2 seq ++ []))).
  { unfold te, NewTerminate. rewrite head_Encode_ok by (cbn; lia). cbn [h_len h_cmd h_seq]. change ((Z.to_nat 12 - 12)%nat) with 0%nat.
    cbn [repeat]. rewrite !app_nil_r. reflexivity. }
  assert (E3 : head_Encode (Terminate_ToResponse te) = Ok (render (head 12 2147483650 seq ++ []))).
  { unfold te, NewTerminate, Terminate_ToResponse. rewrite head_Encode_ok by (cbn; lia). cbn [h_len h_cmd h_seq]. change ((Z.to_nat 12 - 12)%nat) with 0%nat.
    cbn [repeat]. rewrite !app_nil_r. reflexivity. }
  assert (E4 : ActiveTestRsp_Encode (ActiveTest_ToResponse at_) = Ok (render (head 13 2147483656 seq ++ [U 1 0]))).
  { unfold at_, NewActiveTest, ActiveTest_ToResponse, ActiveTestRsp_Encode. rewrite head_Encode_ok by (cbn; lia).
    cbn [h_len h_cmd h_seq bind]. change ((Z.to_nat 13 - 12)%nat) with 1%nat.
    rewrite set_at_end by (rewrite ?zlen_render; cbn; lia). rewrite render_app. cbn [repeat Nat.sub]. rewrite app_nil_r. reflexivity. }
  rewrite E1, E2, E3, E4, !over_wire_ok. repeat split; reflexivity.
Qed.
Example C35_case : cresp_Encode (CResp (CHead 21 2147483652 7) 258 8 32)
  = Ok [0;0;0;21; 128;0;0;4; 0;0;0;7; 0;0;0;0;0;0;1;2; 8].
Proof. vm_compute. reflexivity. Qed.
Print Assumptions C35_responses.
Print Assumptions C35_made.
Print Assumptions C35_bare.

(** ** C36 CMPP delivery survives the wire *)

(** The delivery's texts fit their fields. *)
Definition delivery_fits (d : delivery) : Prop :=
  fits 10 (dl_serviceId d) /\ fits (if is_v3 (dl_version d) then 32 else 21) (dl_srcTerminalId d).

Lemma NewDelivery_wf ac phone msg dest sid seq nid : ac_wf ac -> delivery_wf (NewDelivery ac phone msg dest sid seq nid).
Proof.
  intros (A1 & _). unfold NewDelivery. destruct (setMsgContent msg) as [[fmt l] text] eqn:E.
  assert (Hl : is_byte l /\ is_byte fmt).
  { unfold setMsgContent in E. assert (F : MsgFmt msg = 0 \/ MsgFmt msg = 8) by (unfold MsgFmt; destruct (zlen msg <? 2); [lia|destruct (zlen msg =? zlen (runes msg)); lia]).
    assert (U : forall x, is_byte (u8 x)) by (intros x; unfold is_byte, u8; lia).
    destruct (MsgFmt msg =? 8); [destruct (140 <? _)|destruct (160 <? _)]; injection E as <- <- <-; split; auto; destruct F as [-> | ->]; unfold is_byte; lia. }
  destruct Hl as [Hl Hf].
  refine (conj eq_refl (conj eq_refl (conj _ (conj _ (conj _ (conj Hf (conj _ (conj _ Hl)))))))); try (unfold is_byte; cbn; lia).
  cbn [dl_msgId]. unfold u64. change (2 ^ 64) with 18446744073709551616. apply Z.mod_pos_bound. lia.
Qed.

(** What arrives of a delivery built by NewDelivery: [c] is the first part MsgSlices makes. *)
Lemma delivery_arrives ac phone msg dest sid seq nid g seq' : ac_wf ac ->
  let d := NewDelivery ac phone msg dest sid seq nid in delivery_fits d ->
  exists c parts, MsgSlices g (dl_msgFmt d) (dl_msgContent d) = Ok (c :: parts) /\
  over_wire (Delivery_Encode g d) (Delivery_Decode (dl_version d) seq') =
  Ok (Delivery (CHead (h_len (dl_h d)) 5 seq') (dl_msgId d) (dl_serviceId d) [] (dl_tpPid d) (dl_tpUdhi d)
        (dl_msgFmt d) (dl_srcTerminalId d) 0 0 (dl_msgLength d)
        (TrimStr (fit (Z.to_nat (dl_msgLength d)) c)) None [] (dl_version d)).
Proof.
  intros Hac d [F1 F2]. assert (W : delivery_wf d) by (apply NewDelivery_wf; auto).
  destruct (MsgSlices_ok g (dl_msgFmt d) (dl_msgContent d)) as (parts & E & Hne & _).
  destruct parts as [|c parts]; [congruence|]. exists c, parts. split; [auto|].
  assert (R0 : dl_registeredDelivery d = 0) by (unfold d, NewDelivery; destruct (setMsgContent msg) as [[? ?] ?]; reflexivity).
  assert (L0 : dl_linkID d = []) by (unfold d, NewDelivery; destruct (setMsgContent msg) as [[? ?] ?]; reflexivity).
  assert (T0 : dl_srcTerminalType d = 0) by (unfold d, NewDelivery; destruct (setMsgContent msg) as [[? ?] ?]; reflexivity).
  rewrite (Delivery_Encode_ok g d c W).
  2:{ unfold delivery_content. rewrite R0. cbn [Z.eqb]. rewrite E. cbn [bind]. apply at_here. }
  rewrite over_wire_ok, Delivery_Decode_ok; auto.
  - rewrite R0, L0, T0. cbn [Z.eqb]. destruct (is_v3 _); reflexivity.
  - rewrite zlen_fit. destruct W as (_ & _ & _ & _ & _ & _ & _ & _ & H). unfold is_byte in H. lia.
  - rewrite L0. split; [auto|cbn; lia].
  - rewrite R0. lia.
Qed.

(** Always: the destination number is lost — the service id comes out in its place, and the
    service id comes out empty. *)
Theorem C36_refuted : forall ac phone msg dest sid seq nid g seq', ac_wf ac ->
  let d := NewDelivery ac phone msg dest sid seq nid in delivery_fits d ->
  exists e, over_wire (Delivery_Encode g d) (Delivery_Decode (ac_Version ac) seq') = Ok e /\
    dl_destId e = dl_serviceId d /\ dl_serviceId e = [] /\
    (ac_SmsDisplayNo ac ++ dest <> (match sid with [] => ac_ServiceId ac | _ => sid end) -> dl_destId e <> ac_SmsDisplayNo ac ++ dest).
Proof.
  intros ac phone msg dest sid seq nid g seq' Hac d Hf.
  destruct (delivery_arrives ac phone msg dest sid seq nid g seq' Hac Hf) as (c & parts & _ & E). fold d in E.
  assert (V : dl_version d = ac_Version ac) by (unfold d, NewDelivery; destruct (setMsgContent msg) as [[? ?] ?]; reflexivity).
  assert (S : dl_serviceId d = match sid with [] => ac_ServiceId ac | _ => sid end)
    by (unfold d, NewDelivery; destruct (setMsgContent msg) as [[? ?] ?]; reflexivity).
  clearbody d. rewrite V in E. rewrite E. eexists. split; [reflexivity|]. cbn [dl_destId dl_serviceId].
  split; [auto|]. split; [auto|]. intros H. rewrite S. intros H2. apply H. symmetry. exact H2.
Qed.
(** A text of 160 or more ASCII characters arrives as the single byte 5. *)
Theorem C36_refuted_long : forall ac phone msg dest sid seq nid g seq', ac_wf ac ->
  let d := NewDelivery ac phone msg dest sid seq nid in delivery_fits d ->
  Forall (fun c => 1 <= c <= 127) msg -> 160 <= zlen msg ->
  exists e, over_wire (Delivery_Encode g d) (Delivery_Decode (ac_Version ac) seq') = Ok e /\ dl_msgContent e = [5].
Proof.
  intros ac phone msg dest sid seq nid g seq' Hac d Hf HA Hl.
  assert (Ht : utf8_text msg msg).
  { clear - HA. induction HA as [|c l Hc _ IH]; [constructor|]. apply (utf8_cons c l [c] l); auto. constructor. lia. }
  assert (Hfm : MsgFmt msg = 0).
  { destruct (MsgFmt_text msg msg Ht) as [H1 [H2|H2]]; auto. apply H1 in H2 as (c & Hc & H).
    rewrite Forall_forall in HA. specialize (HA c Hc). lia. }
  destruct (delivery_arrives ac phone msg dest sid seq nid g seq' Hac Hf) as (c & parts & Ec & E). fold d in Ec, E.
  assert (V : dl_version d = ac_Version ac) by (unfold d, NewDelivery; destruct (setMsgContent msg) as [[? ?] ?]; reflexivity).
  assert (D : dl_msgFmt d = 0 /\ dl_msgLength d = 160 /\ dl_msgContent d = firstn 160 msg).
  { unfold d, NewDelivery, setMsgContent. rewrite Hfm. cbn [Z.eqb]. destruct (160 <? zlen msg) eqn:E160; cbn [dl_msgFmt dl_msgLength dl_msgContent].
    - auto.
    - replace (zlen msg) with 160 by lia. rewrite firstn_all2 by (unfold zlen in *; lia). auto. }
  destruct D as (D1 & D2 & D3). rewrite V in E. rewrite E. eexists. split; [reflexivity|]. cbn [dl_msgContent].
  rewrite D1, D3 in Ec. unfold MsgSlices in Ec. cbn [Z.eqb] in Ec.
  rewrite split_ok in Ec by (unfold zlen in *; rewrite ?firstn_length; lia).
  cbv zeta in Ec. set (np := nparts _ _) in Ec.
  destruct (Z.to_nat np) as [|m]; [discriminate|]. cbn [List.seq map] in Ec.
  assert (Eq : forall (x y : bytes) xs ys, Ok (x :: xs) = Ok (y :: ys) -> x = y) by congruence.
  apply Eq in Ec. rewrite <- Ec, D2. reflexivity.
Qed.
Lemma bmp_len cs : Forall (fun c => c < 65536) cs -> zlen (flat_map utf16_emit cs) = 2 * zlen cs.
Proof.
  induction 1 as [|c l Hc _ IH]; [reflexivity|]. cbn [flat_map]. rewrite zlen_app, zlen_cons, IH.
  unfold utf16_emit. replace (c <? 65536) with true by lia. rewrite zlen_be. lia.
Qed.
Lemma first_nonneg c0 cs m : utf8_text (c0 :: cs) m -> 0 <= c0.
Proof. intros Ht. inversion Ht as [|? ? ? ? Hch]; subst. apply utf8_char_range in Hch. lia. Qed.
(** A UCS-2 text beginning with a character below 256 (a Latin letter or digit) arrives empty. *)
Theorem C36_refuted_ucs2 : forall ac phone msg c0 cs dest sid seq nid g seq', ac_wf ac ->
  let d := NewDelivery ac phone msg dest sid seq nid in delivery_fits d ->
  utf8_text (c0 :: cs) msg -> c0 < 256 -> (exists c, In c (c0 :: cs) /\ 128 <= c) -> zlen (c0 :: cs) < 70 ->
  Forall (fun c => c < 65536) cs ->
  exists e, over_wire (Delivery_Encode g d) (Delivery_Decode (ac_Version ac) seq') = Ok e /\ dl_msgContent e = [].
Proof.
  intros ac phone msg c0 cs dest sid seq nid g seq' Hac d Hf Ht H0 Hex Hl Hbmp.
  assert (Hfm : MsgFmt msg = 8) by (apply (MsgFmt_text _ _ Ht); auto).
  destruct (delivery_arrives ac phone msg dest sid seq nid g seq' Hac Hf) as (c & parts & Ec & E). fold d in Ec, E.
  assert (V : dl_version d = ac_Version ac) by (unfold d, NewDelivery; destruct (setMsgContent msg) as [[? ?] ?]; reflexivity).
  assert (D : dl_msgFmt d = 8 /\ 1 <= dl_msgLength d /\ dl_msgContent d = msg).
  { unfold d, NewDelivery, setMsgContent. rewrite Hfm, (runes_text _ _ Ht). change (8 =? 8) with true. cbv iota.
    replace (140 <? 2 * zlen (c0 :: cs)) with false by lia. cbn [dl_msgFmt dl_msgLength dl_msgContent]. rewrite zlen_cons in *. pose proof (zlen_nonneg cs).
    rewrite u8_small by lia. split; [reflexivity|]. split; [lia|reflexivity]. }
  destruct D as (D1 & D2 & D3). rewrite V in E. rewrite E. eexists. split; [reflexivity|]. cbn [dl_msgContent].
  rewrite D1, D3 in Ec. unfold MsgSlices in Ec. cbn [Z.eqb Pos.eqb] in Ec.
  destruct (Utf8ToUcs2_text _ _ Ht) as (U1 & _). rewrite U1 in Ec.
  assert (HL : zlen (flat_map utf16_emit cs) = 2 * zlen cs) by (apply bmp_len; auto).
  assert (Hc0 : 0 <= c0) by (eapply first_nonneg; eauto).
  assert (E0 : utf16_emit c0 = [0; c0]).
  { unfold utf16_emit. replace (c0 <? 65536) with true by lia. cbn [be app].
    replace (c0 / 256 mod 256) with 0 by lia. replace (c0 mod 256) with c0 by lia. reflexivity. }
  rewrite split_short in Ec.
  2:{ cbn [flat_map]. rewrite E0, zlen_app, HL. rewrite zlen_cons in Hl. change (zlen [0; c0]) with 2. lia. }
  assert (Eq : forall (x y : bytes) xs ys, Ok (x :: xs) = Ok (y :: ys) -> x = y) by congruence.
  apply Eq in Ec. rewrite <- Ec. cbn [flat_map]. rewrite E0.
  destruct (Z.to_nat (dl_msgLength d)) eqn:En; [lia|]. reflexivity.
Qed.
Lemma ascii_text msg : Forall (fun c => 1 <= c <= 127) msg -> utf8_text msg msg.
Proof. induction 1 as [|x l Hc _ IH]; [constructor|]. apply (utf8_cons x l [x] l); auto. constructor. lia. Qed.
(** Everything else survives; a NUL-free ASCII text of fewer than 160 characters does too.
    Missing: destination, service id, longer texts, non-ASCII texts. *)
Theorem C36_rest_partial : forall ac phone msg dest sid seq nid g seq', ac_wf ac ->
  let d := NewDelivery ac phone msg dest sid seq nid in delivery_fits d ->
  exists e, over_wire (Delivery_Encode g d) (Delivery_Decode (ac_Version ac) seq') = Ok e /\
    dl_msgId e = nid mod 2 ^ 64 /\ dl_srcTerminalId e = phone /\ dl_msgFmt e = MsgFmt msg /\
    dl_msgLength e = dl_msgLength d /\ dl_linkID e = dl_linkID d /\ dl_registeredDelivery e = 0 /\ dl_report e = None /\
    h_len (dl_h e) = h_len (dl_h d) /\ h_cmd (dl_h e) = 5 /\ h_seq (dl_h e) = seq' /\
    (Forall (fun c => 1 <= c <= 127) msg -> zlen msg < 160 -> dl_msgContent e = msg /\ dl_msgLength e = zlen msg).
Proof.
  intros ac phone msg dest sid seq nid g seq' Hac d Hf.
  destruct (delivery_arrives ac phone msg dest sid seq nid g seq' Hac Hf) as (c & parts & Ec & E). fold d in Ec, E.
  assert (V : dl_version d = ac_Version ac /\ dl_msgId d = u64 nid /\ dl_srcTerminalId d = phone /\ dl_linkID d = [] /\ dl_msgFmt d = MsgFmt msg).
  { unfold d, NewDelivery. destruct (setMsgContent msg) as [[f l] t] eqn:Es. cbn. repeat split; auto.
    unfold setMsgContent in Es. destruct (MsgFmt msg =? 8); [destruct (140 <? _)|destruct (160 <? _)]; injection Es as <- _ _; reflexivity. }
  destruct V as (V1 & V2 & V3 & V4 & V5). rewrite V1 in E. rewrite E. eexists. split; [reflexivity|].
  cbn [dl_msgId dl_srcTerminalId dl_msgFmt dl_msgLength dl_linkID dl_registeredDelivery dl_report dl_h h_len h_cmd h_seq dl_msgContent].
  split; [exact V2|]. split; [exact V3|]. split; [exact V5|]. split; [reflexivity|]. split; [symmetry; exact V4|].
  do 5 (split; [reflexivity|]). intros HA Hl.
  assert (Ht : utf8_text msg msg) by (apply ascii_text; auto).
  assert (Hfm : MsgFmt msg = 0) by (destruct (MsgFmt_text msg msg Ht) as [H1 [H2|H2]]; auto; apply H1 in H2 as (x & Hc & H);
    rewrite Forall_forall in HA; specialize (HA x Hc); lia).
  assert (D : dl_msgLength d = zlen msg /\ dl_msgContent d = msg).
  { unfold d, NewDelivery, setMsgContent. rewrite Hfm. change (0 =? 8) with false. cbv iota.
    replace (160 <? zlen msg) with false by lia. cbn [dl_msgLength dl_msgContent].
    pose proof (zlen_nonneg msg). rewrite u8_small by lia. auto. }
  destruct D as [D1 D2]. split; [|exact D1].
  rewrite V5, Hfm, D2 in Ec. unfold MsgSlices in Ec. cbn [Z.eqb] in Ec. rewrite split_short in Ec by lia.
  assert (Eq : forall (x y : bytes) xs ys, Ok (x :: xs) = Ok (y :: ys) -> x = y) by congruence.
  apply Eq in Ec. rewrite <- Ec, D1. unfold zlen. rewrite Nat2Z.id, fit_exact by auto.
  apply TrimStr_no_nul_id. intros H. rewrite Forall_forall in HA. specialize (HA 0 H). lia.
Qed.
Definition ac_demo20 : authconf :=
  let '(AuthConf a b c d _ f g h i j k l m n o p q r s t) := ac_demo in AuthConf a b c d 32 f g h i j k l m n o p q r s t.
Example C36_case : (e <- over_wire (Delivery_Encode 1 (NewDelivery ac_demo20 [49;51;56] [104;105] [49] [] 3 77)) (Delivery_Decode 32 3) ;;
   Ok (dl_msgId e, dl_destId e, dl_serviceId e, dl_srcTerminalId e, dl_msgContent e)) = Ok (77, [77;49], [], [49;51;56], [104;105]).
Proof. vm_compute. reflexivity. Qed.
(* "A" followed by U+4F60 arrives empty *)
Example C36_case_ucs2 : (e <- over_wire (Delivery_Encode 1 (NewDelivery ac_demo20 [49;51;56] [65;228;189;160] [49] [] 3 77)) (Delivery_Decode 32 3) ;;
   Ok (dl_msgContent e, dl_msgLength e)) = Ok ([], 4).
Proof. vm_compute. reflexivity. Qed.
Print Assumptions C36_refuted.
Print Assumptions C36_refuted_long.
Print Assumptions C36_refuted_ucs2.
Print Assumptions C36_rest_partial.

(** ** C37 CMPP delivery report survives the wire *)
Theorem C37_report : forall s msgId nseq nid nrep sub done g seq',
  is_byte (sb_version s) -> is_byte (sb_destTerminalType s) -> 0 <= msgId < 2 ^ 64 -> fits 10 (sb_serviceId s) ->
  fits 21 (sb_destTerminalId s) -> fits 10 sub -> fits 10 done ->
  let d := ToDeliveryReport s msgId nseq nid nrep sub done in
  exists e r, over_wire (Delivery_Encode g d) (Delivery_Decode (sb_version s) seq') = Ok e /\
    dl_report e = Some r /\ dl_registeredDelivery e = 1 /\ dl_report d = Some r /\
    rp_msgId r = msgId /\ rp_stat r = stat_of (nrep mod 2 ^ 32 mod 100) /\ rp_submitTime r = sub /\ rp_doneTime r = done /\
    rp_destTerminalId r = sb_destTerminalId s /\ rp_smscSequence r = nrep mod 2 ^ 32 /\
    dl_msgId e = nid mod 2 ^ 64 /\ dl_srcTerminalId e = sb_destTerminalId s /\ dl_msgLength e = 60.
Proof.
  intros s msgId nseq nid nrep sub done g seq' Hv Hdt Hm Fs Fd Fsub Fdone d.
  assert (W : delivery_wf d).
  { refine (conj eq_refl (conj _ (conj _ (conj _ (conj _ (conj _ (conj Hdt (conj _ _)))))))); try (unfold is_byte; cbn; lia).
    - unfold d, ToDeliveryReport, delivery_base. cbn [dl_h h_len dl_version dl_msgLength]. destruct (is_v3 _); reflexivity.
    - unfold d. cbn [dl_msgId ToDeliveryReport]. unfold u64. change (2 ^ 64) with 18446744073709551616. apply Z.mod_pos_bound. lia. }
  assert (Er : dl_report d = Some (NewReport msgId (sb_destTerminalId s) sub done nrep)) by reflexivity.
  set (r := NewReport msgId (sb_destTerminalId s) sub done nrep) in *.
  rewrite (Delivery_Encode_ok g d (render (report_body r)) W) by reflexivity.
  rewrite over_wire_ok. change (sb_version s) with (dl_version d).
  assert (Hst : fits 7 (rp_stat r)).
  { unfold r, NewReport. cbn [rp_stat]. unfold stat_of.
    repeat match goal with |- context [if ?b then _ else _] => destruct b end;
    (split; [cbn; intuition congruence|cbn; lia]). }
  rewrite (fit_exact _ (render (report_body r))) by (pose proof (zlen_report r) as Hz; unfold zlen in Hz; unfold d; cbn [ToDeliveryReport dl_msgLength]; unfold bytes in *; lia).
  rewrite Delivery_Decode_ok; auto.
  - eexists _, r. split; [reflexivity|]. cbn [dl_report dl_registeredDelivery]. repeat split; reflexivity.
  - rewrite zlen_report. reflexivity.
  - unfold d. cbn [ToDeliveryReport dl_version dl_srcTerminalId]. destruct Fd. split; auto. destruct (is_v3 _); lia.
  - split; [auto|cbn; lia].
  - intros _. exists r. split; [reflexivity|]. split.
    { split; unfold r; cbn; [lia|]. unfold u32. lia. }
    repeat split; auto; try apply Hst; try apply Fsub; try apply Fdone; apply Fd.
Qed.
(** What the client decodes: the report carries the id of the submit's response.  The handler
    passes the id of the response object (msc_server/server/cmpp_submit.go:85-86, 111). *)
Theorem C37_same_id : forall s nid nseq nid2 nrep sub done g seq1 seq2,
  is_byte (sb_version s) -> is_byte (sb_destTerminalType s) -> fits 10 (sb_serviceId s) ->
  fits 21 (sb_destTerminalId s) -> fits 10 sub -> fits 10 done ->
  let resp := Submit_ToResponse s 0 nid in
  let dly := ToDeliveryReport s (rs_msgId resp) nseq nid2 nrep sub done in
  exists r' e r, over_wire (cresp_Encode resp) (cresp_Decode 2147483652 (sb_version s) seq1) = Ok r' /\
    over_wire (Delivery_Encode g dly) (Delivery_Decode (sb_version s) seq2) = Ok e /\ dl_report e = Some r /\
    rp_msgId r = rs_msgId r' /\ rs_msgId r' = nid mod 2 ^ 64 /\ rs_result r' = 0.
Proof.
  intros s nid nseq nid2 nrep sub done g seq1 seq2 Hv Hdt Fs Fd Fsub Fdone resp dly.
  assert (Hid : 0 <= rs_msgId resp < 2 ^ 64).
  { unfold resp. cbn [Submit_ToResponse rs_msgId Z.eqb]. unfold u64. change (2 ^ 64) with 18446744073709551616. apply Z.mod_pos_bound. lia. }
  destruct (C37_report s (rs_msgId resp) nseq nid2 nrep sub done g seq2 Hv Hdt Hid Fs Fd Fsub Fdone) as (e & r & E & R & _ & _ & M & _).
  assert (W : cresp_wf 2147483652 resp).
  { split; [reflexivity|]. split; [reflexivity|]. split; [exact Hid|]. unfold resp. cbn [Submit_ToResponse rs_result rs_version].
    destruct (is_v3 _); lia. }
  rewrite (cresp_Encode_ok 2147483652 resp W), over_wire_ok. change (sb_version s) with (rs_version resp) at 1.
  rewrite (cresp_Decode_ok 2147483652 resp seq1 W).
  eexists _, e, r. split; [reflexivity|]. split; [exact E|]. split; [exact R|]. split; [exact M|]. split; reflexivity.
Qed.
Example C37_case : (s <- submit_demo 48 [[49;51;56]] [72;105] ;;
   e <- over_wire (Delivery_Encode 1 (ToDeliveryReport s 99 1 2 188 [49;50] [51])) (Delivery_Decode 48 1) ;;
   match dl_report e with Some r => Ok (rp_msgId r, rp_stat r, rp_doneTime r, rp_smscSequence r) | None => Panic end)
  = Ok (99, [85;78;75;78;79;87;78], [51], 188).
Proof. vm_compute. reflexivity. Qed.
Print Assumptions C37_report.
Print Assumptions C37_same_id.
