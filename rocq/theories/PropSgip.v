(** * PropSgip: C38 C39 C40 (SGIP packets), SGIP part of C41. *)
From Verif Require Import Base SpecText UtilsModel UtilsProofs UtfProofs OptionsModel SpecWire WireProofs CmppModel CmppProofs
  CmppBuildProofs PropCmpp PropCmpp2 SgipModel SpecSgip SgipProofs.

(** What the receiving end does with a frame: read the first 12 bytes with the generic head
    reader (length, command, node), hand the node and the remaining bytes to the decoder. *)
Definition through {A} (enc : res bytes) (dec : Z -> bytes -> res A) : res (Z * Z * A) :=
  f <- enc ;;
  h <- slice f 0 12 ;;
  '(l, cmd, node) <- UnpackHead h ;;
  b <- slice f 12 (zlen f) ;;
  x <- dec node b ;;
  Ok (l, cmd, x).

Lemma through_ok {A} len cmd a b c body (dec : Z -> bytes -> res A) :
  0 <= len < 2 ^ 32 -> 0 <= cmd < 2 ^ 32 -> 0 <= a < 2 ^ 32 ->
  through (Ok (render (head20 len cmd (a, b, c) ++ body))) dec =
  (x <- dec a (render ([U 4 b; U 4 c] ++ body)) ;; Ok (len, cmd, x)).
Proof.
  intros H1 H2 H3. unfold through. cbn [bind]. rewrite head20_split.
  rewrite (slice_at _ [] (render (head len cmd a)) (render ([U 4 b; U 4 c] ++ body))); [|reflexivity|reflexivity|rewrite zlen_render; reflexivity].
  cbn [bind]. rewrite <- (app_nil_r (render (head len cmd a))) at 1. rewrite UnpackHead_head by auto. cbn [bind].
  rewrite (slice_at _ (render (head len cmd a)) (render ([U 4 b; U 4 c] ++ body)) []).
  - reflexivity.
  - rewrite app_nil_r. reflexivity.
  - rewrite zlen_render. reflexivity.
  - rewrite zlen_app, zlen_render. reflexivity.
Qed.

(** ** C38 *)

(** Bind: 61 bytes in the documented order; it arrives unchanged. *)
Theorem C38_bind : forall b, sh_len (bd_h b) = 61 -> sh_cmd (bd_h b) = 1 -> seq_wf (sh_seq (bd_h b)) -> is_byte (bd_type b) ->
  Bind_Encode b = Ok (render (head20 61 1 (sh_seq (bd_h b)) ++ [U 1 (bd_type b); T 16 (bd_name b); T 16 (bd_pwd b); T 8 []])) /\
  (fits 16 (bd_name b) -> fits 16 (bd_pwd b) -> through (Bind_Encode b) Bind_Decode = Ok (61, 1, b)).
Proof.
  intros b Hl Hc Hq Ht. rewrite (Bind_Encode_ok b Hl Ht), Hc. split; [reflexivity|]. intros F1 F2.
  destruct b as [[l cm [[a s1] s2]] t n p]. cbn [bd_h bd_type bd_name bd_pwd sh_len sh_cmd sh_seq] in *. subst l cm.
  destruct Hq as (Q1 & Q2 & Q3). rewrite through_ok by lia. rewrite Bind_Decode_ok by auto.
  cbn [bd_type bd_name bd_pwd bind]. rewrite !TrimStr_fits by auto. reflexivity.
Qed.

(** The response to a bind. *)
Theorem C38_bind_response : forall b code, seq_wf (sh_seq (bd_h b)) -> 0 <= code < 256 ->
  BindRsp_Encode (Bind_ToResponse b code) = Ok (render (head20 21 2147483649 (sh_seq (bd_h b)) ++ [U 1 code])) /\
  through (BindRsp_Encode (Bind_ToResponse b code)) (srsp_Decode 2147483649) =
    Ok (21, 2147483649, SRsp (SHead 21 2147483649 (sh_seq (bd_h b))) code).
Proof.
  intros b code Hq Hc. assert (Hu : u8 code = code) by (apply u8_small; exact Hc).
  assert (E : BindRsp_Encode (Bind_ToResponse b code) = Ok (render (head20 21 2147483649 (sh_seq (bd_h b)) ++ [U 1 code]))).
  { rewrite BindRsp_Encode_ok; unfold Bind_ToResponse, bindrsp_body; cbn [sr_h sr_status sh_len sh_cmd sh_seq]; rewrite ?Hu; auto. }
  split; [exact E|]. rewrite E. destruct (sh_seq (bd_h b)) as [[a s1] s2]. destruct Hq as (Q1 & Q2 & Q3).
  rewrite through_ok by lia.
  replace (render ([U 4 s1; U 4 s2] ++ [U 1 code])) with (render [U 4 s1; U 4 s2; U 1 code; R []])
    by (unfold render; cbn [map app concat render1]; rewrite !app_nil_r; reflexivity).
  rewrite srsp_Decode_ok by auto. reflexivity.
Qed.

(** The other responses (submit, deliver, report): 29 bytes with the given command. *)
Lemma rsp29 cmd q code : 0 <= cmd < 2 ^ 32 -> seq_wf q -> 0 <= code < 256 ->
  srsp_Encode (SRsp (SHead 29 cmd q) (u8 code)) = Ok (render (head20 29 cmd q ++ [U 1 code; T 8 []])) /\
  through (srsp_Encode (SRsp (SHead 29 cmd q) (u8 code))) (srsp_Decode cmd) =
    Ok (29, cmd, SRsp (SHead 29 cmd q) code).
Proof.
  intros Hk Hq Hc. assert (Hu : u8 code = code) by (apply u8_small; exact Hc).
  assert (E : srsp_Encode (SRsp (SHead 29 cmd q) (u8 code)) = Ok (render (head20 29 cmd q ++ [U 1 code; T 8 []]))).
  { rewrite srsp_Encode_ok; unfold srsp_body; cbn [sr_h sr_status sh_len sh_cmd sh_seq]; rewrite ?Hu; auto. }
  split; [exact E|]. rewrite E. destruct q as [[a s1] s2]. destruct Hq as (Q1 & Q2 & Q3).
  rewrite through_ok by lia.
  replace (render ([U 4 s1; U 4 s2] ++ [U 1 code; T 8 []])) with (render [U 4 s1; U 4 s2; U 1 code; R (repeat 0 8)])
    by reflexivity.
  rewrite srsp_Decode_ok by auto. reflexivity.
Qed.
Theorem C38_responses : forall code, 0 <= code < 256 ->
  (forall s, seq_wf (sh_seq (ss_h s)) ->
    srsp_Encode (SSubmit_ToResponse s code) = Ok (render (head20 29 2147483651 (sh_seq (ss_h s)) ++ [U 1 code; T 8 []])) /\
    through (srsp_Encode (SSubmit_ToResponse s code)) (srsp_Decode 2147483651) =
      Ok (29, 2147483651, SRsp (SHead 29 2147483651 (sh_seq (ss_h s))) code)) /\
  (forall d, seq_wf (sh_seq (sd_h d)) ->
    srsp_Encode (SDeliver_ToResponse d code) = Ok (render (head20 29 2147483652 (sh_seq (sd_h d)) ++ [U 1 code; T 8 []])) /\
    through (srsp_Encode (SDeliver_ToResponse d code)) (srsp_Decode 2147483652) =
      Ok (29, 2147483652, SRsp (SHead 29 2147483652 (sh_seq (sd_h d))) code)) /\
  (forall r, seq_wf (sh_seq (st_h r)) ->
    srsp_Encode (SReport_ToResponse r code) = Ok (render (head20 29 2147483653 (sh_seq (st_h r)) ++ [U 1 code; T 8 []])) /\
    through (srsp_Encode (SReport_ToResponse r code)) (srsp_Decode 2147483653) =
      Ok (29, 2147483653, SRsp (SHead 29 2147483653 (sh_seq (st_h r))) code)).
Proof.
  intros code Hc. split; [|split]; intros x Hq.
  - apply (rsp29 2147483651); auto; lia.
  - apply (rsp29 2147483652); auto; lia.
  - apply (rsp29 2147483653); auto; lia.
Qed.

(** Unbind and its response: 20 bytes, the response carries the request's sequence. *)
Theorem C38_unbind : forall q, seq_wf q ->
  shead_Encode (NewUnbind q) = Ok (render (head20 20 2 q)) /\
  through (shead_Encode (NewUnbind q)) (Unbind_Decode 2) = Ok (20, 2, SHead 20 2 q) /\
  through (shead_Encode (Unbind_ToResponse (NewUnbind q))) (Unbind_Decode 2147483650) =
    Ok (20, 2147483650, SHead 20 2147483650 q).
Proof.
  intros q Hq. unfold Unbind_ToResponse, NewUnbind. cbn [sh_len sh_seq].
  rewrite !Unbind_Encode_ok by reflexivity. cbn [sh_cmd sh_seq]. split; [reflexivity|].
  destruct q as [[a s1] s2]. destruct Hq as (Q1 & Q2 & Q3).
  rewrite <- (app_nil_r (head20 20 SG_UNBIND _)), <- (app_nil_r (head20 20 (RESP + SG_UNBIND) _)).
  rewrite !through_ok by (unfold SG_UNBIND, RESP; lia).
  replace (render ([U 4 s1; U 4 s2] ++ [])) with (render [U 4 s1; U 4 s2] ++ []) by (rewrite !app_nil_r; reflexivity).
  rewrite !Unbind_Decode_ok by auto. split; reflexivity.
Qed.

(** Login: the server's verdict on a bind sent by a client configured with account [c], when
    the server's account for it is [a]. *)
Definition bind_verdict (c : authconf) (loginType : Z) (q : seq3) (a : option authconf) : res Z :=
  '(_, _, b) <- through (Bind_Encode (NewBind c loginType q)) Bind_Decode ;; Ok (Bind_Check b a).

(** Accepted exactly when the name sent (the client id of the client's account) is the server
    account's login name and the passwords agree.  The texts must fit 16 bytes. *)
Theorem C38_accept_partial : forall c t q a, is_byte t -> seq_wf q ->
  fits 16 (ac_ClientId c) -> fits 16 (ac_SharedSecret c) ->
  exists v, bind_verdict c t q a = Ok v /\ (v = 0 \/ v = 1) /\
    (v = 0 <-> exists s, a = Some s /\ ac_LoginName s = ac_ClientId c /\ ac_SharedSecret s = ac_SharedSecret c).
Proof.
  intros c t q a Ht Hq F1 F2. unfold bind_verdict.
  destruct (C38_bind (NewBind c t q)) as [_ H]; auto. rewrite H by auto. cbn [bind].
  eexists; split; [reflexivity|]. unfold Bind_Check, NewBind. cbn [bd_name bd_pwd].
  destruct a as [s|]; [|split; [auto|split; [discriminate|intros (s & [=] & _)]]].
  unfold beqb. destruct (list_eq_dec Z.eq_dec (ac_LoginName s) (ac_ClientId c)) as [E1|E1];
    destruct (list_eq_dec Z.eq_dec (ac_SharedSecret s) (ac_SharedSecret c)) as [E2|E2]; cbn [andb].
  - split; [auto|]. split; [|auto]. intros _. exists s. auto.
  - split; [auto|]. split; [discriminate|]. intros (s' & [= <-] & _ & H2). contradiction.
  - split; [auto|]. split; [discriminate|]. intros (s' & [= <-] & H1 & _). contradiction.
  - split; [auto|]. split; [discriminate|]. intros (s' & [= <-] & H1 & _). contradiction.
Qed.

(** The account's own login name is never sent: with one and the same account on both sides
    the bind is refused whenever login name and client id differ, or the password does not fit
    its 16 bytes. *)
Theorem C38_refuted : forall c t q, is_byte t -> seq_wf q -> fits 16 (ac_ClientId c) ->
  ac_LoginName c <> ac_ClientId c \/ 16 < zlen (ac_SharedSecret c) ->
  bind_verdict c t q (Some c) = Ok 1.
Proof.
  intros c t q Ht Hq Hfit Hd. unfold bind_verdict.
  destruct (C38_bind (NewBind c t q)) as [E _]; auto. rewrite E. cbn [NewBind bd_h sh_seq bd_name bd_pwd bd_type].
  destruct q as [[x s1] s2]. destruct Hq as (Q1 & Q2 & Q3). rewrite through_ok by lia.
  pose proof (Bind_Decode_ok (NewBind c t (x, s1, s2)) x s1 s2 Q2 Q3 Ht) as D. unfold bind_body in D.
  cbn [NewBind bd_h sh_seq bd_name bd_pwd bd_type] in D. cbn [app] in D |- *. rewrite D. cbn [bind]. clear D E.
  unfold Bind_Check. cbn [bd_name bd_pwd]. rewrite (TrimStr_fits 16 (ac_ClientId c)) by auto.
  assert (Hs : zlen (TrimStr (fit 16 (ac_SharedSecret c))) <= 16).
  { pose proof (zlen_fit 16 (ac_SharedSecret c)) as Z16. destruct (TrimStr_prefix (fit 16 (ac_SharedSecret c))) as [Es|[r Es]].
    - rewrite Es. lia.
    - rewrite Es in Z16. rewrite zlen_app in Z16. unfold zlen in *. lia. }
  unfold beqb. destruct (list_eq_dec Z.eq_dec (ac_LoginName c) (ac_ClientId c)) as [E1|E1]; [|reflexivity].
  destruct (list_eq_dec Z.eq_dec (ac_SharedSecret c) (TrimStr (fit 16 (ac_SharedSecret c)))) as [E2|E2]; [|reflexivity].
  exfalso. destruct Hd as [Hd|Hd]; [contradiction|]. rewrite <- E2 in Hs. lia.
Qed.

(** ** C39 *)

(** Non-empty content that does not begin with (a prefix of) the long-message header 05 00 03. *)
Definition plain (c : bytes) : Prop :=
  c <> [] /\ firstn 3 c <> firstn (length (firstn 3 c)) [5; 0; 3].
Lemma strip_plain c : plain c -> strip_udh c = Ok c.
Proof.
  intros [H1 H2]. destruct c as [|b0 r]; [contradiction|]. unfold strip_udh. rewrite at_here. cbn [bind].
  destruct (b0 =? 5) eqn:E0; [|reflexivity]. apply Z.eqb_eq in E0. subst b0.
  destruct r as [|b1 r]; [exfalso; apply H2; reflexivity|].
  rewrite at_cons_r by lia. rewrite at_here. cbn [bind].
  destruct (b1 =? 0) eqn:E1; [|reflexivity]. apply Z.eqb_eq in E1. subst b1.
  destruct r as [|b2 r]; [exfalso; apply H2; reflexivity|].
  rewrite !at_cons_r by lia. rewrite at_here. cbn [bind].
  destruct (b2 =? 3) eqn:E2; [|reflexivity]. apply Z.eqb_eq in E2. subst b2. exfalso; apply H2; reflexivity.
Qed.

(** Layout: for every submit whose fields have Go's types, whose texts fit and whose announced
    length counts its numbers and content, the frame is the field table, as long as announced. *)
Theorem C39_layout : forall s, ssubmit_wf s -> ssubmit_fits s ->
  exists f, SSubmit_Encode s = Ok f /\ f = render (head20 (sh_len (ss_h s)) 3 (sh_seq (ss_h s)) ++ ssubmit_body s) /\
    zlen f = sh_len (ss_h s).
Proof.
  intros s Hw Hf. rewrite (SSubmit_Encode_ok s Hw Hf). eexists; split; [reflexivity|]. split; [reflexivity|].
  destruct Hw as (_ & _ & Hl & _). rewrite render_app, zlen_app, zlen_head20, Hl. unfold ssubmit_body.
  rewrite zlen_render. cbn [app widths]. rewrite <- zlen_render, render_app, zlen_app, zlen_ids, zlen_render.
  cbn [widths width]. lia.
Qed.

(** Round trip with 1 to 255 numbers, for content that does not look like a long-message part.
    Missing: the contents of C39_refuted_* below. *)
Theorem C39_round_trip_partial : forall s, ssubmit_wf s -> ssubmit_fits s -> ss_Reserve s = [] ->
  ss_UserCount s = zlen (ss_UserNumber s) -> ss_MessageLength s = zlen (ss_Content s) -> plain (ss_Content s) ->
  through (SSubmit_Encode s) SSubmit_Decode = Ok (sh_len (ss_h s), 3, s).
Proof.
  intros s Hw Hf Hr Hn Hm Hp. rewrite (SSubmit_Encode_ok s Hw Hf).
  pose proof Hw as Hw'. destruct Hw' as (Hc & Hq & Hl & Hl2 & _).
  destruct (sh_seq (ss_h s)) as [[a s1] s2] eqn:Eq. destruct Hq as (Q1 & Q2 & Q3).
  assert (0 <= sh_len (ss_h s)) by (rewrite Hl; unfold zlen; lia).
  rewrite through_ok by lia. rewrite SSubmit_Decode_ok by auto. rewrite strip_plain by auto. cbn [bind].
  destruct s as [[l cm q] sp ch uc un co st ft fv gv ag mo pr et sct rf pid ud cd mt ml ct rs].
  cbn [ss_h sh_len sh_cmd sh_seq ss_Reserve] in *. subst. reflexivity.
Qed.
(** Numbers and all other fields still arrive when the content is a long-message part; only
    the content is replaced by the transcoded text behind the six header bytes. *)
Theorem C39_part_partial : forall s h1 h2 h3 u, ssubmit_wf s -> ssubmit_fits s ->
  ss_UserCount s = zlen (ss_UserNumber s) -> ss_MessageLength s = zlen (ss_Content s) ->
  ss_Content s = [5; 0; 3; h1; h2; h3] ++ u ->
  exists d, through (SSubmit_Encode s) SSubmit_Decode = Ok (sh_len (ss_h s), 3, d) /\
    ss_Content d = Ucs2ToUtf8 u /\ ss_h d = ss_h s /\ ss_UserNumber d = ss_UserNumber s /\ ss_SPNumber d = ss_SPNumber s /\
    ss_ChargeNumber d = ss_ChargeNumber s /\ ss_UserCount d = ss_UserCount s /\ ss_CorpId d = ss_CorpId s /\
    ss_ServiceType d = ss_ServiceType s /\ ss_FeeType d = ss_FeeType s /\ ss_FeeValue d = ss_FeeValue s /\
    ss_GivenValue d = ss_GivenValue s /\ ss_AgentFlag d = ss_AgentFlag s /\ ss_Morelate d = ss_Morelate s /\
    ss_Priority d = ss_Priority s /\ ss_ExpireTime d = ss_ExpireTime s /\ ss_ScheduleTime d = ss_ScheduleTime s /\
    ss_ReportFlag d = ss_ReportFlag s /\ ss_TpPid d = ss_TpPid s /\ ss_TpUdhi d = ss_TpUdhi s /\
    ss_Coding d = ss_Coding s /\ ss_MessageType d = ss_MessageType s /\ ss_MessageLength d = ss_MessageLength s.
Proof.
  intros s h1 h2 h3 u Hw Hf Hn Hm Hc5. rewrite (SSubmit_Encode_ok s Hw Hf).
  pose proof Hw as Hw'. destruct Hw' as (Hc & Hq & Hl & Hl2 & _).
  destruct (sh_seq (ss_h s)) as [[a s1] s2] eqn:Eq. destruct Hq as (Q1 & Q2 & Q3).
  assert (0 <= sh_len (ss_h s)) by (rewrite Hl; unfold zlen; lia).
  rewrite through_ok by lia. rewrite SSubmit_Decode_ok by auto. rewrite Hc5, strip_udh_head. cbn [bind].
  eexists. split; [reflexivity|]. cbn [ss_Content ss_h ss_UserNumber ss_SPNumber ss_ChargeNumber ss_UserCount ss_CorpId
    ss_ServiceType ss_FeeType ss_FeeValue ss_GivenValue ss_AgentFlag ss_Morelate ss_Priority ss_ExpireTime ss_ScheduleTime
    ss_ReportFlag ss_TpPid ss_TpUdhi ss_Coding ss_MessageType ss_MessageLength].
  repeat split. destruct (ss_h s) as [l k q]. cbn [sh_len sh_cmd sh_seq] in *. congruence.
Qed.
(** A submit with empty content, or whose content is a cut-off long-message header, cannot be
    decoded: the decoder panics. *)
Theorem C39_refuted : forall s, ssubmit_wf s -> ssubmit_fits s ->
  ss_UserCount s = zlen (ss_UserNumber s) -> ss_MessageLength s = zlen (ss_Content s) ->
  (ss_Content s = [] \/ ss_Content s = [5] \/ ss_Content s = [5; 0] \/
   (firstn 3 (ss_Content s) = [5; 0; 3] /\ zlen (ss_Content s) < 6)) ->
  through (SSubmit_Encode s) SSubmit_Decode = Panic.
Proof.
  intros s Hw Hf Hn Hm Hc5. rewrite (SSubmit_Encode_ok s Hw Hf).
  pose proof Hw as Hw'. destruct Hw' as (Hc & Hq & Hl & Hl2 & _).
  destruct (sh_seq (ss_h s)) as [[a s1] s2] eqn:Eq. destruct Hq as (Q1 & Q2 & Q3).
  assert (0 <= sh_len (ss_h s)) by (rewrite Hl; unfold zlen; lia).
  rewrite through_ok by lia. rewrite SSubmit_Decode_ok by auto.
  replace (strip_udh (ss_Content s)) with (@Panic bytes); [reflexivity|].
  destruct Hc5 as [->|[->|[->|[H3 H6]]]]; try reflexivity.
  destruct (ss_Content s) as [|b0 [|b1 [|b2 r]]]; try discriminate.
  cbn [firstn] in H3. injection H3 as -> -> ->. unfold strip_udh.
  rewrite at_here. cbn [bind]. change (5 =? 5) with true. cbv iota.
  rewrite at_cons_r by lia. rewrite at_here. cbn [bind]. change (0 =? 0) with true. cbv iota.
  rewrite !at_cons_r by lia. rewrite at_here. cbn [bind]. change (3 =? 3) with true. cbv iota.
  replace (slice _ 6 _) with (@Panic (list Z)); [reflexivity|]. symmetry. apply slice_panic_iff. lia.
Qed.

(** What the client's builder makes: one packet per part, each well formed, to all numbers, the
    part as content, with fresh sequence numbers in order. *)
Lemma sgip_parts_nth mk : forall parts i k, nth_error (sgip_parts mk i parts) k = option_map (mk (i + Z.of_nat k)) (nth_error parts k).
Proof.
  induction parts as [|b parts IH]; intros i k; [destruct k; reflexivity|].
  destruct k; cbn [sgip_parts nth_error option_map].
  - do 2 f_equal. lia.
  - rewrite IH. replace (i + 1 + Z.of_nat k) with (i + Z.of_nat (S k)) by lia. reflexivity.
Qed.
Lemma sgip_parts_len mk : forall parts i, length (sgip_parts mk i parts) = length parts.
Proof. induction parts; intros; cbn; auto. Qed.

Theorem C39_built : forall ac phones content ops vd g q, ac_wf ac -> ops_wf ops ->
  1 <= zlen phones <= 255 -> (forall i, seq_wf (q i)) ->
  exists msgs parts, sgip_NewSubmit ac phones content ops vd g q = Ok msgs /\
    MsgSlices g (MsgFmt content) content = Ok parts /\ length msgs = length parts /\ parts <> [] /\
    forall k s b, nth_error msgs k = Some s -> nth_error parts k = Some b ->
      ssubmit_wf s /\ ss_UserCount s = zlen (ss_UserNumber s) /\ ss_UserNumber s = phones /\
      ss_MessageLength s = zlen b /\ ss_Content s = b /\ sh_seq (ss_h s) = q (Z.of_nat k) /\
      ss_TpUdhi s = (if (length parts =? 1)%nat then 0 else 1) /\ ss_Coding s = MsgFmt content /\
      ss_Reserve s = [] /\ ss_ChargeNumber s = [] /\ ss_FeeValue s = [] /\ ss_GivenValue s = [].
Proof.
  intros ac phones content ops vd g q Hac Hops Hn Hq. unfold sgip_NewSubmit.
  destruct (MsgSlices_ok g (MsgFmt content) content) as (parts & Ep & Hne & Hlen). rewrite Ep. cbn [bind].
  pose proof (LoadMtOptions_wf ops Hops) as (O1 & O2 & O3 & O4). destruct Hac as (A1 & A2 & A3 & A4 & A5).
  assert (Hfm : is_byte (MsgFmt content)) by (unfold MsgFmt, is_byte; destruct (_ <? _); [lia|destruct (_ =? _); lia]).
  assert (U : u8 (zlen phones) = zlen phones) by (apply u8_small; unfold is_byte; lia).
  set (o := LoadMtOptions ops) in *.
  assert (G : forall ud k b, In b parts -> 0 <= ud <= 1 -> let s := sgip_part ac o phones vd (MsgFmt content) ud (q k) b in
      ssubmit_wf s /\ ss_UserCount s = zlen (ss_UserNumber s) /\ ss_UserNumber s = phones /\
      ss_MessageLength s = zlen b /\ ss_Content s = b /\ sh_seq (ss_h s) = q k /\
      ss_TpUdhi s = ud /\ ss_Coding s = MsgFmt content /\
      ss_Reserve s = [] /\ ss_ChargeNumber s = [] /\ ss_FeeValue s = [] /\ ss_GivenValue s = []).
  { intros ud k b Hb Hud. rewrite Forall_forall in Hlen. specialize (Hlen b Hb). pose proof (zlen_nonneg b) as Hb0.
    assert (U32 : u32 (143 + zlen phones * 21 + zlen b) = 143 + 21 * zlen phones + zlen b).
    { unfold u32, bytes in *. rewrite Z.mod_small; lia. }
    assert (U32' : u32 (zlen b) = zlen b) by (unfold u32; apply Z.mod_small; lia).
    unfold sgip_part, ssubmit_wf. cbn [ss_h sh_len sh_cmd sh_seq ss_UserNumber ss_Content ss_UserCount ss_FeeType
      ss_AgentFlag ss_Morelate ss_Priority ss_ReportFlag ss_TpPid ss_TpUdhi ss_Coding ss_MessageType ss_MessageLength
      ss_Reserve ss_ChargeNumber ss_FeeValue ss_GivenValue].
    rewrite U32, U32', U. split; [|repeat split; auto].
    split; [reflexivity|]. split; [apply Hq|]. split; [reflexivity|]. split; [lia|].
    split; [unfold is_byte; lia|]. split; [unfold is_byte; lia|]. split; [unfold is_byte; lia|]. split; [unfold is_byte; lia|].
    split; [apply opt_num_wf; auto|]. split; [apply opt_num_wf; auto|]. split; [unfold is_byte; lia|].
    split; [unfold is_byte; lia|]. split; [auto|]. split; [unfold is_byte; lia|]. lia. }
  destruct parts as [|p0 [|p1 r]]; [contradiction| |].
  - eexists; exists [p0]. split; [reflexivity|]. split; [reflexivity|]. split; [reflexivity|]. split; [discriminate|].
    intros [|k] s b; [|destruct k; discriminate]. cbn [nth_error]. intros [= <-] [= <-].
    apply G; [left; auto|lia].
  - set (parts := p0 :: p1 :: r) in *. eexists; exists parts. split; [reflexivity|]. split; [reflexivity|].
    split; [apply sgip_parts_len|]. split; [discriminate|].
    intros k s b Hs Hb. rewrite sgip_parts_nth, Hb in Hs. cbn [option_map] in Hs. injection Hs as <-.
    change (0 + Z.of_nat k) with (Z.of_nat k). 
    change (length parts =? 1)%nat with false. cbv iota. apply G; [|lia]. apply nth_error_In in Hb. exact Hb.
Qed.

(** ** C40 *)
Theorem C40_deliver : forall d, sdeliver_wf d -> sdeliver_fits d -> sd_Reserve d = [] ->
  SDeliver_Encode d = Ok (render (head20 (sh_len (sd_h d)) 4 (sh_seq (sd_h d)) ++ sdeliver_body d)) /\
  through (SDeliver_Encode d) SDeliver_Decode = Ok (sh_len (sd_h d), 4, d).
Proof.
  intros d Hw Hf Hr. rewrite (SDeliver_Encode_ok d Hw Hf). split; [reflexivity|].
  pose proof Hw as (Hc & Hq & Hl & Hl2 & _).
  destruct (sh_seq (sd_h d)) as [[a s1] s2] eqn:Eq. destruct Hq as (Q1 & Q2 & Q3).
  assert (0 <= sh_len (sd_h d)) by (rewrite Hl; unfold zlen; lia).
  rewrite through_ok by lia. rewrite SDeliver_Decode_ok by auto. cbn [bind].
  destruct d as [[l k q] un sp pid ud cd ml ct rs]. cbn [sd_h sh_len sh_cmd sh_seq sd_Reserve] in *. subst. reflexivity.
Qed.
(** The builder's delivers are well formed: the content is the text in its coding, cut at 140
    (UCS2) or 160 bytes, and the destination starts with the account's number. *)
Lemma has_prefix_spec s p : has_prefix s p = true -> exists r, s = p ++ r.
Proof.
  revert s. induction p as [|x p IH]; intros s H; [exists s; reflexivity|]. destruct s as [|y s]; [cbn in H; discriminate|].
  cbn in H. apply andb_true_iff in H as [H1 H2]. apply Z.eqb_eq in H1. subst y. destruct (IH s H2) as [r ->]. exists r. reflexivity.
Qed.
Theorem C40_deliver_built : forall ac phone content destNo q, seq_wf q ->
  let d := NewDeliver ac phone content destNo q in
  sdeliver_wf d /\ sd_Reserve d = [] /\ sd_UserNumber d = phone /\ (exists r, sd_SPNumber d = ac_SmsDisplayNo ac ++ r) /\
  (exists r, sd_SPNumber d = r ++ destNo) /\ zlen (sd_Content d) <= (if MsgFmt content =? 8 then 140 else 160) /\
  (MsgFmt content <> 8 -> exists r, content = sd_Content d ++ r /\ (zlen content <= 160 -> r = [])) /\
  (forall cs, utf8_text cs content -> MsgFmt content = 8 ->
    exists u r, utf16be_text cs u /\ u = sd_Content d ++ r /\ (zlen u <= 140 -> r = [])).
Proof.
  intros ac phone content destNo q Hq d. unfold d, NewDeliver, sdeliver_wf.
  cbn [sd_h sh_len sh_cmd sh_seq sd_Content sd_TpPid sd_TpUdhi sd_Coding sd_MessageLength sd_Reserve sd_UserNumber sd_SPNumber].
  assert (Hfm : is_byte (MsgFmt content)) by (unfold MsgFmt, is_byte; destruct (_ <? _); [lia|destruct (_ =? _); lia]).
  assert (Hcut : forall (n : Z) (x : bytes), 0 <= n -> let y := if n <? zlen x then firstn (Z.to_nat n) x else x in
     zlen y <= n /\ exists r, x = y ++ r /\ (zlen x <= n -> r = [])).
  { intros n x Hn y. unfold y. destruct (n <? zlen x) eqn:E.
    - split; [unfold zlen; rewrite firstn_length; lia|]. exists (skipn (Z.to_nat n) x). rewrite firstn_skipn.
      split; [reflexivity|]. intros. apply Z.ltb_lt in E. lia.
    - split; [lia|]. exists []. rewrite app_nil_r. auto. }
  assert (Hlen : zlen (deliver_bytes content) <= (if MsgFmt content =? 8 then 140 else 160)).
  { unfold deliver_bytes. destruct (MsgFmt content =? 8).
    - apply (Hcut 140). lia.
    - apply (Hcut 160). lia. }
  split.
  { pose proof (zlen_nonneg (deliver_bytes content)). split; [reflexivity|]. split; [exact Hq|]. split; [reflexivity|].
    split; [destruct (MsgFmt content =? 8); lia|]. split; [unfold is_byte; lia|]. split; [unfold is_byte; lia|]. split; [exact Hfm|reflexivity]. }
  split; [reflexivity|]. split; [reflexivity|].
  split.
  { destruct (has_prefix destNo (ac_SmsDisplayNo ac)) eqn:E; [apply has_prefix_spec; auto|eauto]. }
  split.
  { destruct (has_prefix destNo (ac_SmsDisplayNo ac)) eqn:E; [exists []; reflexivity|eauto]. }
  split; [exact Hlen|]. split.
  - intros H8. unfold deliver_bytes. replace (MsgFmt content =? 8) with false by lia. apply (Hcut 160). lia.
  - intros cs Ht H8. destruct (Utf8ToUcs2_text cs content Ht) as (U1 & U2 & U3).
    unfold deliver_bytes. rewrite H8. change (8 =? 8) with true. cbv iota. unfold bytes in *.
    destruct (Hcut 140 (match Utf8ToUcs2 content with Ok b => b | _ => [] end) ltac:(lia)) as [_ [r [E Er]]].
    exists (match Utf8ToUcs2 content with Ok b => b | _ => [] end), r. split; [|split; assumption].
    rewrite U1. exact U2.
Qed.

Theorem C40_report_partial : forall r, sreport_wf r -> st_Reserve r = [] -> sh_cmd (st_h r) = 5 ->
  through (SReport_Encode r) SReport_Decode = Ok (64, 5, r).
Proof.
  intros r Hw Hr Hc. rewrite (SReport_Encode_ok r Hw).
  pose proof Hw as (Hl & Hq & _).
  destruct (sh_seq (st_h r)) as [[a s1] s2] eqn:Eq. destruct Hq as (Q1 & Q2 & Q3).
  rewrite Hc. rewrite through_ok by lia. rewrite SReport_Decode_ok by auto. cbn [bind].
  destruct r as [[l k q] ms rt un s e rs]. cbn [st_h sh_len sh_cmd sh_seq st_Reserve] in *. subst. reflexivity.
Qed.
(** Every report the builder makes goes out under the deliver command; its body decodes. *)
Theorem C40_refuted : forall phone m0 m1 m2 status code q, seq_wf q -> seq_wf (m0, m1, m2) -> is_byte status -> is_byte code ->
  fits 21 phone ->
  exists f, SReport_Encode (sgip_NewReport phone [m0; m1; m2] status code q) = Ok f /\
    slice f 4 8 = Ok (be 4 4) /\ be 4 4 <> be 4 5 /\
    through (Ok f) SReport_Decode =
      Ok (64, 4, SReport (SHead 64 5 q) [m0; m1; m2] 0 phone status code []).
Proof.
  intros phone m0 m1 m2 status code q Hq Hm Hs Hc Hf.
  assert (Hw : sreport_wf (sgip_NewReport phone [m0; m1; m2] status code q)).
  { unfold sreport_wf, sgip_NewReport. cbn. split; [reflexivity|]. split; [exact Hq|]. split; [unfold is_byte; lia|].
    split; [auto|]. split; [auto|]. split; [auto|]. split; [split; [intros []|cbn; lia]|]. exists m0, m1, m2. auto. }
  rewrite (SReport_Encode_ok _ Hw). eexists; split; [reflexivity|].
  destruct q as [[a s1] s2]. destruct Hq as (Q1 & Q2 & Q3). cbn [sgip_NewReport st_h sh_cmd sh_seq].
  split; [|split; [discriminate|]].
  - rewrite head20_split. change (render (head 64 SG_DELIVER a)) with (be 4 64 ++ be 4 4 ++ be 4 a).
    rewrite <- !app_assoc. apply (slice_at _ (be 4 64) (be 4 4) (be 4 a ++ render ([U 4 s1; U 4 s2] ++
      sreport_body (SReport (SHead 64 SG_DELIVER (a, s1, s2)) [m0; m1; m2] 0 phone status code [])))); reflexivity.
  - rewrite through_ok by (unfold SG_DELIVER; lia). rewrite (SReport_Decode_ok _ a s1 s2 Hw Q2 Q3). reflexivity.
Qed.

(** ** C41, SGIP part *)
Lemma copy_open_nil f lo : 0 <= lo <= zlen f -> copy_open f lo [] = Ok f.
Proof.
  intros H. unfold copy_open, copy_at. replace (_ && _) with true by lia. unfold splice.
  rewrite firstn_nil. cbn [app length]. rewrite Nat.add_0_r, firstn_skipn. reflexivity.
Qed.
Lemma copy_open_ok f lo src : 0 <= lo -> lo + zlen src <= zlen f ->
  copy_open f lo src = Ok (firstn (Z.to_nat lo) f ++ src ++ skipn (Z.to_nat lo + length src) f).
Proof.
  intros H1 H2. pose proof (zlen_nonneg src). unfold copy_open, copy_at. replace (_ && _) with true by lia.
  unfold splice. rewrite (firstn_all2 (n := Z.to_nat (zlen f - lo)) src) by (unfold zlen, bytes in *; lia). reflexivity.
Qed.
Lemma skipn_skipn {A} (l : list A) : forall a b, skipn a (skipn b l) = skipn (b + a) l.
Proof. intros a b. revert l. induction b; intros l; [reflexivity|]. destruct l; cbn; [destruct a; reflexivity|apply IHb]. Qed.
Lemma copy_open_app f lo a b : 0 <= lo -> lo + zlen a + zlen b <= zlen f ->
  copy_open f lo (a ++ b) = (f' <- copy_open f lo a ;; copy_open f' (lo + zlen a) b).
Proof.
  intros H1 H2. pose proof (zlen_nonneg a). pose proof (zlen_nonneg b).
  rewrite (copy_open_ok f lo (a ++ b)) by (rewrite ?zlen_app; lia). rewrite (copy_open_ok f lo a) by lia. cbn [bind].
  assert (L : length (firstn (Z.to_nat lo) f) = Z.to_nat lo) by (rewrite firstn_length; unfold zlen, bytes in *; lia).
  rewrite copy_open_ok; [|lia|].
  2:{ rewrite !zlen_app. unfold zlen, bytes in *. rewrite L, skipn_length. lia. }
  set (x := skipn (Z.to_nat lo + length a) f). rewrite (app_assoc (firstn (Z.to_nat lo) f) a x).
  assert (L2 : length (firstn (Z.to_nat lo) f ++ a) = Z.to_nat (lo + zlen a)) by (rewrite app_length, L; unfold zlen, bytes in *; lia).
  rewrite firstn_app, L2, Nat.sub_diag. cbn [firstn]. rewrite app_nil_r.
  rewrite (firstn_all2 (n := Z.to_nat (lo + zlen a))) by (rewrite L2; lia).
  rewrite skipn_app, L2. rewrite (skipn_all2 (n := (Z.to_nat (lo + zlen a) + length b)%nat)) by (rewrite L2; lia).
  cbn [app]. unfold x. rewrite skipn_skipn. rewrite <- !app_assoc. rewrite app_length. do 5 f_equal. unfold zlen, bytes in *. lia.
Qed.

(** An over-long service number (22 to 42 bytes) is written into the charge number: on the wire
    the packet is the one of a submit with the number cut and its tail as charge number. *)
Definition spill (s : ssubmit) : ssubmit :=
  SSubmit (ss_h s) (firstn 21 (ss_SPNumber s)) (skipn 21 (ss_SPNumber s)) (ss_UserCount s) (ss_UserNumber s) (ss_CorpId s)
    (ss_ServiceType s) (ss_FeeType s) (ss_FeeValue s) (ss_GivenValue s) (ss_AgentFlag s) (ss_Morelate s) (ss_Priority s)
    (ss_ExpireTime s) (ss_ScheduleTime s) (ss_ReportFlag s) (ss_TpPid s) (ss_TpUdhi s) (ss_Coding s) (ss_MessageType s)
    (ss_MessageLength s) (ss_Content s) (ss_Reserve s).
Lemma spill_encode s : 62 <= sh_len (ss_h s) -> ss_ChargeNumber s = [] -> 21 <= zlen (ss_SPNumber s) <= 42 ->
  SSubmit_Encode s = SSubmit_Encode (spill s).
Proof.
  intros Hl Hch Hsp. unfold SSubmit_Encode, spill.
  cbn [ss_h ss_SPNumber ss_ChargeNumber ss_UserCount ss_UserNumber ss_CorpId ss_ServiceType ss_FeeType ss_FeeValue
       ss_GivenValue ss_AgentFlag ss_Morelate ss_Priority ss_ExpireTime ss_ScheduleTime ss_ReportFlag ss_TpPid ss_TpUdhi
       ss_Coding ss_MessageType ss_MessageLength ss_Content ss_Reserve].
  rewrite shead_Encode_ok by lia. cbn [bind]. set (f := render _ ++ _).
  assert (Lf : 62 <= zlen f).
  { unfold f. rewrite zlen_app, zlen_head20, zlen_repeat. lia. }
  clearbody f. rewrite Hch. set (rest := fun f1 => f2 <- set_at f1 62 _ ;; _).
  change (fun f0 => f1 <- copy_open f0 41 [] ;; rest f1) with (fun f0 => f1 <- copy_open f0 41 [] ;; rest f1).
  assert (L1 : zlen (firstn 21 (ss_SPNumber s)) = 21) by (unfold zlen, bytes in *; rewrite firstn_length; lia).
  assert (L2 : zlen (skipn 21 (ss_SPNumber s)) = zlen (ss_SPNumber s) - 21) by (unfold zlen, bytes in *; rewrite skipn_length; lia).
  rewrite <- (firstn_skipn 21 (ss_SPNumber s)) at 1. rewrite copy_open_app by lia. rewrite L1.
  rewrite (copy_open_ok f 20 (firstn 21 _)) by lia. cbn [bind].
  set (f1 := firstn _ f ++ _). 
  assert (Lf1 : zlen f1 = zlen f).
  { unfold f1. rewrite !zlen_app. unfold zlen, bytes in *. rewrite firstn_length, skipn_length. lia. }
  clearbody f1. change (20 + 21) with 41. rewrite (copy_open_ok f1 41) by lia. cbn [bind].
  set (f2 := firstn _ f1 ++ _).
  assert (Lf2 : zlen f2 = zlen f1).
  { unfold f2. rewrite !zlen_app. unfold zlen, bytes in *. rewrite firstn_length, !skipn_length in *. lia. }
  rewrite copy_open_nil by lia. reflexivity.
Qed.

(** Universal refutation of C41 for SGIP: whenever the service number of a submit without
    charge number (the builder never sets one) is 22 to 42 bytes long, the receiver gets a charge
    number made of its tail. *)
Theorem C41_refuted : forall s, ssubmit_wf s -> ss_ChargeNumber s = [] -> ~ In 0 (ss_SPNumber s) ->
  22 <= zlen (ss_SPNumber s) <= 42 -> ssubmit_fits (spill s) -> ss_Reserve s = [] ->
  ss_UserCount s = zlen (ss_UserNumber s) -> ss_MessageLength s = zlen (ss_Content s) -> plain (ss_Content s) ->
  exists d, through (SSubmit_Encode s) SSubmit_Decode = Ok (sh_len (ss_h s), 3, d) /\
    ss_ChargeNumber d = skipn 21 (ss_SPNumber s) /\ ss_ChargeNumber d <> ss_ChargeNumber s.
Proof.
  intros s Hw Hch Hn0 Hsp Hf Hr Hn Hm Hp. exists (spill s).
  assert (62 <= sh_len (ss_h s)) by (destruct Hw as (_ & _ & -> & _); unfold zlen; lia).
  rewrite (spill_encode s) by (auto; lia).
  rewrite (C39_round_trip_partial (spill s)) by auto.
  split; [reflexivity|]. cbn [spill ss_ChargeNumber]. split; [reflexivity|]. rewrite Hch.
  intros E. apply (f_equal (@length Z)) in E. rewrite skipn_length in E. cbn in E. unfold zlen, bytes in *. lia.
Qed.

(** ** Concrete cases *)
Definition sg_ac : authconf := ac_demo.
Definition sg_q (i : Z) : seq3 := (3037196688, 1116000000, 31 * (i + 1)).
Example C38_case : bind_verdict (AuthConf [115] [51;48] [51;48] [112;119] 18 1 [49] [50] 0 0 0 [] [] [] [] [] 0 0 0 0) 1 (sg_q 0)
    (Some (AuthConf [115] [51;48] [51;48] [112;119] 18 1 [49] [50] 0 0 0 [] [] [] [] [] 0 0 0 0)) = Ok 0
  /\ bind_verdict (AuthConf [115] [51;48] [51;49] [112;119] 18 1 [49] [50] 0 0 0 [] [] [] [] [] 0 0 0 0) 1 (sg_q 0)
    (Some (AuthConf [115] [51;48] [51;49] [112;119] 18 1 [49] [50] 0 0 0 [] [] [] [] [] 0 0 0 0)) = Ok 1
  /\ (f <- Bind_Encode (NewBind sg_ac 1 (sg_q 0)) ;; Ok (zlen f, firstn 8 f)) = Ok (61, [0;0;0;61;0;0;0;1])
  /\ srsp_Encode (SRsp (SHead 29 2147483651 (1, 2, 3)) 33) =
     Ok ([0;0;0;29;128;0;0;3;0;0;0;1;0;0;0;2;0;0;0;3;33;0;0;0;0;0;0;0;0]).
Proof. vm_compute. auto. Qed.
Definition sg_demo (sub content : bytes) (phones : list bytes) : res ssubmit :=
  msgs <- sgip_NewSubmit sg_ac phones content [OSpSubNo sub; ONeedReport 1] [49;48] 7 sg_q ;; at_ msgs 0.
Example C39_case : (s <- sg_demo [56] [72;105] [[56;54;49]; [56;54;50]] ;;
   '(l, cmd, d) <- through (SSubmit_Encode s) SSubmit_Decode ;;
   Ok (l, cmd, ss_UserNumber d, ss_Content d, ss_ReportFlag d, ss_ExpireTime d))
  = Ok (187, 3, [[56;54;49]; [56;54;50]], [72;105], 1, [49;48])
  /\ (s <- sg_demo [56] [] [[56;54;49]; [56;54;50]] ;; through (SSubmit_Encode s) SSubmit_Decode) = Panic
  /\ (s <- sg_demo [56] (repeat 65 200) [[56;54;49]] ;; '(l, _, d) <- through (SSubmit_Encode s) SSubmit_Decode ;;
      Ok (l, zlen (ss_Content s), firstn 3 (ss_Content d))) = Ok (324, 160, [228;133;129]).
Proof. vm_compute. auto. Qed.
Example C40_case :
  through (SReport_Encode (sgip_NewReport [56;54] [1;2;3] 2 5 (sg_q 0))) SReport_Decode =
    Ok (64, 4, SReport (SHead 64 5 (sg_q 0)) [1;2;3] 0 [56;54] 2 5 [])
  /\ through (SDeliver_Encode (NewDeliver sg_ac [56;54] [228;189;160;229;165;189] [57] (sg_q 1))) SDeliver_Decode =
    Ok (81, 4, NewDeliver sg_ac [56;54] [228;189;160;229;165;189] [57] (sg_q 1)).
Proof. vm_compute. auto. Qed.
Example C41_case : (s <- sg_demo (repeat 56 20) [72;105] [[56;54;49]] ;;
   '(_, _, d) <- through (SSubmit_Encode s) SSubmit_Decode ;; Ok (zlen (ss_SPNumber s), ss_ChargeNumber s, ss_ChargeNumber d))
  = Ok (zlen (ac_SmsDisplayNo sg_ac) + 20, [], skipn 21 (ac_SmsDisplayNo sg_ac ++ repeat 56 20)).
Proof. vm_compute. reflexivity. Qed.
Print Assumptions C38_bind.
Print Assumptions C38_bind_response.
Print Assumptions C38_responses.
Print Assumptions C38_unbind.
Print Assumptions C38_accept_partial.
Print Assumptions C38_refuted.
Print Assumptions C39_layout.
Print Assumptions C39_round_trip_partial.
Print Assumptions C39_part_partial.
Print Assumptions C39_refuted.
Print Assumptions C39_built.
Print Assumptions C40_deliver.
Print Assumptions C40_deliver_built.
Print Assumptions C40_report_partial.
Print Assumptions C40_refuted.
Print Assumptions C41_refuted.
