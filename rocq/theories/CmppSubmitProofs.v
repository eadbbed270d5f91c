(** * CmppSubmitProofs: reading CMPP submits and deliveries back. *)
From Verif Require Import Base UtilsModel UtilsProofs OptionsModel SpecWire WireProofs CmppModel SpecCmpp CmppProofs.

(** What Decode makes of the content bytes: see strip_udh. *)
Lemma Submit_Decode_ok s seq : submit_wf s ->
  fits 10 (sb_serviceId s) -> fits (if is_v3 (sb_version s) then 32 else 21) (sb_feeTerminalId s) ->
  fits 6 (sb_msgSrc s) -> fits 2 (sb_feeType s) -> fits 6 (sb_feeCode s) -> fits 17 (sb_validTime s) ->
  fits 17 (sb_atTime s) -> fits 21 (sb_srcId s) -> fits 20 (sb_linkID s) ->
  zlen (sb_termIds s) = (if is_v3 (sb_version s) then sb_destUsrTl s * 32 else u8 (sb_destUsrTl s * 21)) ->
  zlen (sb_msgContent s) = sb_msgLength s ->
  Submit_Decode (sb_version s) seq (render (submit_body (is_v3 (sb_version s)) s)) =
  (content <- strip_udh (sb_msgContent s) ;;
   Ok (Submit (CHead (h_len (sb_h s)) 4 seq) 0 (sb_pkTotal s) (sb_pkNumber s) (sb_registeredDel s) (sb_msgLevel s)
        (sb_serviceId s) (sb_feeUsertype s) (sb_feeTerminalId s)
        (if is_v3 (sb_version s) then sb_feeTerminalType s else 0) (sb_tpPid s) (sb_tpUdhi s) (sb_msgFmt s)
        (sb_msgSrc s) (sb_feeType s) (sb_feeCode s) (sb_validTime s) (sb_atTime s) (sb_srcId s) (sb_destUsrTl s)
        (TrimStr (sb_termIds s)) (sb_termIds s) (if is_v3 (sb_version s) then sb_destTerminalType s else 0)
        (sb_msgLength s) content (if is_v3 (sb_version s) then sb_linkID s else []) (sb_version s))).
Proof.
  intros (Hc & Hs & Hl & H1 & H2 & H3 & H4 & H5 & H6 & H7 & H8 & H9 & H10 & H11 & H12 & H13)
    F1 F2 F3 F4 F5 F6 F7 F8 F9 L1 L2.
  assert (Hlen : 12 + zlen (render (submit_body (is_v3 (sb_version s)) s)) = h_len (sb_h s)).
  { rewrite zlen_render, Hl. unfold submit_body, submit_base.
    destruct (is_v3 (sb_version s)); cbn [app widths width]; lia. }
  unfold Submit_Decode. rewrite Hlen. clear Hlen Hl Hc Hs. unfold submit_body.
  destruct (is_v3 (sb_version s)) eqn:E; cbn [app]; ropen Hb;
    rewrite app_assoc in Hb; do 18 rstep Hb.
  - do 4 rstep Hb. destruct (strip_udh _) as [content| |]; cbn [bind]; auto. rstep Hb. rewrite !TrimStr_fits by auto. reflexivity.
  - do 2 rstep Hb. destruct (strip_udh _) as [content| |]; cbn [bind]; auto. rewrite !TrimStr_fits by auto. reflexivity.
Qed.

(** ** Responses *)
Definition cresp_wf (cmd : Z) (r : cresp) : Prop :=
  h_len (rs_h r) = (if is_v3 (rs_version r) then 24 else 21) /\ h_cmd (rs_h r) = cmd /\
  0 <= rs_msgId r < 2 ^ 64 /\ 0 <= rs_result r < (if is_v3 (rs_version r) then 2 ^ 32 else 256).

Lemma cresp_Encode_ok cmd r : cresp_wf cmd r ->
  cresp_Encode r = Ok (render (head (h_len (rs_h r)) cmd (h_seq (rs_h r)) ++ resp_body (is_v3 (rs_version r)) r)).
Proof.
  intros (Hl & Hc & Hm & Hr). unfold cresp_Encode.
  rewrite head_Encode_ok by (rewrite Hl; destruct (is_v3 _); lia).
  cbn [bind]. rewrite Hc, Hl, render_app.
  match goal with |- context [render (head ?a ?b ?c)] => set (hd := render (head a b c));
      assert (Hh : zlen hd = 12) by (unfold hd; rewrite zlen_render; reflexivity) end.
  unfold resp_body, render. destruct (is_v3 (rs_version r)); cbn [map concat render1].
  - do 2 wstep. wtail 0%nat. reflexivity.
  - do 2 wstep. wtail 0%nat. rewrite be1, u8_small by (unfold is_byte; lia). reflexivity.
Qed.

Lemma cresp_Decode_ok cmd r seq : cresp_wf cmd r ->
  cresp_Decode cmd (rs_version r) seq (render (resp_body (is_v3 (rs_version r)) r)) =
  Ok (CResp (CHead (h_len (rs_h r)) cmd seq) (rs_msgId r) (rs_result r) (rs_version r)).
Proof.
  intros (Hl & Hc & Hm & Hr).
  assert (Hlen : 12 + zlen (render (resp_body (is_v3 (rs_version r)) r)) = h_len (rs_h r)).
  { rewrite zlen_render, Hl. unfold resp_body. destruct (is_v3 _); reflexivity. }
  unfold cresp_Decode. rewrite Hlen. unfold resp_body.
  assert (Hb1 : is_v3 (rs_version r) = false -> is_byte (rs_result r)) by (intros E; rewrite E in Hr; exact Hr).
  destruct (is_v3 (rs_version r)).
  - ropen Hb. rstep Hb. rstep Hb. reflexivity.
  - specialize (Hb1 eq_refl). ropen Hb. rstep Hb. rstep Hb. reflexivity.
Qed.

(** ** Report *)
Definition report_wf (r : creport) : Prop :=
  0 <= rp_msgId r < 2 ^ 64 /\ 0 <= rp_smscSequence r < 2 ^ 32.

Lemma Report_Encode_ok r : Report_Encode r = Ok (render (report_body r)).
Proof.
  unfold Report_Encode. change (zeros 60) with ([] ++ repeat 0 60).
  do 6 wstep. wtail 0%nat. reflexivity.
Qed.
Lemma Report_Decode_ok r rest : report_wf r ->
  fits 7 (rp_stat r) -> fits 10 (rp_submitTime r) -> fits 10 (rp_doneTime r) -> fits 21 (rp_destTerminalId r) ->
  Report_Decode (render (report_body r) ++ rest) = Ok r.
Proof.
  intros [H1 H2] F1 F2 F3 F4. unfold Report_Decode.
  set (body := render (report_body r) ++ rest). assert (Hb : body = [] ++ body) by reflexivity.
  unfold body at 2 in Hb. unfold report_body, render in Hb. cbn [map concat render1] in Hb. clearbody body.
  rewrite <- !app_assoc in Hb.
  do 6 rstep Hb. rewrite !TrimStr_fits by auto. destruct r. reflexivity.
Qed.
Lemma zlen_report r : zlen (render (report_body r)) = 60.
Proof. rewrite zlen_render. reflexivity. Qed.

(** ** Delivery *)
Definition delivery_base (three : bool) : Z := if three then 109 else 85.
Definition delivery_wf (d : delivery) : Prop :=
  h_cmd (dl_h d) = 5 /\ h_len (dl_h d) = delivery_base (is_v3 (dl_version d)) + dl_msgLength d /\
  0 <= dl_msgId d < 2 ^ 64 /\ is_byte (dl_tpPid d) /\ is_byte (dl_tpUdhi d) /\ is_byte (dl_msgFmt d) /\
  is_byte (dl_srcTerminalType d) /\ is_byte (dl_registeredDelivery d) /\ is_byte (dl_msgLength d).

(** The content bytes Encode puts into the frame: the report or the first part, cut or padded
    to the announced length. *)
Definition delivery_content (g : Z) (d : delivery) : res bytes :=
  if dl_registeredDelivery d =? 1
  then match dl_report d with Some r => Ok (render (report_body r)) | None => Panic end
  else parts <- MsgSlices g (dl_msgFmt d) (dl_msgContent d) ;; at_ parts 0.

Lemma Delivery_Encode_ok g d c : delivery_wf d -> delivery_content g d = Ok c ->
  Delivery_Encode g d = Ok (render (head (h_len (dl_h d)) 5 (h_seq (dl_h d)) ++
    delivery_body (is_v3 (dl_version d)) d (fit (Z.to_nat (dl_msgLength d)) c))).
Proof.
  intros (Hc & Hl & H1 & H2 & H3 & H4 & H5 & H6 & H7) Hcont. unfold Delivery_Encode.
  unfold is_byte in H7.
  rewrite head_Encode_ok by (rewrite Hl; unfold delivery_base; destruct (is_v3 _); lia).
  cbn [bind]. rewrite Hc, Hl, render_app.
  match goal with |- context [render (head ?a ?b ?c)] => set (hd := render (head a b c));
      assert (Hh : zlen hd = 12) by (unfold hd; rewrite zlen_render; reflexivity) end.
  clearbody hd. clear Hc Hl. unfold delivery_base, delivery_body.
  assert (Hput : forall f lo hi, (if dl_registeredDelivery d =? 1
        then match dl_report d with
             | Some r => b <- Report_Encode r ;; copy_at f lo hi b
             | None => Panic
             end
        else parts <- MsgSlices g (dl_msgFmt d) (dl_msgContent d) ;;
             b <- at_ parts 0 ;;
             copy_at f lo hi b) = copy_at f lo hi c).
  { intros f lo hi. unfold delivery_content in Hcont. destruct (dl_registeredDelivery d =? 1).
    - destruct (dl_report d); [|discriminate]. rewrite Report_Encode_ok. injection Hcont as <-. reflexivity.
    - destruct (MsgSlices _ _ _); try discriminate. cbn [bind] in *. rewrite Hcont. reflexivity. }
  clear Hcont.
  assert (Hk : Z.of_nat (Z.to_nat (dl_msgLength d)) = dl_msgLength d) by lia.
  destruct (is_v3 (dl_version d)).
  - do 10 wstep. rewrite Hput. 
    match goal with |- context [copy_at (?w ++ repeat 0 ?n) ?lo ?hi ?src] =>
      rewrite (wr_copy (Z.to_nat (dl_msgLength d)) w n lo hi src) by wlen end. cbn [bind].
    wstep. wtail 0%nat. unfold render. cbn [map concat render1 app]. rewrite !be1 by (auto; unfold is_byte; lia). wnorm. reflexivity.
  - do 9 wstep. rewrite Hput.
    match goal with |- context [copy_at (?w ++ repeat 0 ?n) ?lo ?hi ?src] =>
      rewrite (wr_copy (Z.to_nat (dl_msgLength d)) w n lo hi src) by wlen end. cbn [bind].
    wtail 8%nat. unfold render. cbn [map concat render1 app]. rewrite !be8_0, !be1 by (auto; unfold is_byte; lia). wnorm. reflexivity.
Qed.

(** Reading a delivery with content bytes [c]: note the destination comes out as the service
    id and the service id is empty. *)
Lemma Delivery_Decode_ok d seq c : delivery_wf d -> zlen c = dl_msgLength d ->
  fits 10 (dl_serviceId d) -> fits (if is_v3 (dl_version d) then 32 else 21) (dl_srcTerminalId d) ->
  fits 20 (dl_linkID d) ->
  (dl_registeredDelivery d = 1 -> exists r, c = render (report_body r) /\ report_wf r /\ fits 7 (rp_stat r) /\
     fits 10 (rp_submitTime r) /\ fits 10 (rp_doneTime r) /\ fits 21 (rp_destTerminalId r) /\ dl_report d = Some r) ->
  Delivery_Decode (dl_version d) seq (render (delivery_body (is_v3 (dl_version d)) d c)) =
  Ok (Delivery (CHead (h_len (dl_h d)) 5 seq) (dl_msgId d) (dl_serviceId d) [] (dl_tpPid d) (dl_tpUdhi d)
        (dl_msgFmt d) (dl_srcTerminalId d) (if is_v3 (dl_version d) then dl_srcTerminalType d else 0)
        (dl_registeredDelivery d) (dl_msgLength d)
        (if dl_registeredDelivery d =? 1 then [] else TrimStr c)
        (if dl_registeredDelivery d =? 1 then dl_report d else None)
        (if is_v3 (dl_version d) then dl_linkID d else []) (dl_version d)).
Proof.
  intros (Hc & Hl & H1 & H2 & H3 & H4 & H5 & H6 & H7) Hcl F1 F2 F3 Hrep.
  assert (Hlen : 12 + zlen (render (delivery_body (is_v3 (dl_version d)) d c)) = h_len (dl_h d)).
  { rewrite zlen_render, Hl. unfold delivery_body, delivery_base.
    destruct (is_v3 (dl_version d)); cbn [app widths width]; lia. }
  unfold Delivery_Decode. unfold delivery_body in *.
  assert (Hrd : forall f pre rest lo, f = pre ++ c ++ rest -> lo = zlen pre ->
    (if dl_registeredDelivery d =? 1
     then ext <- slice f lo (zlen f) ;; r <- Report_Decode ext ;; Ok ([], Some r)
     else Ok (TrimStr c, None)) =
    Ok (if dl_registeredDelivery d =? 1 then [] else TrimStr c, if dl_registeredDelivery d =? 1 then dl_report d else None)).
  { intros f pre rest lo Hf Hlo. destruct (dl_registeredDelivery d =? 1) eqn:E1; [|reflexivity].
    destruct Hrep as (r & -> & Hw & G1 & G2 & G3 & G4 & ->); [lia|].
    rewrite (slice_at f pre (render (report_body r) ++ rest) []); cbn [bind].
    - rewrite Report_Decode_ok by auto. reflexivity.
    - rewrite app_nil_r. auto.
    - auto.
    - rewrite Hf, Hlo. autorewrite with zlen. lia. }
  destruct (is_v3 (dl_version d)) eqn:E; cbn [app] in *; rewrite Hlen; ropen Hb.
  - do 11 rstep Hb. rewrite <- app_assoc in Hb. erewrite Hrd by (first [exact Hb | wlen]). rewrite app_assoc in Hb.
    cbn [bind]. rstep Hb. rewrite !TrimStr_fits by auto. reflexivity.
  - do 10 rstep Hb. rewrite <- app_assoc in Hb. erewrite Hrd by (first [exact Hb | wlen]).
    cbn [bind]. rewrite !TrimStr_fits by auto. reflexivity.
Qed.
