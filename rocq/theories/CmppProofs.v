(** * CmppProofs: encoders produce the field tables, decoders read them back. *)
From Verif Require Import Base UtilsModel UtilsProofs OptionsModel SpecWire WireProofs CmppModel SpecCmpp.

Lemma head_Encode_ok h : 12 <= h_len h ->
  head_Encode h = Ok (render (head (h_len h) (h_cmd h) (h_seq h)) ++ repeat 0 (Z.to_nat (h_len h) - 12)).
Proof.
  intros H. unfold head_Encode, head_len. replace (h_len h <? 12) with false by lia.
  change (zeros (h_len h)) with ([] ++ zeros (h_len h)). unfold zeros.
  do 2 wstep. wstep. unfold render, head. cbn [map concat render1].
  wtail (Z.to_nat (h_len h) - 12)%nat. reflexivity.
Qed.

Lemma is_v3_iff v : 0 <= v < 256 -> is_v3 v = true <-> v3 v.
Proof.
  intros H. unfold is_v3, major_match, v3.
  assert (forallb (fun v => Bool.eqb (Z.land 48 240 =? Z.land v 240) (Z.shiftr v 4 mod 16 =? 3))
    (map Z.of_nat (seq 0 256)) = true) as F by (vm_compute; reflexivity).
  rewrite forallb_forall in F. specialize (F v).
  rewrite eqb_true_iff in F. rewrite F; [apply Z.eqb_eq|].
  apply in_map_iff. exists (Z.to_nat v). split; [lia|]. apply in_seq. lia.
Qed.

(** ** Connect *)
Definition connect_wf (c : connect) : Prop :=
  h_len (cn_h c) = 39 /\ h_cmd (cn_h c) = 1 /\ 0 <= h_seq (cn_h c) < 2 ^ 32 /\ zlen (cn_auth c) = 16 /\
  is_byte (cn_version c) /\ 0 <= cn_timestamp c < 2 ^ 32.

Lemma Connect_Encode_ok c : connect_wf c -> Connect_Encode c = Ok (render (connect_layout c)).
Proof.
  intros (Hl & Hc & Hs & Ha & Hv & Ht). unfold Connect_Encode. rewrite head_Encode_ok by lia. cbn [bind].
  unfold head_len. rewrite Hl, Hc. cbn [Z.ltb Z.compare Pos.compare Pos.compare_cont].
  rewrite zlen_app, zlen_render, zlen_repeat. cbn [widths head width Z.of_nat].
  change (_ && _) with true. cbn iota.
  unfold connect_layout. rewrite render_app. set (hd := render (head 39 1 (h_seq (cn_h c)))).
  assert (Hh : zlen hd = 12) by (unfold hd; rewrite zlen_render; reflexivity).
  wstep. wstep. wstep. wstep.
  wtail 0%nat. unfold render. cbn [map concat render1]. rewrite (fit_exact 16) by (unfold zlen in Ha; lia).
  rewrite be1 by auto. wnorm. reflexivity.
Qed.

Ltac ropen Hb :=
  let body := fresh "body" in
  match goal with |- context [render ?l] =>
    set (body := render l) in *; assert (Hb : body = [] ++ render l) by reflexivity;
    clearbody body; unfold render in Hb; cbn [map concat render1] in Hb end.

Lemma Connect_Decode_ok c seq : connect_wf c -> fits 6 (cn_sourceAddr c) -> 
  Connect_Decode seq (render (skipn 3 (connect_layout c))) =
  Ok (Connect (CHead 39 1 seq) (cn_sourceAddr c) (cn_auth c) (cn_version c) (cn_timestamp c) []).
Proof.
  intros (Hl & Hc & Hs & Ha & Hv & Ht) Hf. unfold connect_layout. cbn [head app skipn].
  unfold Connect_Decode. set (body := render _). assert (Hb : body = [] ++ body) by reflexivity.
  unfold body at 2 in Hb. unfold render in Hb. cbn [map concat render1] in Hb. clearbody body.
  rstep Hb. rstep Hb. rstep Hb. rstep Hb. rewrite TrimStr_fits by auto. reflexivity.
Qed.

(** ** ConnectResp *)
Definition connect_resp_wf (r : connect_resp) : Prop :=
  h_len (cr_h r) = (if is_v3 (cr_version r) then 33 else 30) /\ h_cmd (cr_h r) = 2147483649 /\
  0 <= h_seq (cr_h r) < 2 ^ 32 /\ is_byte (cr_status r) /\ zlen (cr_auth r) = 16 /\ is_byte (cr_version r).

Lemma ConnectResp_Encode_ok r : connect_resp_wf r ->
  ConnectResp_Encode r = Ok (render (connect_resp_layout (is_v3 (cr_version r)) r)).
Proof.
  intros (Hl & Hc & Hs & Hst & Ha & Hv). unfold ConnectResp_Encode.
  rewrite head_Encode_ok by (destruct (is_v3 _); lia). cbn [bind]. unfold head_len.
  replace (h_len (cr_h r) <? 12) with false by (destruct (is_v3 _); lia).
  rewrite zlen_app, zlen_render, zlen_repeat. cbn [widths head width].
  replace (_ =? _) with true by (destruct (is_v3 _); lia).
  rewrite Hc. unfold connect_resp_layout. rewrite render_app.
  destruct (is_v3 (cr_version r)) eqn:E; rewrite Hl.
  all: match goal with |- context [render (head ?a ?b ?c)] => set (hd := render (head a b c));
      assert (Hh : zlen hd = 12) by (unfold hd; rewrite zlen_render; reflexivity) end.
  - wstep. wstep. wstep. wtail 0%nat. unfold render. cbn [map concat render1].
    rewrite (fit_exact 16) by (unfold zlen in Ha; lia). rewrite (be1 (cr_version r)) by auto. wnorm. reflexivity.
  - wstep. wstep. wstep. wtail 0%nat. unfold render. cbn [map concat render1].
    rewrite (fit_exact 16) by (unfold zlen in Ha; lia). rewrite !be1 by auto. wnorm.
    rewrite u8_small by auto. reflexivity.
Qed.

Lemma ConnectResp_Decode_ok r seq : connect_resp_wf r ->
  ConnectResp_Decode (cr_version r) seq (render (skipn 3 (connect_resp_layout (is_v3 (cr_version r)) r))) =
  Ok (ConnectResp (CHead (h_len (cr_h r)) (h_cmd (cr_h r)) seq) (cr_status r) (cr_auth r) (cr_version r)).
Proof.
  intros (Hl & Hc & Hs & Hst & Ha & Hv). unfold connect_resp_layout. cbn [head app skipn].
  unfold ConnectResp_Decode. rewrite Hl, Hc. unfold is_byte in Hst.
  destruct (is_v3 (cr_version r)) eqn:E.
  - ropen Hb. replace (be 4 (cr_status r)) with ([0;0;0] ++ be 1 (cr_status r)) in Hb.
    2:{ rewrite be1 by (unfold is_byte; lia). cbn. repeat f_equal; lia. }
    rewrite <- (app_assoc [0;0;0]) in Hb. rewrite app_assoc in Hb.
    rstep Hb. rstep Hb. rstep Hb. reflexivity.
  - ropen Hb. rstep Hb. rstep Hb. rstep Hb. reflexivity.
Qed.

(** ** Submit *)
Definition submit_base (three : bool) : Z := if three then 163 else 138.
(** Go's field types, the announced length, and the destination count. *)
Definition submit_wf (s : submit) : Prop :=
  h_cmd (sb_h s) = 4 /\ 0 <= h_seq (sb_h s) < 2 ^ 32 /\
  h_len (sb_h s) = submit_base (is_v3 (sb_version s)) + zlen (sb_termIds s) + zlen (sb_msgContent s) /\
  is_byte (sb_pkTotal s) /\ is_byte (sb_pkNumber s) /\ is_byte (sb_registeredDel s) /\ is_byte (sb_msgLevel s) /\
  is_byte (sb_feeUsertype s) /\ is_byte (sb_feeTerminalType s) /\ is_byte (sb_tpPid s) /\ is_byte (sb_tpUdhi s) /\
  is_byte (sb_msgFmt s) /\ is_byte (sb_destUsrTl s) /\ is_byte (sb_destTerminalType s) /\ is_byte (sb_msgLength s) /\
  is_byte (sb_version s).

Lemma Submit_Encode_ok s : submit_wf s ->
  Submit_Encode s = Ok (render (head (h_len (sb_h s)) 4 (h_seq (sb_h s)) ++ submit_body (is_v3 (sb_version s)) s)).
Proof.
  intros (Hc & Hs & Hl & H1 & H2 & H3 & H4 & H5 & H6 & H7 & H8 & H9 & H10 & H11 & H12 & H13).
  unfold Submit_Encode. rewrite head_Encode_ok by (rewrite Hl; unfold submit_base, zlen; destruct (is_v3 _); lia).
  cbn [bind]. rewrite Hc, render_app. rewrite Hl.
  match goal with |- context [render (head ?a ?b ?c)] => set (hd := render (head a b c));
      assert (Hh : zlen hd = 12) by (unfold hd; rewrite zlen_render; reflexivity) end.
  clearbody hd. clear Hc Hs Hl.
  rewrite (fit_zero_gap hd _ 8) by (unfold submit_base, zlen; destruct (is_v3 _); lia).
  unfold submit_base, submit_body.
  remember (sb_termIds s) as ti eqn:Eti. remember (sb_msgContent s) as mc eqn:Emc.
  assert (Hti := zlen_nonneg ti). assert (Hmc := zlen_nonneg mc). clear Eti Emc.
  assert (Lti : Z.of_nat (length ti) = zlen ti) by reflexivity.
  assert (Lmc : Z.of_nat (length mc) = zlen mc) by reflexivity.
  destruct (is_v3 (sb_version s)).
  - do 23 wstep.
    wtail 0%nat. unfold render. cbn [map concat render1 app]. rewrite !be1 by auto. wnorm. reflexivity.
  - do 20 wstep.
    wtail 8%nat. unfold render. cbn [map concat render1 app]. rewrite !be8_0, !be1 by auto. wnorm. reflexivity.
Qed.

