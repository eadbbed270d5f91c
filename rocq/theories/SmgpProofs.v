(** * SmgpProofs: SMGP encoders produce the field tables, decoders read them back. *)
From Verif Require Import Base UtilsModel UtilsProofs OptionsModel TlvModel TlvProofs PropTlv SpecWire WireProofs CmppModel
  CmppProofs SmgpModel SpecSmgp.

Ltac hset hdr Hh := match goal with |- context [render (head ?a ?b ?c)] => set (hdr := render (head a b c));
      assert (Hh : zlen hdr = 12) by (unfold hdr; rewrite zlen_render; reflexivity); clearbody hdr end.

Lemma smhead_Encode_ok h : 12 <= h_len h ->
  smhead_Encode h = Ok (render (head (h_len h) (h_cmd h) (h_seq h)) ++ repeat 0 (Z.to_nat (h_len h) - 12)).
Proof. exact (head_Encode_ok h). Qed.

(** ** Login *)
Definition login_wf (l : login) : Prop :=
  h_len (lg_h l) = 42 /\ h_cmd (lg_h l) = 1 /\ 0 <= h_seq (lg_h l) < 2 ^ 32 /\ zlen (lg_auth l) = 16 /\
  is_byte (lg_mode l) /\ 0 <= lg_timestamp l < 2 ^ 32 /\ is_byte (lg_version l).
Lemma Login_Encode_ok l : login_wf l ->
  Login_Encode l = Ok (render (head 42 1 (h_seq (lg_h l)) ++ login_body l)).
Proof.
  intros (Hl & Hc & Hs & Ha & Hm & Ht & Hv). unfold Login_Encode. rewrite smhead_Encode_ok by lia. cbn [bind].
  unfold smhead_len. rewrite Hl, Hc, render_app. hset hdr Hh. rewrite zlen_app, Hh, zlen_repeat.
  change (_ && _) with true. cbn iota.
  do 5 wstep. wtail 0%nat. unfold login_body, render. cbn [map concat render1].
  rewrite (fit_exact 16) by (unfold zlen in Ha; lia). rewrite !be1 by auto. wnorm. reflexivity.
Qed.
Lemma Login_Decode_ok l seq : login_wf l ->
  Login_Decode seq (render (login_body l)) =
  Ok (Login (CHead 42 1 seq) (fit 8 (lg_clientID l)) (lg_auth l) (lg_mode l) (lg_timestamp l) (lg_version l) []).
Proof.
  intros (Hl & Hc & Hs & Ha & Hm & Ht & Hv). unfold Login_Decode, login_body.
  match goal with |- context [12 + zlen ?b] => replace (12 + zlen b) with 42 by (rewrite zlen_render; cbn [widths width]; lia) end.
  ropen Hb. do 5 rstep Hb. reflexivity.
Qed.
Definition login_rsp_wf (r : login_rsp) : Prop :=
  h_len (lr_h r) = 33 /\ h_cmd (lr_h r) = 2147483649 /\ 0 <= h_seq (lr_h r) < 2 ^ 32 /\ 0 <= lr_status r < 2 ^ 32 /\
  zlen (lr_auth r) = 16 /\ is_byte (lr_version r).
Lemma LoginRsp_Encode_ok r : login_rsp_wf r ->
  LoginRsp_Encode r = Ok (render (head 33 2147483649 (h_seq (lr_h r)) ++ login_rsp_body r)).
Proof.
  intros (Hl & Hc & Hs & Hst & Ha & Hv). unfold LoginRsp_Encode. rewrite smhead_Encode_ok by lia. cbn [bind].
  unfold smhead_len. rewrite Hl, Hc, render_app. hset hdr Hh. rewrite zlen_app, Hh, zlen_repeat.
  change (_ =? _) with true. cbn iota.
  do 3 wstep. wtail 0%nat. unfold login_rsp_body, render. cbn [map concat render1].
  rewrite (fit_exact 16) by (unfold zlen in Ha; lia). rewrite (be1 (lr_version r)) by auto. wnorm. reflexivity.
Qed.
Lemma LoginRsp_Decode_ok r seq : login_rsp_wf r ->
  LoginRsp_Decode seq (render (login_rsp_body r)) =
  Ok (LoginRsp (CHead 33 2147483649 seq) (lr_status r) (lr_auth r) (lr_version r)).
Proof.
  intros (Hl & Hc & Hs & Hst & Ha & Hv). unfold LoginRsp_Decode, login_rsp_body.
  match goal with |- context [12 + zlen ?b] => replace (12 + zlen b) with 33 by (rewrite zlen_render; cbn [widths width]; lia) end.
  ropen Hb. do 3 rstep Hb. reflexivity.
Qed.

(** ** Responses *)
Definition mresp_wf (r : mresp) : Prop :=
  h_len (mr_h r) = 26 /\ zlen (mr_msgId r) = 10 /\ 0 <= mr_status r < 2 ^ 32.
Lemma mresp_Encode_ok r : mresp_wf r ->
  mresp_Encode r = Ok (render (head 26 (h_cmd (mr_h r)) (h_seq (mr_h r)) ++ mresp_body r)).
Proof.
  intros (Hl & Hi & Hs). unfold mresp_Encode. rewrite smhead_Encode_ok by lia. cbn [bind].
  rewrite Hl, render_app. hset hdr Hh. do 2 wstep. wtail 0%nat. unfold mresp_body, render. cbn [map concat render1].
  rewrite (fit_exact 10) by (unfold zlen in Hi; lia). wnorm. reflexivity.
Qed.
Lemma mresp_Decode_ok cmd ver r seq : mresp_wf r ->
  mresp_Decode cmd ver seq (render (mresp_body r)) = Ok (MResp (CHead 26 cmd seq) (mr_msgId r) (mr_status r) ver).
Proof.
  intros (Hl & Hi & Hs). unfold mresp_Decode, mresp_body.
  match goal with |- context [12 + zlen ?b] => replace (12 + zlen b) with 26 by (rewrite zlen_render; cbn [widths width]; lia) end.
  ropen Hb. do 2 rstep Hb. reflexivity.
Qed.

(** ** Submit *)
Lemma put_terms_ok l : forall w n index, index = zlen w -> (21 * length l <= n)%nat ->
  put_terms (w ++ repeat 0 n) index l =
  Ok ((w ++ render (map (T 21) l)) ++ repeat 0 (n - 21 * length l), index + 21 * zlen l).
Proof.
  induction l as [|p l IH]; intros w n index Hi Hn.
  - cbn. rewrite app_nil_r, Nat.sub_0_r, Z.add_0_r. reflexivity.
  - cbn [put_terms length] in *. wstep. rewrite IH; [|wlen|lia].
    unfold render. cbn [map concat render1]. rewrite <- !app_assoc. f_equal. f_equal.
    + do 4 f_equal. lia.
    + rewrite zlen_cons. lia.
Qed.
Lemma get_terms_ok l : forall f pre rest index, f = pre ++ render (map (T 21) l) ++ rest -> index = zlen pre ->
  Forall (fits 21) l -> get_terms f index (length l) = Ok (l, index + 21 * zlen l).
Proof.
  induction l as [|p l IH]; intros f pre rest index Hf Hi Hfit.
  - cbn. rewrite Z.add_0_r. reflexivity.
  - destruct (Forall_inv Hfit) as [Hp1 Hp2]. pose proof (Forall_inv_tail Hfit) as Hfit'. cbn [get_terms length].
    unfold render in Hf. cbn [map concat render1] in Hf. rewrite <- app_assoc in Hf.
    rewrite (slice_fit f pre 21 p _ index (index + 21) Hf Hi eq_refl). cbn [bind].
    rewrite app_assoc in Hf. rewrite (IH f (pre ++ fit 21 p) rest (index + 21) Hf); [|wlen|auto].
    cbn [bind]. rewrite TrimStr_fits by (split; auto). rewrite zlen_cons. do 2 f_equal. lia.
Qed.
Lemma zlen_terms (l : list bytes) : zlen (render (map (T 21) l)) = 21 * zlen l.
Proof.
  rewrite zlen_render. induction l as [|u us IH]; cbn [map widths width]; [reflexivity|]. rewrite IH, zlen_cons. lia.
Qed.

(** The optional parameters as (type, value) pairs. *)
Definition has_opts (s : msubmit) (items : option (list (Z * bytes))) : Prop :=
  match items with
  | None => ms_tlv s = None
  | Some it => ms_tlv s = Some (built it) /\ Forall item_ok it
  end.
Definition opts_wire (items : option (list (Z * bytes))) : bytes :=
  match items with None => [] | Some it => flat_map tlv_wire it end.

(** Go's field types, the announced length, the number of destinations. *)
Definition msubmit_wf (s : msubmit) (opts : bytes) : Prop :=
  h_cmd (ms_h s) = 2 /\ 0 <= h_seq (ms_h s) < 2 ^ 32 /\
  h_len (ms_h s) = 126 + 21 * zlen (ms_destTermID s) + zlen (ms_content s) + zlen opts /\ h_len (ms_h s) < 2 ^ 32 /\
  ms_count s = zlen (ms_destTermID s) /\ ms_msgLength s = zlen (ms_content s) /\
  is_byte (ms_count s) /\ is_byte (ms_msgLength s) /\ is_byte (ms_msgType s) /\ is_byte (ms_needReport s) /\
  is_byte (ms_priority s) /\ is_byte (ms_msgFormat s).
Definition msubmit_fits (s : msubmit) : Prop :=
  fits 10 (ms_serviceID s) /\ fits 2 (ms_feeType s) /\ fits 6 (ms_feeCode s) /\ fits 6 (ms_fixedFee s) /\
  fits 17 (ms_validTime s) /\ fits 17 (ms_atTime s) /\ fits 21 (ms_srcTermID s) /\ fits 21 (ms_chargeTermID s) /\
  Forall (fits 21) (ms_destTermID s) /\ fits 8 (ms_reserve s).

Lemma MSubmit_Encode_ok s items : has_opts s items -> msubmit_wf s (opts_wire items) ->
  MSubmit_Encode s = Ok (render (head (h_len (ms_h s)) 2 (h_seq (ms_h s)) ++ msubmit_body s (opts_wire items))).
Proof.
  intros Ho (Hc & Hs & Hl & _ & Hn & Hm & H1 & H2 & H3 & H4 & H5 & H6). unfold MSubmit_Encode.
  rewrite <- Hn, Z.eqb_refl. cbn [negb].
  rewrite smhead_Encode_ok by (rewrite Hl; unfold zlen; lia). cbn [bind]. rewrite Hc, Hl, render_app.
  hset hdr Hh. clear Hc Hs Hl. unfold msubmit_body. rewrite !render_app, Hm.
  rewrite Hm in H2.
  remember (ms_destTermID s) as us. remember (ms_content s) as mc. remember (opts_wire items) as ow. 
  assert (Lus : Z.of_nat (length us) = zlen us) by reflexivity.
  assert (Lmc : Z.of_nat (length mc) = zlen mc) by reflexivity.
  assert (Low : Z.of_nat (length ow) = zlen ow) by reflexivity.
  remember (render (map (T 21) us)) as ru.
  assert (Lru : zlen ru = 21 * zlen us) by (subst ru; apply zlen_terms).
  assert (Lru' : length ru = (21 * length us)%nat) by (unfold zlen in Lru; lia).
  unfold bytes in *. do 13 wstep. rewrite put_terms_ok by (unfold bytes in *; wlen). cbn [bind].
  match goal with |- context [_ ++ render (map ?f us)] => change (render (map f us)) with (render (map (T 21) us)) end.
  unfold bytes in *. rewrite <- Heqru. clear Hequs Heqmc Heqru.
  wstep. cbv zeta. wstep. wstep.
  assert (Hend : forall w, w ++ repeat 0 (length ow) = w ++ repeat 0 (length ow) ->
    match ms_tlv s with
    | None => Ok (w ++ repeat 0 (length ow))
    | Some tl => match TlvWrite tl with
                 | (b, None) => copy_at (w ++ repeat 0 (length ow)) (zlen w) (zlen (w ++ repeat 0 (length ow))) b
                 | (_, Some _) => Ok []
                 end
    end = Ok (w ++ ow)).
  { intros w _. subst ow. destruct items as [it|]; cbn [has_opts opts_wire] in *.
    - destruct Ho as [-> Hit]. destruct (C18_round_trip it Hit) as (-> & _ & _).
      rewrite (wr_raw w _ (zlen w) _ (flat_map tlv_wire it)); [|auto|rewrite zlen_app, zlen_repeat; unfold zlen; lia|lia].
      rewrite Nat.sub_diag. cbn [repeat]. rewrite app_nil_r. reflexivity.
    - rewrite Ho. reflexivity. }
  match goal with |- context [repeat 0 (?a - ?b)] => replace (a - b)%nat with (length ow) by lia end.
  match goal with |- context [copy_at (?w ++ repeat 0 _) ?lo _ _] => replace lo with (zlen w) by wlen; etransitivity; [exact (Hend w eq_refl)|] end.
  unfold render. cbn [map concat render1 app]. rewrite !be1 by auto. wnorm. reflexivity.
Qed.

Lemma MSubmit_Decode_ok gbd s items ver seq : has_opts s items -> msubmit_wf s (opts_wire items) -> msubmit_fits s ->
  MSubmit_Decode gbd ver seq (render (msubmit_body s (opts_wire items))) =
  (c <- cut_udh (ms_content s) ;;
   Ok (MSubmit (CHead (h_len (ms_h s)) 2 seq) (ms_msgType s) (ms_needReport s) (ms_priority s) (ms_serviceID s)
        (ms_feeType s) (ms_feeCode s) (ms_fixedFee s) (ms_msgFormat s) (ms_validTime s) (ms_atTime s) (ms_srcTermID s)
        (ms_chargeTermID s) (ms_count s) (ms_destTermID s) (ms_msgLength s) (of_opt (gbd c)) (ms_reserve s)
        (Some (built (match items with None => [] | Some it => it end))) ver)).
Proof.
  intros Ho (Hc & Hs & Hl & _ & Hn & Hm & H1 & H2 & H3 & H4 & H5 & H6)
    (F1 & F2 & F3 & F4 & F5 & F6 & F7 & F8 & F9 & F10).
  set (ow := opts_wire items) in *.
  assert (Htl : fst (TlvRead ow) = built (match items with None => [] | Some it => it end)).
  { unfold ow. destruct items as [it|]; cbn [opts_wire has_opts] in *; [|reflexivity].
    destruct Ho as [_ Hit]. destruct (C18_round_trip it Hit) as (_ & -> & _). reflexivity. }
  clearbody ow.
  assert (Hlen : zlen (render (msubmit_body s ow)) = h_len (ms_h s) - 12).
  { unfold msubmit_body. rewrite !render_app, !zlen_app, zlen_terms, !zlen_render, Hl. cbn [widths width]. lia. }
  assert (Hb : exists body, body = render (msubmit_body s ow) /\
      body = [] ++ be 1 (ms_msgType s) ++ be 1 (ms_needReport s) ++ be 1 (ms_priority s) ++ fit 10 (ms_serviceID s) ++
      fit 2 (ms_feeType s) ++ fit 6 (ms_feeCode s) ++ fit 6 (ms_fixedFee s) ++ be 1 (ms_msgFormat s) ++
      fit 17 (ms_validTime s) ++ fit 17 (ms_atTime s) ++ fit 21 (ms_srcTermID s) ++ fit 21 (ms_chargeTermID s) ++
      be 1 (ms_count s) ++ render (map (T 21) (ms_destTermID s)) ++ be 1 (ms_msgLength s) ++ ms_content s ++
      fit 8 (ms_reserve s) ++ ow ++ []).
  { eexists; split; [reflexivity|]. unfold msubmit_body. rewrite !render_app. unfold render at 1 3. cbn [map concat render1].
    wnorm. reflexivity. }
  destruct Hb as (body & Eb & Hb). unfold MSubmit_Decode. rewrite <- Eb in *. rewrite Hlen. clear Eb.
  replace (12 + (h_len (ms_h s) - 12)) with (h_len (ms_h s)) by lia.
  do 13 rstep Hb. rewrite Hn at 1.
  replace (Z.to_nat (zlen (ms_destTermID s))) with (length (ms_destTermID s)) by (unfold zlen; lia).
  match type of Hb with body = ?pre ++ render _ ++ ?rest => 
    rewrite (get_terms_ok (ms_destTermID s) body pre rest 105 Hb) by (first [exact F9 | wlen]) end.
  rewrite app_assoc in Hb. cbn [bind].
  remember (render (map (T 21) (ms_destTermID s))) as ru.
  assert (Lru : zlen ru = 21 * zlen (ms_destTermID s)) by (subst ru; apply zlen_terms). clear Heqru.
  unfold bytes in *. rstep Hb. cbv zeta.
  match type of Hb with ?f = ?pre ++ ?x ++ ?rest =>
    match goal with |- context [slice f ?lo (?lo + ms_msgLength s)] => rewrite (slice_at f pre x rest lo (lo + ms_msgLength s) Hb) by wlen end end.
  rewrite app_assoc in Hb. cbn [bind].
  destruct (cut_udh (ms_content s)) as [content| |]; cbn [bind]; auto.
  rstep Hb. 
  match goal with |- context [?a <? ?b] => replace (a <? b) with true by (pose proof (zlen_nonneg ow); unfold bytes in *; lia) end.
  match type of Hb with ?f = ?pre ++ ?x ++ ?rest =>
    match goal with |- context [slice f ?lo ?hi] => rewrite (slice_at f pre x rest lo hi Hb) by wlen end end.
  cbn [bind]. rewrite Htl. rewrite !TrimStr_fits by auto. reflexivity.
Qed.

(** ** Report *)
Definition mreport_wf (r : mreport) : Prop :=
  zlen (mp_id r) = 10 /\ zlen (mp_sub r) = 3 /\ zlen (mp_dlvrd r) = 3 /\ zlen (mp_submitDate r) = 10 /\
  zlen (mp_doneDate r) = 10 /\ zlen (mp_stat r) = 7 /\ zlen (mp_err r) = 3.
Lemma zlen_hex b : zlen (hex_bytes b) = 2 * zlen b.
Proof. unfold hex_bytes. induction b as [|x b IH]; cbn [flat_map app]; [reflexivity|]. rewrite !zlen_cons, IH. lia. Qed.
Lemma mreport_labels r : mreport_body r =
  [R L_id; R (mp_id r); R L_sub; R (mp_sub r); R L_dlvrd; R (mp_dlvrd r); R L_submit; R (mp_submitDate r);
   R L_done; R (mp_doneDate r); R L_stat; R (mp_stat r); R L_err; R (mp_err r); R L_text; T 20 []].
Proof. reflexivity. Qed.
Lemma zlen_mreport_body r : mreport_wf r -> zlen (render (mreport_body r)) = 122.
Proof.
  intros (H1 & H2 & H3 & H4 & H5 & H6 & H7). rewrite zlen_render, mreport_labels. cbn [widths width].
  change (zlen L_id) with 3. change (zlen L_sub) with 5. change (zlen L_dlvrd) with 7. change (zlen L_submit) with 13.
  change (zlen L_done) with 11. change (zlen L_stat) with 6. change (zlen L_err) with 5. change (zlen L_text) with 6. lia.
Qed.
Lemma mreport_Encode_ok r : mreport_wf r -> mp_txt r = [] -> mreport_Encode r = Ok (render (mreport_body r)).
Proof.
  intros (H1 & H2 & H3 & H4 & H5 & H6 & H7) Ht. unfold mreport_Encode, RptLen.
  change (zeros 122) with ([] ++ repeat 0 122). do 2 wstep. cbv zeta.
  set (tl := L_sub ++ mp_sub r ++ L_dlvrd ++ mp_dlvrd r ++ L_submit ++ mp_submitDate r ++ L_done ++ mp_doneDate r ++
             L_stat ++ mp_stat r ++ L_err ++ mp_err r ++ L_text).
  assert (Hstr : mreport_String r = (L_id ++ hex_bytes (mp_id r)) ++ tl ++ []).
  { unfold mreport_String, tl. rewrite Ht. cbn [hex_bytes flat_map]. wnorm. reflexivity. }
  assert (Htl : zlen tl = 89).
  { unfold tl. rewrite !zlen_app.
    change (zlen L_sub) with 5. change (zlen L_dlvrd) with 7. change (zlen L_submit) with 13.
    change (zlen L_done) with 11. change (zlen L_stat) with 6. change (zlen L_err) with 5. change (zlen L_text) with 6. lia. }
  rewrite (slice_at _ _ tl [] 23 _ Hstr).
  2:{ rewrite zlen_app, zlen_hex. change (zlen L_id) with 3. lia. }
  2:{ rewrite Hstr, !zlen_app, zlen_hex, zlen_nil. change (zlen L_id) with 3. lia. }
  cbn [bind]. change (122 - 20) with (13 + 89). rewrite <- Htl. rewrite (wr_raw _ _ 13 (13 + zlen tl) tl).
  - rewrite mreport_labels. unfold render. cbn [map concat render1].
    rewrite (fit_exact 10) by (unfold zlen in H1; lia). rewrite (fit_exact 3) by reflexivity.
    replace (length tl) with 89%nat by (unfold zlen in Htl; lia). unfold tl. wnorm. reflexivity.
  - wlen.
  - lia.
  - unfold zlen in Htl. lia.
Qed.
Lemma mreport_Decode_ok r : mreport_wf r -> mp_txt r = [] -> mreport_Decode (render (mreport_body r)) = Ok r.
Proof.
  intros (H1 & H2 & H3 & H4 & H5 & H6 & H7) Ht. unfold mreport_Decode.
  assert (L1 : zlen L_id = 3) by reflexivity. assert (L2 : zlen L_sub = 5) by reflexivity.
  assert (L3 : zlen L_dlvrd = 7) by reflexivity. assert (L4 : zlen L_submit = 13) by reflexivity.
  assert (L5 : zlen L_done = 11) by reflexivity. assert (L6 : zlen L_stat = 6) by reflexivity.
  assert (L7 : zlen L_err = 5) by reflexivity. rewrite mreport_labels.
  generalize dependent L_id; intros l1 L1. generalize dependent L_sub; intros l2 L2. generalize dependent L_dlvrd; intros l3 L3.
  generalize dependent L_submit; intros l4 L4. generalize dependent L_done; intros l5 L5. generalize dependent L_stat; intros l6 L6.
  generalize dependent L_err; intros l7 L7.
  ropen Hb. do 7 (rewrite app_assoc in Hb; rstep Hb). destruct r as [r1 r2 r3 r4 r5 r6 r7 r8]; cbn [mp_id mp_sub mp_dlvrd mp_submitDate mp_doneDate mp_stat mp_err mp_txt] in *.
  subst. reflexivity.
Qed.

(** ** Deliver *)
(** The content bytes of a deliver: those of the report, or the encoded text. *)
Definition mdeliver_content (d : mdeliver) : res bytes :=
  if md_isReport d =? 1 then match md_report d with Some r => mreport_Encode r | None => Ok (fit (Z.to_nat (md_msgLength d)) (md_bytes d)) end
  else Ok (fit (Z.to_nat (md_msgLength d)) (md_bytes d)).
Definition mdeliver_wf (d : mdeliver) (c : bytes) : Prop :=
  h_cmd (md_h d) = 3 /\ 0 <= h_seq (md_h d) < 2 ^ 32 /\ h_len (md_h d) = 89 + zlen c /\ h_len (md_h d) < 2 ^ 32 /\
  zlen (md_msgId d) = 10 /\ is_byte (md_isReport d) /\ is_byte (md_msgFormat d) /\ is_byte (md_msgLength d).
Definition mdeliver_fits (d : mdeliver) : Prop :=
  fits 14 (md_recvTime d) /\ fits 21 (md_srcTermID d) /\ fits 21 (md_destTermID d).

Lemma MDeliver_Encode_ok d c : mdeliver_content d = Ok c -> (md_isReport d = 1 -> md_report d <> None -> zlen c = 122) ->
  mdeliver_wf d c ->
  MDeliver_Encode d = Ok (render (head (h_len (md_h d)) 3 (h_seq (md_h d)) ++ mdeliver_body d c)).
Proof.
  intros Hcont Hrep (Hc & Hs & Hl & _ & Hi & H1 & H2 & H3). unfold MDeliver_Encode, RptLen.
  rewrite smhead_Encode_ok by (rewrite Hl; unfold zlen; lia). cbn [bind]. rewrite Hc, Hl, render_app.
  hset hdr Hh. clear Hc Hs Hl. unfold mdeliver_body.
  assert (Lc : Z.of_nat (length c) = zlen c) by reflexivity.
  do 7 wstep.
  match goal with |- context [copy_at (?w ++ repeat 0 ?n) 81 _ _] =>
    assert (Hput : (match (if md_isReport d =? 1 then md_report d else None) with
       | Some r => b <- mreport_Encode r ;; f <- copy_at (w ++ repeat 0 n) 81 (81 + 122) b ;; Ok (f, 81 + 122)
       | None => f <- copy_at (w ++ repeat 0 n) 81 (81 + md_msgLength d) (md_bytes d) ;; Ok (f, 81 + md_msgLength d)
       end) = Ok ((w ++ c) ++ repeat 0 (n - length c), 81 + zlen c)) end.
  { unfold mdeliver_content in Hcont. unfold is_byte in H3.
    destruct (md_isReport d =? 1) eqn:E1; [destruct (md_report d) as [r|] eqn:E2|].
    - rewrite Hcont. cbn [bind]. assert (Z1 : zlen c = 122) by (apply Hrep; [lia|discriminate]). rewrite <- Z1.
      wstep. reflexivity.
    - injection Hcont as <-.
      assert (Z1 : zlen (fit (Z.to_nat (md_msgLength d)) (md_bytes d)) = md_msgLength d) by (rewrite zlen_fit; lia). rewrite Z1.
      match goal with |- context [copy_at (?w ++ repeat 0 ?n) ?lo ?hi ?src] =>
        rewrite (wr_copy (Z.to_nat (md_msgLength d)) w n lo hi src) by wlen end. cbn [bind]. rewrite length_fit. reflexivity.
    - injection Hcont as <-.
      assert (Z1 : zlen (fit (Z.to_nat (md_msgLength d)) (md_bytes d)) = md_msgLength d) by (rewrite zlen_fit; lia). rewrite Z1.
      match goal with |- context [copy_at (?w ++ repeat 0 ?n) ?lo ?hi ?src] =>
        rewrite (wr_copy (Z.to_nat (md_msgLength d)) w n lo hi src) by wlen end. cbn [bind]. rewrite length_fit. reflexivity. }
  rewrite Hput. cbn [bind]. clear Hput Hcont Hrep. wstep. wtail 0%nat. unfold render. cbn [map concat render1 app].
  rewrite (fit_exact 10) by (unfold zlen in Hi; lia). rewrite !be1 by auto. wnorm. reflexivity.
Qed.

Lemma MDeliver_Decode_text gbd ver d seq c : md_isReport d <> 1 -> mdeliver_wf d c -> zlen c = md_msgLength d -> mdeliver_fits d ->
  MDeliver_Decode gbd ver seq (render (mdeliver_body d c)) =
  match gbd c with
  | Some t => Ok (MDeliver (CHead (h_len (md_h d)) 3 seq) (md_msgId d) (md_isReport d) (md_msgFormat d) (md_recvTime d)
                    (md_srcTermID d) (md_destTermID d) (md_msgLength d) t [] None [] ver)
  | None => Err 1
  end.
Proof.
  intros Hr (Hc & Hs & Hl & _ & Hi & H1 & H2 & H3) Hz (F1 & F2 & F3). unfold MDeliver_Decode.
  assert (Hlen : 12 + zlen (render (mdeliver_body d c)) = h_len (md_h d)).
  { rewrite zlen_render, Hl. unfold mdeliver_body. cbn [widths width]. lia. }
  rewrite Hlen. unfold mdeliver_body. ropen Hb. do 7 rstep Hb.
  replace (md_isReport d =? 1) with false by lia. rstep Hb.
  destruct (gbd c); cbn [bind]; [|reflexivity]. rewrite !TrimStr_fits by auto. reflexivity.
Qed.
Lemma MDeliver_Decode_report gbd ver d seq r : md_isReport d = 1 -> mreport_wf r -> mp_txt r = [] ->
  mdeliver_wf d (render (mreport_body r)) -> mdeliver_fits d ->
  MDeliver_Decode gbd ver seq (render (mdeliver_body d (render (mreport_body r)))) =
  Ok (MDeliver (CHead (h_len (md_h d)) 3 seq) (md_msgId d) 1 (md_msgFormat d) (md_recvTime d)
        (md_srcTermID d) (md_destTermID d) (md_msgLength d) [] [] (Some r) [] ver).
Proof.
  intros Hr Hw Ht (Hc & Hs & Hl & _ & Hi & H1 & H2 & H3) (F1 & F2 & F3). unfold MDeliver_Decode, RptLen.
  pose proof (mreport_Decode_ok r Hw Ht) as Hd. pose proof (zlen_mreport_body r Hw) as Hz.
  remember (render (mreport_body r)) as c. clear Heqc.
  assert (Hlen : 12 + zlen (render (mdeliver_body d c)) = h_len (md_h d)).
  { rewrite zlen_render, Hl. unfold mdeliver_body. cbn [widths width]. lia. }
  rewrite Hlen. unfold mdeliver_body. ropen Hb. do 7 rstep Hb.
  rewrite Hr. change (1 =? 1) with true. cbv iota. rstep Hb. rewrite Hd. cbn [bind]. rewrite !TrimStr_fits by auto. reflexivity.
Qed.
