(** * SgipProofs: SGIP encoders produce the field tables, decoders read them back. *)
From Verif Require Import Base UtilsModel UtilsProofs OptionsModel SpecWire WireProofs CmppModel SgipModel SpecSgip CmppProofs.

(** *** Open-ended writes and reads *)
Lemma wr_open k w n lo src : lo = zlen w -> (length src <= k)%nat -> (k <= n)%nat ->
  copy_open (w ++ repeat 0 n) lo src = Ok ((w ++ fit k src) ++ repeat 0 (n - k)).
Proof.
  intros H1 H2 H3. unfold copy_open. rewrite (wr_copy n w n lo _ src); auto.
  - rewrite (fit_short n), (fit_short k) by lia. rewrite <- !app_assoc. do 2 f_equal.
    replace (n - n)%nat with 0%nat by lia. cbn [repeat]. rewrite app_nil_r, <- repeat_app. f_equal. f_equal. lia.
  - rewrite zlen_app, zlen_repeat. lia.
Qed.
Lemma wr_put_open k w n lo v : lo = zlen w -> (k <= n)%nat ->
  put_be k (w ++ repeat 0 n) lo (zlen (w ++ repeat 0 n)) v = Ok ((w ++ be k v) ++ repeat 0 (n - k)).
Proof.
  intros H1 H2. unfold put_be. rewrite zlen_app, zlen_repeat.
  replace (_ && _) with true by (pose proof (zlen_nonneg w); lia). subst lo.
  f_equal. rewrite splice_at_end by (rewrite length_be; lia). rewrite length_be, app_assoc. reflexivity.
Qed.
Lemma get_be_open n f pre v rest lo : f = pre ++ be n v ++ rest -> lo = zlen pre ->
  0 <= v < 256 ^ Z.of_nat n -> get_be n f lo (zlen f) = Ok v.
Proof.
  intros H1 H2 H3. unfold get_be.
  rewrite (slice_at f pre (be n v ++ rest) [] lo); [|rewrite app_nil_r; auto|auto|subst f; rewrite zlen_app; lia].
  cbn [bind]. rewrite zlen_app, zlen_be. replace (_ <=? _) with true by (pose proof (zlen_nonneg rest); lia).
  rewrite firstn_app, length_be, Nat.sub_diag. cbn [firstn]. rewrite app_nil_r.
  rewrite firstn_all2 by (rewrite length_be; lia). rewrite unbe_be_small; auto.
Qed.

Ltac ostep k :=
  match goal with
  | |- context [copy_open (?w ++ repeat 0 ?n) ?lo ?src] => rewrite (wr_open k w n lo src) by (first [assumption | wlen])
  end; cbn [bind].
Ltac postep :=
  match goal with
  | |- context [put_be ?k (?w ++ repeat 0 ?n) ?lo (zlen (?w ++ repeat 0 ?n)) ?v] => rewrite (wr_put_open k w n lo v) by wlen
  end; cbn [bind].
Ltac gostep Hb :=
  cbv zeta;
  match type of Hb with
  | ?f = ?pre ++ be ?n ?v ++ ?rest =>
      match goal with
      | |- context [get_be n f ?lo (zlen f)] => rewrite (get_be_open n f pre v rest lo Hb) by (first [assumption | wlen])
      end
  end; rewrite app_assoc in Hb; cbn [bind].

(** ** Header *)
Lemma zlen_head20 len cmd q : zlen (render (head20 len cmd q)) = 20.
Proof. destruct q as [[a b] c]. rewrite zlen_render. reflexivity. Qed.
Lemma shead_Encode_ok h : 20 <= sh_len h ->
  shead_Encode h = Ok (render (head20 (sh_len h) (sh_cmd h) (sh_seq h)) ++ repeat 0 (Z.to_nat (sh_len h) - 20)).
Proof.
  intros H. unfold shead_Encode, shead_len. replace (sh_len h <? 20) with false by lia.
  destruct (sh_seq h) as [[a b] c].
  change (zeros (sh_len h)) with ([] ++ zeros (sh_len h)). unfold zeros.
  do 5 wstep. unfold render, head20. cbn [map concat render1].
  wtail (Z.to_nat (sh_len h) - 20)%nat. reflexivity.
Qed.
Lemma head20_split len cmd a b c body :
  render (head20 len cmd (a, b, c) ++ body) = render (head len cmd a) ++ render ([U 4 b; U 4 c] ++ body).
Proof. rewrite <- render_app. reflexivity. Qed.

Ltac hset0 hdr Hh := match goal with |- context [render (head20 ?a ?b ?c)] => set (hdr := render (head20 a b c));
      assert (Hh : zlen hdr = 20) by apply zlen_head20; clearbody hdr end.

(** ** Bind *)
Lemma Bind_Encode_ok b : sh_len (bd_h b) = 61 -> is_byte (bd_type b) ->
  Bind_Encode b = Ok (render (head20 61 (sh_cmd (bd_h b)) (sh_seq (bd_h b)) ++ bind_body b)).
Proof.
  intros Hl Ht. unfold Bind_Encode. rewrite shead_Encode_ok by lia. cbn [bind]. unfold shead_len. rewrite Hl.
  rewrite render_app. hset0 hdr Hh. rewrite zlen_app, Hh, zlen_repeat. change (_ && _) with true. cbn iota.
  wstep. wstep. wstep. wtail 8%nat. unfold bind_body, render. cbn [map concat render1].
  rewrite be1 by auto. wnorm. reflexivity.
Qed.
Lemma Bind_Decode_ok b node s1 s2 : 0 <= s1 < 2 ^ 32 -> 0 <= s2 < 2 ^ 32 -> is_byte (bd_type b) ->
  Bind_Decode node (render ([U 4 s1; U 4 s2] ++ bind_body b)) =
  Ok (Bind (SHead 61 1 (node, s1, s2)) (bd_type b) (TrimStr (fit 16 (bd_name b))) (TrimStr (fit 16 (bd_pwd b)))).
Proof.
  intros H1 H2 Ht. unfold Bind_Decode. rewrite zlen_render. unfold bind_body. cbn [app].
  change (widths _) with 49. ropen Hb. do 5 rstep Hb. reflexivity.
Qed.

(** ** Responses *)
Lemma BindRsp_Encode_ok r : sh_len (sr_h r) = 21 -> is_byte (sr_status r) ->
  BindRsp_Encode r = Ok (render (head20 21 (sh_cmd (sr_h r)) (sh_seq (sr_h r)) ++ bindrsp_body r)).
Proof.
  intros Hl Ht. unfold BindRsp_Encode. rewrite shead_Encode_ok by lia. cbn [bind]. unfold shead_len. rewrite Hl.
  rewrite render_app. hset0 hdr Hh. rewrite zlen_app, Hh, zlen_repeat. change (_ && _) with true. cbn iota.
  wstep. wtail 0%nat. unfold bindrsp_body, render. cbn [map concat render1].
  rewrite be1 by auto. rewrite u8_small by auto. reflexivity.
Qed.
Lemma srsp_Encode_ok r : sh_len (sr_h r) = 29 -> is_byte (sr_status r) ->
  srsp_Encode r = Ok (render (head20 29 (sh_cmd (sr_h r)) (sh_seq (sr_h r)) ++ srsp_body r)).
Proof.
  intros Hl Ht. unfold srsp_Encode. rewrite shead_Encode_ok by lia. cbn [bind]. rewrite Hl.
  rewrite render_app. hset0 hdr Hh. wstep. wtail 8%nat. unfold srsp_body, render. cbn [map concat render1].
  rewrite be1 by auto. rewrite u8_small by auto. wnorm. reflexivity.
Qed.
Lemma srsp_Decode_ok cmd node s1 s2 st tail : 0 <= s1 < 2 ^ 32 -> 0 <= s2 < 2 ^ 32 -> is_byte st ->
  srsp_Decode cmd node (render ([U 4 s1; U 4 s2; U 1 st; R tail])) =
  Ok (SRsp (SHead (21 + zlen tail) cmd (node, s1, s2)) st).
Proof.
  intros H1 H2 Ht. unfold srsp_Decode. rewrite zlen_render. cbn [widths width].
  ropen Hb. do 3 rstep Hb. do 3 f_equal. lia.
Qed.

(** ** Unbind *)
Lemma Unbind_Encode_ok h : sh_len h = 20 -> shead_Encode h = Ok (render (head20 20 (sh_cmd h) (sh_seq h))).
Proof. intros H. rewrite shead_Encode_ok by lia. rewrite H. cbn. rewrite app_nil_r. reflexivity. Qed.
Lemma Unbind_Decode_ok cmd node s1 s2 rest : 0 <= s1 < 2 ^ 32 -> 0 <= s2 < 2 ^ 32 ->
  Unbind_Decode cmd node (render [U 4 s1; U 4 s2] ++ rest) = Ok (SHead 20 cmd (node, s1, s2)).
Proof.
  intros H1 H2. unfold Unbind_Decode. change (render _ ++ rest) with (render [U 4 s1; U 4 s2; R rest]) || idtac.
  replace (render [U 4 s1; U 4 s2] ++ rest) with (render [U 4 s1; U 4 s2; R rest])
    by (unfold render; cbn [map concat render1]; wnorm; reflexivity).
  ropen Hb. do 2 rstep Hb. reflexivity.
Qed.

(** ** Submit *)
Lemma put_users_ok l : forall w n index, index = zlen w -> Forall (fun p => (length p <= 21)%nat) l ->
  (21 * length l <= n)%nat ->
  put_users (w ++ repeat 0 n) index l =
  Ok ((w ++ render (map (T 21) l)) ++ repeat 0 (n - 21 * length l), index + 21 * zlen l).
Proof.
  induction l as [|p l IH]; intros w n index Hi Hf Hn.
  - cbn. rewrite app_nil_r, Nat.sub_0_r, Z.add_0_r. reflexivity.
  - inversion Hf; subst. cbn [put_users length] in *. ostep 21%nat.
    rewrite IH; [|wlen|auto|lia].
    unfold render. cbn [map concat render1]. rewrite <- !app_assoc. f_equal. f_equal.
    + do 4 f_equal. lia.
    + rewrite zlen_cons. lia.
Qed.

Definition ssubmit_wf (s : ssubmit) : Prop :=
  sh_cmd (ss_h s) = 3 /\ seq_wf (sh_seq (ss_h s)) /\
  sh_len (ss_h s) = 143 + 21 * zlen (ss_UserNumber s) + zlen (ss_Content s) /\ sh_len (ss_h s) < 2 ^ 32 /\
  is_byte (ss_UserCount s) /\ is_byte (ss_FeeType s) /\ is_byte (ss_AgentFlag s) /\ is_byte (ss_Morelate s) /\
  is_byte (ss_Priority s) /\ is_byte (ss_ReportFlag s) /\ is_byte (ss_TpPid s) /\ is_byte (ss_TpUdhi s) /\
  is_byte (ss_Coding s) /\ is_byte (ss_MessageType s) /\ 0 <= ss_MessageLength s < 2 ^ 32.
Definition ssubmit_fits (s : ssubmit) : Prop :=
  fits 21 (ss_SPNumber s) /\ fits 21 (ss_ChargeNumber s) /\ Forall (fits 21) (ss_UserNumber s) /\ fits 5 (ss_CorpId s) /\
  fits 10 (ss_ServiceType s) /\ fits 6 (ss_FeeValue s) /\ fits 6 (ss_GivenValue s) /\ fits 16 (ss_ExpireTime s) /\
  fits 16 (ss_ScheduleTime s) /\ fits 8 (ss_Reserve s).

Lemma SSubmit_Encode_ok s : ssubmit_wf s -> ssubmit_fits s ->
  SSubmit_Encode s = Ok (render (head20 (sh_len (ss_h s)) 3 (sh_seq (ss_h s)) ++ ssubmit_body s)).
Proof.
  intros (Hc & Hq & Hl & _ & H1 & H2 & H3 & H4 & H5 & H6 & H7 & H8 & H9 & H10 & H11)
    ([_ F1] & [_ F2] & F3 & [_ F4] & [_ F5] & [_ F6] & [_ F7] & [_ F8] & [_ F9] & [_ F10]).
  assert (F3' : Forall (fun p => (length p <= 21)%nat) (ss_UserNumber s)).
  { eapply Forall_impl; [|exact F3]. intros p [_ Hp]. exact Hp. }
  unfold SSubmit_Encode. rewrite shead_Encode_ok by (rewrite Hl; unfold zlen; lia).
  cbn [bind]. rewrite Hc, render_app, Hl. hset0 hdr Hh. clear Hc Hq Hl F3.
  unfold ssubmit_body. rewrite !render_app.
  remember (ss_UserNumber s) as us. remember (ss_Content s) as mc. clear Hequs Heqmc.
  assert (Lus : Z.of_nat (length us) = zlen us) by reflexivity.
  assert (Lmc : Z.of_nat (length mc) = zlen mc) by reflexivity.
  remember (render (map (T 21) us)) as ru.
  assert (Lru : zlen ru = 21 * zlen us).
  { subst ru. rewrite zlen_render. clear. induction us as [|u us IH]; cbn [map widths width]; [reflexivity|].
    rewrite IH, zlen_cons. lia. }
  assert (Lru' : length ru = (21 * length us)%nat) by (unfold zlen in Lru; lia).
  unfold bytes in *. do 2 ostep 21%nat. wstep.
  rewrite put_users_ok by (first [exact F3' | wlen]). cbn [bind]. match goal with |- context [_ ++ render (map ?f us)] => change (render (map f us)) with (render (map (T 21) us)) end.
  unfold bytes in *. rewrite <- Heqru. clear Heqru F3'.
  ostep 5%nat. cbv zeta. ostep 10%nat. wstep. ostep 6%nat. ostep 6%nat. wstep. wstep. wstep. ostep 16%nat. ostep 16%nat.
  do 5 wstep. postep. ostep (length mc). ostep 8%nat.
  wtail 0%nat. unfold render. cbn [map concat render1 app]. rewrite !be1 by auto. rewrite (fit_exact (length mc)) by auto.
  wnorm. reflexivity.
Qed.

Lemma get_users_ok l : forall f pre rest index, f = pre ++ render (map (T 21) l) ++ rest -> index = zlen pre ->
  Forall (fits 21) l -> get_users f index (length l) = Ok (l, index + 21 * zlen l).
Proof.
  induction l as [|p l IH]; intros f pre rest index Hf Hi Hfit.
  - cbn. rewrite Z.add_0_r. reflexivity.
  - destruct (Forall_inv Hfit) as [Hp1 Hp2]. pose proof (Forall_inv_tail Hfit) as Hfit'. cbn [get_users length].
    unfold render in Hf. cbn [map concat render1] in Hf. rewrite <- app_assoc in Hf.
    rewrite (slice_fit f pre 21 p _ index (index + 21) Hf Hi eq_refl). cbn [bind].
    rewrite app_assoc in Hf. rewrite (IH f (pre ++ fit 21 p) rest (index + 21) Hf); [|wlen|auto].
    cbn [bind]. rewrite TrimStr_fits by (split; auto). rewrite zlen_cons. do 2 f_equal. lia.
Qed.

Lemma SSubmit_Decode_ok s node s1 s2 : ssubmit_wf s -> ssubmit_fits s -> 0 <= s1 < 2 ^ 32 -> 0 <= s2 < 2 ^ 32 ->
  ss_UserCount s = zlen (ss_UserNumber s) -> ss_MessageLength s = zlen (ss_Content s) ->
  SSubmit_Decode node (render ([U 4 s1; U 4 s2] ++ ssubmit_body s)) =
  (c <- strip_udh (ss_Content s) ;;
   Ok (SSubmit (SHead (sh_len (ss_h s)) 3 (node, s1, s2)) (ss_SPNumber s) (ss_ChargeNumber s) (ss_UserCount s)
        (ss_UserNumber s) (ss_CorpId s) (ss_ServiceType s) (ss_FeeType s) (ss_FeeValue s) (ss_GivenValue s)
        (ss_AgentFlag s) (ss_Morelate s) (ss_Priority s) (ss_ExpireTime s) (ss_ScheduleTime s) (ss_ReportFlag s)
        (ss_TpPid s) (ss_TpUdhi s) (ss_Coding s) (ss_MessageType s) (ss_MessageLength s) c [])).
Proof.
  intros (Hc & Hq & Hl & _ & H1 & H2 & H3 & H4 & H5 & H6 & H7 & H8 & H9 & H10 & H11)
    (F1 & F2 & F3 & F4 & F5 & F6 & F7 & F8 & F9 & F10) R1 R2 Hcnt Hml.
  assert (Hlen : 12 + zlen (render ([U 4 s1; U 4 s2] ++ ssubmit_body s)) = sh_len (ss_h s)).
  { rewrite render_app. unfold ssubmit_body. rewrite !render_app, !zlen_app, !zlen_render.
    assert (Lru : widths (map (T 21) (ss_UserNumber s)) = 21 * zlen (ss_UserNumber s)).
    { clear. induction (ss_UserNumber s) as [|u us IH]; cbn [map widths width]; [reflexivity|]. rewrite IH, zlen_cons. lia. }
    rewrite Lru, Hl. cbn [widths width]. lia. }
  unfold SSubmit_Decode. rewrite Hlen. clear Hlen Hl Hc Hq.
  assert (Hb : exists body, body = render ([U 4 s1; U 4 s2] ++ ssubmit_body s) /\
      body = [] ++ be 4 s1 ++ be 4 s2 ++ fit 21 (ss_SPNumber s) ++ fit 21 (ss_ChargeNumber s) ++ be 1 (ss_UserCount s) ++
      render (map (T 21) (ss_UserNumber s)) ++ fit 5 (ss_CorpId s) ++ fit 10 (ss_ServiceType s) ++ be 1 (ss_FeeType s) ++
      fit 6 (ss_FeeValue s) ++ fit 6 (ss_GivenValue s) ++ be 1 (ss_AgentFlag s) ++ be 1 (ss_Morelate s) ++
      be 1 (ss_Priority s) ++ fit 16 (ss_ExpireTime s) ++ fit 16 (ss_ScheduleTime s) ++ be 1 (ss_ReportFlag s) ++
      be 1 (ss_TpPid s) ++ be 1 (ss_TpUdhi s) ++ be 1 (ss_Coding s) ++ be 1 (ss_MessageType s) ++
      be 4 (ss_MessageLength s) ++ ss_Content s ++ fit 8 (ss_Reserve s)).
  { eexists; split; [reflexivity|]. unfold ssubmit_body. rewrite !render_app. unfold render at 1 2 4. cbn [map concat render1].
    wnorm. reflexivity. }
  destruct Hb as (body & <- & Hb).
  gostep Hb. gostep Hb. rstep Hb. rstep Hb. rstep Hb.
  rewrite Hcnt at 1. replace (Z.to_nat (zlen (ss_UserNumber s))) with (length (ss_UserNumber s)) by (unfold zlen; lia).
  match type of Hb with body = ?pre ++ render _ ++ ?rest => 
    rewrite (get_users_ok (ss_UserNumber s) body pre rest 51 Hb) by (first [exact F3 | wlen]) end.
  rewrite app_assoc in Hb. cbn [bind].
  assert (Lru : zlen (render (map (T 21) (ss_UserNumber s))) = 21 * zlen (ss_UserNumber s)).
  { rewrite zlen_render. clear. induction (ss_UserNumber s) as [|u us IH]; cbn [map widths width]; [reflexivity|]. rewrite IH, zlen_cons. lia. }
  remember (render (map (T 21) (ss_UserNumber s))) as ru. clear Heqru.
  do 15 rstep Hb. gostep Hb.
  match type of Hb with ?f = ?pre ++ ?x ++ ?rest =>
    match goal with |- context [slice f ?lo ?hi] => rewrite (slice_at f pre x rest lo hi Hb) by wlen end end.
  cbn [bind]. destruct (strip_udh (ss_Content s)) as [content| |]; cbn [bind]; auto.
  rewrite !TrimStr_fits by auto. reflexivity.
Qed.

(** ** Deliver *)
Definition sdeliver_wf (d : sdeliver) : Prop :=
  sh_cmd (sd_h d) = 4 /\ seq_wf (sh_seq (sd_h d)) /\ sh_len (sd_h d) = 77 + zlen (sd_Content d) /\ sh_len (sd_h d) < 2 ^ 32 /\
  is_byte (sd_TpPid d) /\ is_byte (sd_TpUdhi d) /\ is_byte (sd_Coding d) /\ sd_MessageLength d = zlen (sd_Content d).
Definition sdeliver_fits (d : sdeliver) : Prop :=
  fits 21 (sd_UserNumber d) /\ fits 21 (sd_SPNumber d) /\ fits 8 (sd_Reserve d).

Lemma SDeliver_Encode_ok d : sdeliver_wf d -> sdeliver_fits d ->
  SDeliver_Encode d = Ok (render (head20 (sh_len (sd_h d)) 4 (sh_seq (sd_h d)) ++ sdeliver_body d)).
Proof.
  intros (Hc & Hq & Hl & _ & H1 & H2 & H3 & H4) ([_ F1] & [_ F2] & [_ F3]).
  unfold SDeliver_Encode. rewrite shead_Encode_ok by (rewrite Hl; unfold zlen; lia).
  cbn [bind]. rewrite Hc, render_app, Hl. hset0 hdr Hh. clear Hc Hq Hl.
  unfold sdeliver_body. clear H4. remember (sd_Content d) as mc. clear Heqmc.
  assert (Lmc : Z.of_nat (length mc) = zlen mc) by reflexivity.
  do 2 ostep 21%nat. do 3 wstep. postep. ostep (length mc). ostep 8%nat.
  wtail 0%nat. unfold render. cbn [map concat render1 app]. rewrite !be1 by auto. rewrite (fit_exact (length mc)) by auto.
  wnorm. reflexivity.
Qed.
Lemma SDeliver_Decode_ok d node s1 s2 : sdeliver_wf d -> sdeliver_fits d -> 0 <= s1 < 2 ^ 32 -> 0 <= s2 < 2 ^ 32 ->
  SDeliver_Decode node (render ([U 4 s1; U 4 s2] ++ sdeliver_body d)) =
  Ok (SDeliver (SHead (sh_len (sd_h d)) 4 (node, s1, s2)) (sd_UserNumber d) (sd_SPNumber d) (sd_TpPid d) (sd_TpUdhi d)
       (sd_Coding d) (sd_MessageLength d) (sd_Content d) []).
Proof.
  intros (Hc & Hq & Hl & Hr & H1 & H2 & H3 & H4) (F1 & F2 & F3) R1 R2.
  assert (Hlen : 12 + zlen (render ([U 4 s1; U 4 s2] ++ sdeliver_body d)) = sh_len (sd_h d)).
  { rewrite zlen_render. unfold sdeliver_body. cbn [app widths width]. lia. }
  unfold SDeliver_Decode. rewrite Hlen. assert (Hm : 0 <= sd_MessageLength d < 2 ^ 32) by (pose proof (zlen_nonneg (sd_Content d)); lia).
  clear Hlen Hl Hr Hc Hq. unfold sdeliver_body. cbn [app]. ropen Hb.
  do 2 gostep Hb. do 5 rstep Hb. gostep Hb. rstep Hb. rewrite !TrimStr_fits by auto. reflexivity.
Qed.

(** ** Report *)
Definition sreport_wf (r : sreport) : Prop :=
  sh_len (st_h r) = 64 /\ seq_wf (sh_seq (st_h r)) /\ is_byte (st_ReportType r) /\ is_byte (st_State r) /\
  is_byte (st_ErrorCode r) /\ fits 21 (st_UserNumber r) /\ fits 8 (st_Reserve r) /\
  exists m0 m1 m2, st_MtSequence r = [m0; m1; m2] /\ seq_wf (m0, m1, m2).

Lemma SReport_Encode_ok r : sreport_wf r ->
  SReport_Encode r = Ok (render (head20 64 (sh_cmd (st_h r)) (sh_seq (st_h r)) ++ sreport_body r)).
Proof.
  intros (Hl & Hq & H1 & H2 & H3 & [_ F1] & [_ F2] & (m0 & m1 & m2 & Hm & Hmw)).
  unfold SReport_Encode. rewrite shead_Encode_ok by lia. cbn [bind]. rewrite render_app, Hl. hset0 hdr Hh. clear Hl Hq.
  unfold sreport_body. rewrite Hm. cbn [map app put_seqs]. do 3 postep. wstep. cbv zeta. ostep 21%nat. do 2 wstep. ostep 8%nat.
  wtail 0%nat. unfold render. cbn [map concat render1 app]. rewrite !be1 by auto. rewrite u8_small by auto. wnorm. reflexivity.
Qed.
Lemma SReport_Decode_ok r node s1 s2 : sreport_wf r -> 0 <= s1 < 2 ^ 32 -> 0 <= s2 < 2 ^ 32 ->
  SReport_Decode node (render ([U 4 s1; U 4 s2] ++ sreport_body r)) =
  Ok (SReport (SHead 64 5 (node, s1, s2)) (st_MtSequence r) (st_ReportType r) (st_UserNumber r) (st_State r) (st_ErrorCode r) []).
Proof.
  intros (Hl & Hq & H1 & H2 & H3 & F1 & F2 & (m0 & m1 & m2 & Hm & Hmw)) R1 R2.
  destruct Hmw as (M0 & M1 & M2). unfold sreport_body. rewrite Hm. cbn [map app].
  unfold SReport_Decode.
  match goal with |- context [12 + zlen ?b] => replace (12 + zlen b) with 64 by (rewrite zlen_render; reflexivity) end.
  ropen Hb.
  do 5 gostep Hb. do 4 rstep Hb. rewrite TrimStr_fits by auto. reflexivity.
Qed.
