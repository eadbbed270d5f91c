(** * PropMany: property C115, what the server's framing makes of a submit to many numbers.

    Composes the three submit builders and encoders (codec/cmpp/submit.go:52-161,
    codec/sgip/submit.go:64-148, codec/smgp/submit.go:53-144) with the server's header check
    (msc_server/server/on_traffic.go:55-106). *)
From Verif Require Import Base SpecWire WireProofs OptionsModel UtilsModel UtilsProofs CmppModel CmppProofs CmppBuildProofs
  SpecSgip SgipModel SgipProofs SpecSmgp SmgpModel SmgpProofs FrameModel SpecFrame.
From Verif Require PropFrame PropCmpp PropSgip PropSmgp PropResponses.

(** ** Specification *)
(** Whatever follows it on the connection, the server hands exactly this frame on, as one packet
    with that command, and keeps exactly what follows. *)
Definition handed_on (p : proto) (cmd : Z) (f : bytes) : Prop :=
  forall drain rest, exists seq body, f = wire_of cmd seq body /\
    DecodeAndCheckHeader p drain (f ++ rest) = Ok (FPass (Packet cmd seq body) rest).
(** Whatever follows it, the server closes the connection. *)
Definition shut_out (p : proto) (f : bytes) : Prop :=
  forall drain rest, DecodeAndCheckHeader p drain (f ++ rest) = Ok FClose.

(** [f] is a frame the library puts on the wire for a submit of [content] to [phones]; [b] is the
    part of the content that it carries. *)
Definition cmpp_frame ac phones content seq ops vd g nxt (b f : bytes) : Prop :=
  exists msgs k s, NewSubmit ac phones content seq ops vd g nxt = Ok msgs /\ nth_error msgs k = Some s /\
    sb_msgContent s = b /\ Submit_Encode s = Ok f.
Definition sgip_frame ac phones content ops vd g q (b f : bytes) : Prop :=
  exists msgs k s, sgip_NewSubmit ac phones content ops vd g q = Ok msgs /\ nth_error msgs k = Some s /\
    ss_Content s = b /\ SSubmit_Encode s = Ok f.
Definition smgp_frame gbe ac phones content seq ops now g nxt (b f : bytes) : Prop :=
  exists msgs k s, smgp_NewSubmit gbe ac phones content seq ops now g nxt = Ok msgs /\ nth_error msgs k = Some s /\
    ms_content s = b /\ MSubmit_Encode s = Ok f.

(** ** The header check on one frame *)
Lemma head_read p drain cmd seq body rest : In cmd (PropFrame.commands p) -> 0 <= seq < 2 ^ 32 -> 12 + zlen body < 2 ^ 32 ->
  UnpackHead (Peek drain 12 (wire_of cmd seq body ++ rest)) = Ok (12 + zlen body, cmd, seq).
Proof.
  intros H1 H2 H3. pose proof (PropFrame.commands_u32 _ _ H1). pose proof (zlen_nonneg body). pose proof (zlen_nonneg rest).
  change (wire_of cmd seq body) with (PropFrame.wire (Packet cmd seq body)).
  unfold Peek. change (12 <=? 0) with false. cbv iota. rewrite zlen_app, PropFrame.zlen_wire. cbn [pk_body].
  replace (_ <? 12) with false by lia. rewrite PropFrame.wire_head. cbn [pk_body pk_cmd pk_seq].
  rewrite <- app_assoc. change (Z.to_nat 12) with 12%nat. rewrite PropFrame.firstn_head by (rewrite PropFrame.zlen_head12; reflexivity).
  rewrite <- (app_nil_r (render _)). apply PropCmpp.UnpackHead_head; lia.
Qed.
Lemma pass_fits p cmd seq body : In cmd (PropFrame.commands p) -> 0 <= seq < 2 ^ 32 -> 0 < zlen body -> 12 + zlen body <= 5120 ->
  handed_on p cmd (wire_of cmd seq body).
Proof.
  intros H1 H2 H3 H4 drain rest. exists seq, body. split; [reflexivity|]. pose proof (zlen_nonneg rest).
  unfold DecodeAndCheckHeader. rewrite (head_read p) by (auto; lia).
  assert (Z1 : zlen (wire_of cmd seq body ++ rest) = 12 + zlen body + zlen rest).
  { rewrite zlen_app. change (wire_of cmd seq body) with (PropFrame.wire (Packet cmd seq body)). rewrite PropFrame.zlen_wire. reflexivity. }
  rewrite Z1. replace (_ <? 12) with false by lia. cbn [bind].
  unfold PacketMax, HeadLen. replace (_ || _) with false by lia. rewrite (proj2 (PropFrame.known_iff p cmd) H1).
  replace (_ <? 12 + zlen body) with false by lia.
  assert (D : Discard drain 12 (wire_of cmd seq body ++ rest) = body ++ rest).
  { unfold Discard. change (12 <=? 0) with false. cbv iota. rewrite Z1. replace (_ <? 12) with false by lia.
    change (wire_of cmd seq body) with (PropFrame.wire (Packet cmd seq body)). rewrite PropFrame.wire_head, <- app_assoc.
    apply PropFrame.skipn_head. rewrite PropFrame.zlen_head12. reflexivity. }
  rewrite D. replace (12 + zlen body - 12) with (zlen body) by lia.
  unfold Peek, Discard. replace (zlen body <=? 0) with false by lia. rewrite zlen_app. replace (_ <? zlen body) with false by lia.
  rewrite PropFrame.firstn_head, PropFrame.skipn_head by (unfold zlen; lia). reflexivity.
Qed.
Lemma shut_long p cmd seq body : In cmd (PropFrame.commands p) -> 0 <= seq < 2 ^ 32 -> 5120 < 12 + zlen body < 2 ^ 32 ->
  shut_out p (wire_of cmd seq body).
Proof.
  intros H1 H2 H3 drain rest. pose proof (zlen_nonneg rest). unfold DecodeAndCheckHeader. rewrite (head_read p) by (auto; lia).
  rewrite zlen_app. change (wire_of cmd seq body) with (PropFrame.wire (Packet cmd seq body)). rewrite PropFrame.zlen_wire. cbn [pk_body].
  replace (_ <? 12) with false by lia. cbn [bind]. unfold PacketMax. replace (5120 <? _) with true by lia. reflexivity.
Qed.
(** The two together, for a frame given by its field table. *)
Lemma judged p cmd seq fs f : In cmd (PropFrame.commands p) -> 0 <= seq < 2 ^ 32 -> 12 < zlen f < 2 ^ 32 ->
  f = render (head (zlen f) cmd seq) ++ fs ->
  (zlen f <= 5120 -> handed_on p cmd f) /\ (5120 < zlen f -> shut_out p f).
Proof.
  intros H1 H2 H3 E. assert (Z1 : zlen f = 12 + zlen fs) by (rewrite E at 1; rewrite zlen_app, PropFrame.zlen_head12; reflexivity).
  assert (E' : f = wire_of cmd seq fs).
  { rewrite E, Z1. symmetry. exact (PropFrame.wire_head (Packet cmd seq fs)). }
  split; intros H4; rewrite E'.
  - apply pass_fits; auto; lia.
  - apply shut_long; auto; lia.
Qed.

(** ** CMPP *)
Lemma cmpp_shape ac phones content seq ops vd g nxt b f : ac_wf ac -> ops_wf ops -> zlen phones <= 255 -> 0 <= seq < 2 ^ 32 ->
  (forall i, 0 <= nxt i < 2 ^ 32) -> cmpp_frame ac phones content seq ops vd g nxt b f ->
  zlen b <= 160 /\ zlen f = (if is_v3 (ac_Version ac) then 163 + 32 * zlen phones else 138 + 21 * zlen phones) + zlen b /\
  exists q body, 0 <= q < 2 ^ 32 /\ f = render (head (zlen f) 4 q) ++ body.
Proof.
  intros Ha Ho Hp Hs Hn (msgs & k & s & E & Ek & Eb & Ef).
  destruct (PropCmpp.C32_submit_layout ac phones content seq ops vd g nxt Ha Ho Hp Hs Hn) as (msgs' & parts & E' & Ep & L & H).
  destruct (NewSubmit_ok ac phones content seq ops vd g nxt Ha Ho Hp Hs Hn) as (msgs2 & parts2 & E2 & Ep2 & _ & _ & H2).
  rewrite E in E'. injection E' as <-. rewrite E in E2. injection E2 as <-. rewrite Ep in Ep2. injection Ep2 as <-.
  destruct (nth_error parts k) as [b'|] eqn:Nk.
  2: { exfalso. apply nth_error_None in Nk. assert (nth_error msgs k <> None) as X by congruence. apply nth_error_Some in X. lia. }
  destruct (H2 k s b' Ek Nk) as (_ & _ & P & _). assert (b' = b) as -> by congruence.
  assert (Lb : zlen b <= 160).
  { destruct (MsgSlices_ok g (MsgFmt content) content) as (p' & Ep' & _ & F). rewrite Ep in Ep'. injection Ep' as <-.
    rewrite Forall_forall in F. apply F. eapply nth_error_In; eauto. }
  split; [exact Lb|]. specialize (H k s b Ek Nk). cbv zeta in H. destruct H as (H & Z1 & _). rewrite H in Ef.
  apply (f_equal (fun r => match r with Ok x => x | _ => [] end)) in Ef. cbn beta iota in Ef. 
  match type of Z1 with 12 + zlen ?x = _ => set (body := x) in *; clearbody body end.
  assert (Zf : zlen f = 12 + zlen body) by (rewrite <- Ef, zlen_app, zlen_render; reflexivity).
  split.
  - rewrite Zf, Z1. destruct (is_v3 (ac_Version ac)); lia.
  - exists (if (k =? 0)%nat then seq else nxt (Z.of_nat k)), body. split; [destruct (k =? 0)%nat; auto|].
    rewrite Zf, Z1. symmetry. exact Ef.
Qed.

(** ** SGIP: the encoder writes nothing in front of octet 20 *)
Definition keeps (f f' : bytes) : Prop := firstn 12 f' = firstn 12 f /\ zlen f' = zlen f.
Lemma keeps_trans a b c : keeps a b -> keeps b c -> keeps a c.
Proof. intros [H1 H2] [H3 H4]. split; congruence. Qed.
Lemma copy_keeps f lo hi src f' : copy_at f lo hi src = Ok f' -> 12 <= lo -> keeps f f'.
Proof.
  intros E H. assert (C : (0 <=? lo) && (lo <=? hi) && (hi <=? zlen f) = true) by (unfold copy_at in E; destruct (_ && _) eqn:X in E; [exact X|discriminate]).
  rewrite !andb_true_iff in C. destruct (PropResponses.copy_at_run 12 f lo hi src) as (g & Eg & F & Z1); try lia.
  assert (g = f') as -> by congruence. split; auto.
Qed.
Lemma set_keeps f i v f' : set_at f i v = Ok f' -> 12 <= i -> keeps f f'.
Proof.
  intros E H. unfold set_at in E. destruct ((0 <=? i) && (i <? zlen f)) eqn:C; [|discriminate]. apply andb_true_iff in C as [C1 C2].
  assert (f' = splice f i [v]) as -> by congruence. apply (PropResponses.splice_keep 12); [lia|]. change (zlen [v]) with 1. lia.
Qed.
Lemma be_keeps n f lo hi v f' : put_be n f lo hi v = Ok f' -> 12 <= lo -> keeps f f'.
Proof.
  intros E H. unfold put_be in E. destruct (_ && _) eqn:C in E; [|discriminate]. rewrite !andb_true_iff in C.
  assert (f' = splice f lo (be n v)) as -> by congruence. apply (PropResponses.splice_keep 12); [lia|].
  assert (zlen (be n v) = Z.of_nat n) as -> by (unfold zlen; rewrite length_be; reflexivity). lia.
Qed.
Lemma users_keep : forall l f i f' j, put_users f i l = Ok (f', j) -> 12 <= i -> keeps f f' /\ 12 <= j.
Proof.
  induction l as [|p r IH]; intros f i f' j E H; cbn [put_users] in E.
  - assert (f' = f /\ j = i) as [-> ->] by (split; congruence). split; [split; reflexivity|exact H].
  - apply bind_ok in E as (g & Eg & E). apply IH in E as [K J]; [|lia]. split; [|exact J].
    eapply keeps_trans; [|exact K]. unfold copy_open in Eg. eapply copy_keeps; [exact Eg|exact H].
Qed.

Lemma sgip_keeps s f : SSubmit_Encode s = Ok f -> 20 <= sh_len (ss_h s) ->
  keeps (render (head20 (sh_len (ss_h s)) (sh_cmd (ss_h s)) (sh_seq (ss_h s))) ++ repeat 0 (Z.to_nat (sh_len (ss_h s)) - 20)) f.
Proof.
  intros E H. unfold SSubmit_Encode in E. rewrite shead_Encode_ok in E by exact H. cbn [bind] in E.
  match type of E with context [copy_open ?x 20 _] => set (f0 := x) in *; clearbody f0 end. unfold copy_open in E.
  apply bind_ok in E as (y1 & E1 & E). apply copy_keeps in E1; [|lia].
  apply bind_ok in E as (y2 & E2 & E). apply copy_keeps in E2; [|lia].
  apply bind_ok in E as (y3 & E3 & E). apply set_keeps in E3; [|lia].
  apply bind_ok in E as ([y4 j] & E4 & E). apply users_keep in E4 as [E4 J]; [|lia]. cbv zeta in E.
  apply bind_ok in E as (y5 & E5 & E). apply copy_keeps in E5; [|lia].
  apply bind_ok in E as (y6 & E6 & E). apply copy_keeps in E6; [|lia].
  apply bind_ok in E as (y7 & E7 & E). apply set_keeps in E7; [|lia].
  apply bind_ok in E as (y8 & E8 & E). apply copy_keeps in E8; [|lia].
  apply bind_ok in E as (y9 & E9 & E). apply copy_keeps in E9; [|lia].
  apply bind_ok in E as (z1 & F1 & E). apply set_keeps in F1; [|lia].
  apply bind_ok in E as (z2 & F2 & E). apply set_keeps in F2; [|lia].
  apply bind_ok in E as (z3 & F3 & E). apply set_keeps in F3; [|lia].
  apply bind_ok in E as (z4 & F4 & E). apply copy_keeps in F4; [|lia].
  apply bind_ok in E as (z5 & F5 & E). apply copy_keeps in F5; [|lia].
  apply bind_ok in E as (z6 & F6 & E). apply set_keeps in F6; [|lia].
  apply bind_ok in E as (z7 & F7 & E). apply set_keeps in F7; [|lia].
  apply bind_ok in E as (z8 & F8 & E). apply set_keeps in F8; [|lia].
  apply bind_ok in E as (z9 & F9 & E). apply set_keeps in F9; [|lia].
  apply bind_ok in E as (w1 & G1 & E). apply set_keeps in G1; [|lia].
  apply bind_ok in E as (w2 & G2 & E). apply be_keeps in G2; [|lia].
  apply bind_ok in E as (w3 & G3 & E). apply copy_keeps in G3; [|lia].
  apply copy_keeps in E; [|pose proof (zlen_nonneg (ss_Content s)); lia].
  repeat match goal with X : keeps f0 ?a, Y : keeps ?a ?b |- _ => pose proof (keeps_trans _ _ _ X Y); clear X Y end. assumption.
Qed.
Lemma sgip_shape ac phones content ops vd g q b f : zlen phones <= 100000000 -> (forall i, seq_wf (q i)) ->
  sgip_frame ac phones content ops vd g q b f ->
  zlen b <= 160 /\ zlen f = 143 + 21 * zlen phones + zlen b /\
  exists n body, 0 <= n < 2 ^ 32 /\ f = render (head (zlen f) 3 n) ++ body.
Proof.
  intros Hp Hq (msgs & k & s & E & Ek & Eb & Ef). unfold sgip_NewSubmit in E.
  destruct (MsgSlices_ok g (MsgFmt content) content) as (parts & Ep & Hne & Hlen). rewrite Ep in E. cbn [bind] in E.
  assert (X : exists ud i, s = sgip_part ac (LoadMtOptions ops) phones vd (MsgFmt content) ud (q i) b /\ In b parts).
  { assert (G : forall ud i c, s = sgip_part ac (LoadMtOptions ops) phones vd (MsgFmt content) ud (q i) c -> In c parts -> c = b).
    { intros ud i c -> _. exact Eb. }
    assert (D : exists ud i c, s = sgip_part ac (LoadMtOptions ops) phones vd (MsgFmt content) ud (q i) c /\ In c parts).
    { destruct parts as [|p0 [|p1 r]]; [congruence| |].
      - injection E as <-. destruct k; [|destruct k; discriminate]. cbn [nth_error] in Ek. injection Ek as <-.
        exists 0, 0, p0. split; [reflexivity|left; reflexivity].
      - set (parts := p0 :: p1 :: r) in *. clearbody parts.
        match type of E with Ok ?x = _ => assert (msgs = x) as -> by congruence end.
        rewrite PropSgip.sgip_parts_nth in Ek. destruct (nth_error parts k) as [c|] eqn:Nk; [|discriminate]. cbn [option_map] in Ek.
        injection Ek as <-. exists 1, (0 + Z.of_nat k), c. split; [reflexivity|]. eapply nth_error_In; eauto. }
    destruct D as (ud & i & c & E1 & E2). pose proof (G _ _ _ E1 E2). subst c. eauto. }
  destruct X as (ud & i & -> & Ib). rewrite Forall_forall in Hlen. pose proof (Hlen b Ib) as Lb. cbn beta in Lb.
  pose proof (zlen_nonneg b). pose proof (zlen_nonneg phones).
  assert (HL : u32 (143 + zlen phones * 21 + zlen b) = 143 + 21 * zlen phones + zlen b).
  { unfold u32. change (2 ^ 32) with 4294967296. rewrite Z.mod_small; lia. }
  apply sgip_keeps in Ef; cbn [ss_h sgip_part sh_len sh_cmd sh_seq] in *; rewrite HL in *; [|lia].
  destruct Ef as [F1 F2]. split; [exact Lb|].
  assert (Zf : zlen f = 143 + 21 * zlen phones + zlen b).
  { rewrite F2, zlen_app, zlen_head20, zlen_repeat. lia. }
  split; [exact Zf|]. specialize (Hq i). destruct (q i) as [[a b1] c1]. destruct Hq as (Q1 & _).
  exists a, (skipn 12 f). split; [exact Q1|]. rewrite <- (firstn_skipn 12 f) at 1. f_equal. rewrite F1, Zf.
  change (head20 (143 + 21 * zlen phones + zlen b) SG_SUBMIT (a, b1, c1))
    with (head (143 + 21 * zlen phones + zlen b) 3 a ++ [U 4 b1; U 4 c1]).
  rewrite render_app, <- app_assoc. apply PropFrame.firstn_head. apply PropFrame.zlen_head12.
Qed.

(** ** SMGP *)
Lemma smgp_shape gbe ac phones content seq ops now g nxt data b f : ac_wf ac -> ops_wf ops -> zlen phones <= 255 -> 0 <= seq < 2 ^ 32 ->
  gbe content = Some data -> smgp_frame gbe ac phones content seq ops now g nxt b f ->
  zlen b <= 140 /\ zlen f = 126 + 21 * zlen phones + zlen b + (if zlen data <? 140 then 0 else 20) /\
  exists q body, 0 <= q < 2 ^ 32 /\ f = render (head (zlen f) 2 q) ++ body.
Proof.
  intros Ha Ho Hp Hs Hg (msgs & k & s & E & Ek & Eb & Ef).
  destruct (PropSmgp.C43_built gbe ac phones content seq ops now g nxt data Ha Ho Hp Hs Hg) as (msgs' & parts & E' & Ep & L & Ne & H).
  rewrite E in E'. injection E' as <-.
  destruct (nth_error parts k) as [b'|] eqn:Nk.
  2: { exfalso. apply nth_error_None in Nk. assert (nth_error msgs k <> None) as X by congruence. apply nth_error_Some in X. lia. }
  destruct (H k s b' Ek Nk) as (Hopt & W & Hb & Hd & _). assert (b' = b) as -> by congruence.
  destruct (PropSmgp.split140 g data) as (p' & Ep' & _ & F & _). rewrite Ep in Ep'. injection Ep' as <-.
  assert (Lb : zlen b <= 140) by (rewrite Forall_forall in F; apply F; eapply nth_error_In; eauto).
  destruct (PropSmgp.C43_layout s _ Hopt W) as (f' & Ef' & Hf & Zf & _). rewrite Ef in Ef'. injection Ef' as <-.
  pose proof W as (_ & Hq & Hl & _). rewrite Hd, Hb in Hl.
  split; [exact Lb|]. split.
  - rewrite Zf, Hl. f_equal. destruct (zlen data <? 140) eqn:C.
    + rewrite split_short in Ep by lia. injection Ep as <-. reflexivity.
    + pose proof (split_zlen g data 140 parts ltac:(lia) ltac:(lia) Ep) as Hz.
      pose proof (nparts_bounds (zlen data) 134 ltac:(lia) ltac:(lia)). change (140 - 6) with 134 in Hz. unfold zlen in Hz at 1.
      unfold PropSmgp.sm_items. replace (length parts =? 1)%nat with false by (symmetry; apply Nat.eqb_neq; nia). reflexivity.
  - exists (h_seq (ms_h s)), (render (msubmit_body s (opts_wire (PropSmgp.sm_items (length parts) k)))). split; [exact Hq|].
    rewrite Zf. rewrite Hf at 1. apply render_app.
Qed.

(** ** C115 *)
(** A frame of at most 5120 octets is handed on whole, a longer one closes the connection; the
    length follows from the protocol, the number of numbers and the part of the text. *)
Theorem C115_partial :
  (forall ac phones content seq ops vd g nxt b f, ac_wf ac -> ops_wf ops -> zlen phones <= 255 -> 0 <= seq < 2 ^ 32 ->
    (forall i, 0 <= nxt i < 2 ^ 32) -> cmpp_frame ac phones content seq ops vd g nxt b f ->
    let total := (if is_v3 (ac_Version ac) then 163 + 32 * zlen phones else 138 + 21 * zlen phones) + zlen b in
    zlen f = total /\ (total <= 5120 -> handed_on P_CMPP 4 f) /\ (5120 < total -> shut_out P_CMPP f)) /\
  (forall ac phones content ops vd g q b f, zlen phones <= 100000000 -> (forall i, seq_wf (q i)) ->
    sgip_frame ac phones content ops vd g q b f ->
    let total := 143 + 21 * zlen phones + zlen b in
    zlen f = total /\ (total <= 5120 -> handed_on P_SGIP 3 f) /\ (5120 < total -> shut_out P_SGIP f)) /\
  (forall gbe ac phones content seq ops now g nxt data b f, ac_wf ac -> ops_wf ops -> zlen phones <= 255 -> 0 <= seq < 2 ^ 32 ->
    gbe content = Some data -> smgp_frame gbe ac phones content seq ops now g nxt b f ->
    let total := 126 + 21 * zlen phones + zlen b + (if zlen data <? 140 then 0 else 20) in
    zlen f = total /\ (total <= 5120 -> handed_on P_SMGP 2 f) /\ (5120 < total -> shut_out P_SMGP f)).
Proof.
  split; [|split].
  - intros ac phones content seq ops vd g nxt b f Ha Ho Hp Hs Hn HF total.
    destruct (cmpp_shape _ _ _ _ _ _ _ _ _ _ Ha Ho Hp Hs Hn HF) as (Lb & Zf & q & body & Q & E).
    pose proof (zlen_nonneg b). pose proof (zlen_nonneg phones). split; [exact Zf|]. fold total in Zf. rewrite <- Zf.
    apply (judged P_CMPP 4 q body f); auto; [cbn; auto 10|]. rewrite Zf. unfold total. destruct (is_v3 _); lia.
  - intros ac phones content ops vd g q b f Hp Hq HF total.
    destruct (sgip_shape _ _ _ _ _ _ _ _ _ Hp Hq HF) as (Lb & Zf & n & body & Q & E).
    pose proof (zlen_nonneg b). pose proof (zlen_nonneg phones). split; [exact Zf|]. fold total in Zf. rewrite <- Zf.
    apply (judged P_SGIP 3 n body f); auto; [cbn; auto 10|]. rewrite Zf. unfold total. lia.
  - intros gbe ac phones content seq ops now g nxt data b f Ha Ho Hp Hs Hg HF total.
    destruct (smgp_shape _ _ _ _ _ _ _ _ _ _ _ _ Ha Ho Hp Hs Hg HF) as (Lb & Zf & q & body & Q & E).
    pose proof (zlen_nonneg b). pose proof (zlen_nonneg phones). split; [exact Zf|]. fold total in Zf. rewrite <- Zf.
    apply (judged P_SMGP 2 q body f); auto; [cbn; auto 10|]. rewrite Zf. unfold total. destruct (_ <? 140); lia.
Qed.
(** Up to 149 numbers (CMPP 3.x), 229 (CMPP 2.x, SGIP) or 230 (SMGP) every packet of every text
    is handed on; in particular the client's own, which are to one number. *)
Theorem C115_few :
  (forall ac phones content seq ops vd g nxt b f, ac_wf ac -> ops_wf ops ->
    zlen phones <= (if is_v3 (ac_Version ac) then 149 else 229) -> 0 <= seq < 2 ^ 32 ->
    (forall i, 0 <= nxt i < 2 ^ 32) -> cmpp_frame ac phones content seq ops vd g nxt b f -> handed_on P_CMPP 4 f) /\
  (forall ac phones content ops vd g q b f, zlen phones <= 229 -> (forall i, seq_wf (q i)) ->
    sgip_frame ac phones content ops vd g q b f -> handed_on P_SGIP 3 f) /\
  (forall gbe ac phones content seq ops now g nxt data b f, ac_wf ac -> ops_wf ops -> zlen phones <= 230 -> 0 <= seq < 2 ^ 32 ->
    gbe content = Some data -> smgp_frame gbe ac phones content seq ops now g nxt b f -> handed_on P_SMGP 2 f).
Proof.
  destruct C115_partial as (PA & PB & PC). split; [|split].
  - intros ac phones content seq ops vd g nxt b f Ha Ho Hp Hs Hn HF.
    assert (Hp' : zlen phones <= 255) by (destruct (is_v3 _); lia).
    destruct (cmpp_shape _ _ _ _ _ _ _ _ _ _ Ha Ho Hp' Hs Hn HF) as (Lb & _).
    destruct (PA _ _ _ _ _ _ _ _ _ _ Ha Ho Hp' Hs Hn HF) as (_ & P & _). apply P. destruct (is_v3 _); lia.
  - intros ac phones content ops vd g q b f Hp Hq HF. assert (Hp' : zlen phones <= 100000000) by lia.
    destruct (sgip_shape _ _ _ _ _ _ _ _ _ Hp' Hq HF) as (Lb & _).
    destruct (PB _ _ _ _ _ _ _ _ _ Hp' Hq HF) as (_ & P & _). apply P. lia.
  - intros gbe ac phones content seq ops now g nxt data b f Ha Ho Hp Hs Hg HF. assert (Hp' : zlen phones <= 255) by lia.
    destruct (smgp_shape _ _ _ _ _ _ _ _ _ _ _ _ Ha Ho Hp' Hs Hg HF) as (Lb & _).
    destruct (PC _ _ _ _ _ _ _ _ _ _ _ _ Ha Ho Hp' Hs Hg HF) as (_ & P & _). apply P. destruct (_ <? 140); lia.
Qed.
(** From 155 (CMPP 3.x) or 238 numbers on, every packet of every text closes the connection, though
    the protocols allow 255 numbers and the library builds and writes the packet. *)
Theorem C115_refuted :
  (forall ac phones content seq ops vd g nxt b f, ac_wf ac -> ops_wf ops ->
    (if is_v3 (ac_Version ac) then 155 else 238) <= zlen phones <= 255 -> 0 <= seq < 2 ^ 32 ->
    (forall i, 0 <= nxt i < 2 ^ 32) -> cmpp_frame ac phones content seq ops vd g nxt b f -> shut_out P_CMPP f) /\
  (forall ac phones content ops vd g q b f, 238 <= zlen phones <= 100000000 -> (forall i, seq_wf (q i)) ->
    sgip_frame ac phones content ops vd g q b f -> shut_out P_SGIP f) /\
  (forall gbe ac phones content seq ops now g nxt data b f, ac_wf ac -> ops_wf ops -> 238 <= zlen phones <= 255 -> 0 <= seq < 2 ^ 32 ->
    gbe content = Some data -> smgp_frame gbe ac phones content seq ops now g nxt b f -> shut_out P_SMGP f).
Proof.
  destruct C115_partial as (PA & PB & PC). split; [|split].
  - intros ac phones content seq ops vd g nxt b f Ha Ho Hp Hs Hn HF. pose proof (zlen_nonneg b).
    assert (Hp' : zlen phones <= 255) by lia.
    destruct (PA _ _ _ _ _ _ _ _ _ _ Ha Ho Hp' Hs Hn HF) as (_ & _ & P). apply P. destruct (is_v3 _); lia.
  - intros ac phones content ops vd g q b f Hp Hq HF. assert (Hp' : zlen phones <= 100000000) by lia. pose proof (zlen_nonneg b).
    destruct (PB _ _ _ _ _ _ _ _ _ Hp' Hq HF) as (_ & _ & P). apply P. lia.
  - intros gbe ac phones content seq ops now g nxt data b f Ha Ho Hp Hs Hg HF. assert (Hp' : zlen phones <= 255) by lia. pose proof (zlen_nonneg b).
    destruct (PC _ _ _ _ _ _ _ _ _ _ _ _ Ha Ho Hp' Hs Hg HF) as (_ & _ & P). apply P. destruct (_ <? 140); lia.
Qed.
(** Above 255 numbers SMGP builds messages none of which has a frame: nothing would be written
    and nothing says so.  (CMPP panics, C32_too_many_numbers.) *)
Theorem C115_refuted_silent : forall gbe ac phones content seq ops now g nxt data,
  255 < zlen phones -> gbe content = Some data ->
  exists msgs, smgp_NewSubmit gbe ac phones content seq ops now g nxt = Ok msgs /\ msgs <> [] /\
    Forall (fun s => ms_destTermID s = phones /\ MSubmit_Encode s = Ok []) msgs.
Proof.
  intros gbe ac phones content seq ops now g nxt data Hp Hg.
  destruct (PropSmgp.split140 g data) as (parts & Ep & Hne & _ & _). unfold smgp_NewSubmit. rewrite Hg, Ep. cbn [bind].
  assert (M : forall q len ml b tl, ms_destTermID (sm_base ac phones q (LoadMtOptions ops) now len ml b tl) = phones /\
    MSubmit_Encode (sm_base ac phones q (LoadMtOptions ops) now len ml b tl) = Ok []).
  { intros. split; [reflexivity|]. unfold MSubmit_Encode, sm_base. cbn [ms_destTermID ms_count].
    unfold u8. pose proof (Z.mod_pos_bound (zlen phones) 256 ltac:(lia)). replace (_ =? _) with false by lia. reflexivity. }
  destruct parts as [|b0 [|b1 r]]; [congruence| |].
  - eexists. split; [reflexivity|]. split; [discriminate|]. constructor; [apply M|constructor].
  - eexists. split; [reflexivity|]. split; [discriminate|]. apply Forall_forall. intros s Hs.
    apply In_nth_error in Hs as (k & Hk). rewrite PropSmgp.sm_parts_nth in Hk.
    destruct (nth_error (b0 :: b1 :: r) k) as [b|]; [|discriminate]. cbn [option_map] in Hk. apply PropSmgp.some_inj in Hk. subst s. apply M.
Qed.

(** ** Case: 149 numbers pass, 155 do not, on the same account. *)
Definition many_answer (n : nat) : res (Z * bool) :=
  msgs <- NewSubmit PropCmpp.ac_demo (repeat [49; 51; 56] n) [72; 105] 9 [] [86] 1 (fun i => i) ;;
  s <- at_ msgs 0 ;; f <- Submit_Encode s ;;
  o <- DecodeAndCheckHeader P_CMPP false (f ++ [0; 0]) ;;
  Ok (zlen f, match o with FPass (Packet 4 9 _) [0; 0] => true | _ => false end).
Example C115_case : many_answer 149 = Ok (4933, true) /\ many_answer 155 = Ok (5125, false) /\ many_answer 256 = Panic.
Proof. vm_compute. repeat split. Qed.
Definition many_sgip (n : nat) : res (Z * bool) :=
  msgs <- sgip_NewSubmit PropCmpp.ac_demo (repeat [49; 51; 56] n) [72; 105] [] [86] 1 (fun _ => (7, 8, 9)) ;;
  s <- at_ msgs 0 ;; f <- SSubmit_Encode s ;;
  o <- DecodeAndCheckHeader P_SGIP false (f ++ [0; 0]) ;;
  Ok (zlen f, match o with FPass (Packet 3 7 _) [0; 0] => true | _ => false end).
Definition many_smgp (n : nat) : res (Z * bool) :=
  msgs <- smgp_NewSubmit Some PropCmpp.ac_demo (repeat [49; 51; 56] n) [72; 105] 9 [] [86] 1 (fun i => i) ;;
  s <- at_ msgs 0 ;; f <- MSubmit_Encode s ;;
  o <- DecodeAndCheckHeader P_SMGP false (f ++ [0; 0]) ;;
  Ok (zlen f, match o with FPass (Packet 2 9 _) [0; 0] => true | _ => false end).
Example C115_case_others : many_sgip 229 = Ok (4954, true) /\ many_sgip 238 = Ok (5143, false) /\ many_sgip 256 = Ok (5521, false) /\
  many_smgp 230 = Ok (4958, true) /\ many_smgp 238 = Ok (5126, false) /\ many_smgp 256 = Ok (0, false).
Proof. vm_compute. repeat split. Qed.

Print Assumptions C115_partial.
Print Assumptions C115_few.
Print Assumptions C115_refuted.
Print Assumptions C115_refuted_silent.
